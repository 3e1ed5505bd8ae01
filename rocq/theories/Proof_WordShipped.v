(** Every client pattern and every vendor pattern of the shipped tables has the text around it. *)
From Verif Require Import Model_Base Model_Blob Model_Ctx Model_Regex Model_Shipped Data_Client Data_OS Spec_Regex Spec_Word Spec_Database
  Proof_Base Proof_Pattern Proof_Word.
From Coq Require Import Lia.
Open Scope nat_scope.

Definition inside (before behind : nat) (src : bytes) : bytes := firstn (length src - before - behind) (skipn before src).
Definition starts_word_b (src : bytes) : bool :=
  let p := inside 48 1 src in
  if beqs src (word_start p) then match parse_re (any_case p) with Some _ => true | None => false end else false.
Lemma starts_word_ok src : starts_word_b src = true -> exists p a ng, src = word_start p /\ parse_re (any_case p) = Some (a, ng).
Proof.
  unfold starts_word_b. set (p := inside 48 1 src). destruct (beqs src (word_start p)) eqn:E; [|discriminate]. apply beqs_eq in E.
  destruct (parse_re (any_case p)) as [[a ng]|] eqn:P; [|discriminate]. intros _. exists p, a, ng. auto.
Qed.
Definition ends_word_b (src : bytes) : bool :=
  let p := inside 0 10 src in
  if beqs src (p ++ bs "[^a-z0-9]+") then
    if existsb (beq x7c) p then false else if beqs (firstn 4 p) (bs "(?i)") then false
    else match parse_re p with Some _ => true | None => false end
  else false.
Lemma ends_word_ok src : ends_word_b src = true ->
  exists p a ng, src = p ++ bs "[^a-z0-9]+" /\ ~ In x7c p /\ (forall q, p <> bs "(?i)" ++ q) /\ parse_re p = Some (a, ng).
Proof.
  unfold ends_word_b. set (p := inside 0 10 src). destruct (beqs src (p ++ bs "[^a-z0-9]+")) eqn:E; [|discriminate]. apply beqs_eq in E.
  destruct (existsb (beq x7c) p) eqn:X; [discriminate|]. destruct (beqs (firstn 4 p) (bs "(?i)")) eqn:F; [discriminate|].
  destruct (parse_re p) as [[a ng]|] eqn:P; [|discriminate]. intros _. exists p, a, ng. split; [exact E|]. split; [|split; [|exact P]].
  - intros I. assert (Y : existsb (beq x7c) p = true); [|congruence]. apply existsb_exists. exists x7c. split; [exact I|reflexivity].
  - intros q ->. apply Bool.not_true_iff_false in F. apply F. apply beqs_eq. reflexivity.
Qed.
Definition sources_ok (f : bytes -> bool) (l : list blob) : bool := forallb (fun b => f (unblob b)) l.
Lemma compiled_from f l r : sources_ok f l = true -> In r (map (fun b => compile (unblob b)) l) -> exists src, r = compile src /\ f src = true.
Proof. intros H I. apply in_map_iff in I as (b & <- & I). unfold sources_ok in H. rewrite forallb_forall in H. exists (unblob b). auto. Qed.

Lemma client_sources : sources_ok starts_word_b d_cr_re = true.
Proof. vm_cast_no_check (eq_refl true). Qed.
Lemma vendor_sources : sources_ok ends_word_b d_vr_re = true.
Proof. vm_cast_no_check (eq_refl true). Qed.

Lemma client_word_shipped r : In r (cr_re shipped) ->
  exists p a ng, re_src r = word_start p /\ parse_re (any_case p) = Some (a, ng) /\
    forall ua, re_find r ua <> None <-> exists u v w, runes ua = u ++ v ++ w /\ at_start u /\ lang a u v w.
Proof.
  intros I. destruct (compiled_from starts_word_b d_cr_re r client_sources I) as (src & -> & H). apply starts_word_ok in H as (p & a & ng & -> & P).
  exists p, a, ng. split; [reflexivity|]. split; [exact P|]. intros ua. exact (word_start_lang p a ng ua P).
Qed.
Lemma vendor_word_shipped r : In r (vr_re shipped) ->
  exists p a ng, re_src r = p ++ bs "[^a-z0-9]+" /\ parse_re p = Some (a, ng) /\
    forall ua, re_find r ua <> None <-> exists u v x wd w, runes ua = u ++ v ++ (x, wd) :: w /\ lang a u v ((x, wd) :: w) /\ ~ small_char x.
Proof.
  intros I. destruct (compiled_from ends_word_b d_vr_re r vendor_sources I) as (src & -> & H). apply ends_word_ok in H as (p & a & ng & -> & B & Q & P).
  exists p, a, ng. split; [reflexivity|]. split; [exact P|]. intros ua. exact (vendor_word p a ng ua B Q P).
Qed.

(** A quick test that a pattern does not match. *)
From Coq Require Import Lia ZifyBool ZifyNat ZifyN.
From Verif Require Import Model_Base Model_Ctx Model_Regex Spec_Regex Spec_Word
  Proof_Base Proof_Pattern Proof_Syntax Proof_Word Proof_Covers.

(** ** A matcher that only says yes or no *)
Definition nilb (u : text) : bool := match u with [] => true | _ => false end.
Fixpoint loop (m : text -> bool -> (text -> bool -> bool) -> bool) (k : text -> bool -> bool) (n : nat) (s : text) (b : bool) : bool :=
  if k s b then true else
  match n with
  | 0 => false
  | S n' => m s b (fun s' b' => if length s' <? length s then loop m k n' s' b' else false)
  end.
Fixpoint bm (r : re) (s : text) (b : bool) (k : text -> bool -> bool) {struct r} : bool :=
  match r with
  | Eps => k s b
  | Cls neg rs => match s with (x, _) :: s' => if cls_mem neg rs x then k s' false else false | [] => false end
  | Bol => if b then k s b else false
  | Eol => match s with [] => k s b | _ => false end
  | Cat a c => bm a s b (fun s' b' => bm c s' b' k)
  | Alt a c => if bm a s b k then true else bm c s b k
  | Star _ a => loop (bm a) k (length s) s b
  | Grp _ a => bm a s b k
  end.
Lemma nilb_app u v : nilb (u ++ v) = match v with [] => nilb u | _ => false end.
Proof. destruct u, v; reflexivity. Qed.
Lemma loop_more a : (forall u v w k, lang a u v w -> k w (nilb (u ++ v)) = true -> bm a (v ++ w) (nilb u) k = true) ->
  forall g u v w, lang (Star g a) u v w -> forall k n, length (v ++ w) <= n -> k w (nilb (u ++ v)) = true -> loop (bm a) k n (v ++ w) (nilb u) = true.
Proof.
  intros IH g u v w H. remember (Star g a) as r eqn:R. induction H; try discriminate R; intros k n L K.
  - rewrite app_nil_r in K. destruct n; cbn [loop app]; rewrite K; reflexivity.
  - injection R as -> ->. specialize (IHlang2 eq_refl). rewrite <- app_assoc in *. destruct v1 as [|x v1].
    + rewrite app_nil_r in IHlang2. apply IHlang2; [exact L|exact K].
    + destruct n as [|n]; [cbn in L; lia|]. cbn [loop]. destruct (k ((x :: v1) ++ v2 ++ w) (nilb u)); [reflexivity|]. apply (IH _ _ _ _ H).
      replace (length (v2 ++ w) <? length ((x :: v1) ++ v2 ++ w)) with true.
      * apply IHlang2; [cbn in L; rewrite app_length in L; lia|exact K].
      * symmetry. apply PeanoNat.Nat.ltb_lt. cbn. rewrite !app_length. lia.
Qed.
Lemma bm_complete a : forall u v w k, lang a u v w -> k w (nilb (u ++ v)) = true -> bm a (v ++ w) (nilb u) k = true.
Proof.
  induction a as [ |neg rs| | |a IHa c IHc|a IHa c IHc|g a IHa|n a IHa]; intros u v w k L K; cbn [bm].
  - apply lang_eps in L. subst v. rewrite app_nil_r in K. exact K.
  - apply Proof_Word.lang_cls in L. destruct L as (x & wd & -> & M). cbn [app]. rewrite M. rewrite nilb_app in K. exact K.
  - inversion L; subst. exact K.
  - inversion L; subst. rewrite app_nil_r in K. exact K.
  - apply lang_cat_inv in L. destruct L as (v1 & v2 & -> & L1 & L2). rewrite <- app_assoc. apply (IHa _ _ _ _ L1). apply (IHc _ _ _ _ L2).
    rewrite <- app_assoc. exact K.
  - apply Proof_Word.lang_alt in L. destruct L as [L|L]; [rewrite (IHa _ _ _ _ L K); reflexivity|]. rewrite (IHc _ _ _ _ L K). destruct (bm a _ _ _); reflexivity.
  - exact (loop_more a IHa g u v w L k _ (le_n _) K).
  - apply lang_grp in L. exact (IHa _ _ _ _ L K).
Qed.

(** All places where a match may begin; those where one of a client pattern may. *)
Fixpoint places (b : bool) (s : text) : list (bool * text) :=
  (b, s) :: match s with [] => [] | _ :: s' => places false s' end.
Definition alnum (x : N) : bool := in_rng 65 90 x || in_rng 97 122 x || in_rng 48 57 x || (x =? 383)%N || (x =? 8490)%N.
Fixpoint word_places (b ok : bool) (s : text) : list (bool * text) :=
  let rest := match s with [] => [] | (x, _) :: s' => word_places false (negb (alnum x)) s' end in
  if ok then (b, s) :: rest else rest.
Definition tries (a : re) (ps : list (bool * text)) : bool := existsb (fun p => bm a (snd p) (fst p) (fun _ _ => true)) ps.
Lemma places_in v : forall u b, In ((if nilb u then b else false), v) (places b (u ++ v)).
Proof.
  induction u as [|x u IH]; intros b; cbn [app nilb].
  - destruct v; left; reflexivity.
  - cbn [places]. right. specialize (IH false). destruct (nilb u); exact IH.
Qed.
Definition ends_ok (ok : bool) (u : text) : bool := match rev u with [] => ok | (x, _) :: _ => negb (alnum x) end.
Lemma word_places_in v : forall u b ok, ends_ok ok u = true -> In ((if nilb u then b else false), v) (word_places b ok (u ++ v)).
Proof.
  induction u as [|[x wd] u IH]; intros b ok H; cbn [app nilb].
  - unfold ends_ok in H. cbn in H. subst ok. destruct v; left; reflexivity.
  - assert (H' : ends_ok (negb (alnum x)) u = true).
    { unfold ends_ok in *. cbn [rev] in H. destruct (rev u) as [|[y wy] r]; cbn in H; [exact H|exact H]. }
    specialize (IH false _ H'). cbn [word_places]. destruct (nilb u); destruct ok; try (right; exact IH); exact IH.
Qed.
Lemma start_ends u : at_start u -> ends_ok true u = true.
Proof.
  assert (L : forall v x w, alnum x = false -> ends_ok true (v ++ [(x, w)]) = true).
  { intros v x w E. unfold ends_ok. rewrite rev_app_distr. cbn. rewrite E. reflexivity. }
  intros H. destruct H as [->|v x w -> N1 N2|v x w w' -> N|v s -> R|v s -> R].
  - reflexivity.
  - apply L. unfold alnum, in_rng. unfold word_char in N1. lia.
  - change [(x, w); (underscore, w')] with ([(x, w)] ++ [(underscore, w')]). rewrite app_assoc. apply L. reflexivity.
  - inversion R as [|? ? ? ? _ R1]; subst. inversion R1 as [|? ? ? ? _ R2]; subst. inversion R2 as [|? ? ? ? _ R3]; subst.
    inversion R3 as [|? ? ? ? _ R4]; subst. inversion R4 as [|[z wz] ? ? ? Z R5]; subst. inversion R5; subst.
    cbn in Z. destruct Z as [<-|[]].
    match goal with |- ends_ok true (v ++ [?p; ?q; ?r; ?t; ?z]) = true => change [p; q; r; t; z] with ([p; q; r; t] ++ [z]) end.
    rewrite app_assoc. apply L. reflexivity.
  - inversion R as [|? ? ? ? _ R1]; subst. inversion R1 as [|? ? ? ? _ R2]; subst. inversion R2 as [|[z wz] ? ? ? Z R3]; subst. inversion R3; subst.
    cbn in Z. destruct Z as [<-|[]].
    match goal with |- ends_ok true (v ++ [?p; ?q; ?z]) = true => change [p; q; z] with ([p; q] ++ [z]) end.
    rewrite app_assoc. apply L. reflexivity.
Qed.
Lemma tries_ok a u v w ps : lang a u v w -> In (nilb u, v ++ w) ps -> tries a ps = true.
Proof.
  intros L I. unfold tries. apply existsb_exists. exists (nilb u, v ++ w). split; [exact I|]. cbn [fst snd].
  apply (bm_complete a u v w _ L). reflexivity.
Qed.

(** ** The test of an entry *)
Inductive quick := QRe (a : re) | QWord (a : re) | QLit (s : bytes) | QNever | QUnknown.
Definition quick_re (src : bytes) : quick :=
  match parse_re src with
  | Some (Cat h a, _) => if re_eqb h start_re then QWord a else QRe (Cat h a)
  | Some (a, _) => QRe a
  | None => QNever
  end.
Record probe := mkProbe { pr_ua : bytes; pr_all : list (bool * text); pr_words : list (bool * text) }.
Definition probe_of (ua : bytes) : probe := mkProbe ua (places true (runes ua)) (word_places true true (runes ua)).
Definition quick_miss (q : quick) (p : probe) : bool :=
  match q with
  | QRe a => negb (tries a (pr_all p))
  | QWord a => if tries a (pr_words p) then negb (tries (Cat start_re a) (pr_all p)) else true
  | QLit s => negb (contains_b (pr_ua p) s)
  | QNever => true
  | QUnknown => false
  end.
Lemma quick_re_ok src ua : quick_miss (quick_re src) (probe_of ua) = true -> re_find (compile src) ua = None.
Proof.
  intros H. destruct (re_find (compile src) ua) eqn:F; [|reflexivity]. exfalso.
  assert (F' : re_find (compile src) ua <> None) by congruence. clear F. unfold quick_re in H.
  destruct (parse_re src) as [[a ng]|] eqn:P; [|apply F'; unfold compile; rewrite P; reflexivity].
  apply (compile_lang src a ng ua P) in F'. destruct F' as (u & v & w & E & L).
  assert (G : quick_miss (QRe a) (probe_of ua) = true -> False).
  { cbn [quick_miss probe_of pr_all]. intros G. rewrite (tries_ok a u v w) in G; [discriminate G|exact L|]. rewrite E.
    pose proof (places_in (v ++ w) u true) as I. destruct (nilb u); exact I. }
  destruct a; try exact (G H). destruct (re_eqb a1 start_re) eqn:S; [|exact (G H)]. apply re_eqb_eq in S. subst a1.
  cbn [quick_miss] in H. destruct (tries a2 _) eqn:W; [exact (G H)|clear G; apply Bool.negb_true_iff in W; rename W into G; clear H; rename G into H].
  apply lang_cat_inv in L. destruct L as (v1 & v2 & -> & L1 & L2). cbn [quick_miss probe_of pr_words] in H.
  rewrite (tries_ok a2 (u ++ v1) v2 w) in H; [discriminate H|exact L2|].
  assert (A : at_start (u ++ v1)) by (apply lang_start; intros w'; exists u, v1; split; [reflexivity|]; exact (lang_start_any _ _ _ _ L1)).
  apply start_ends in A. pose proof (word_places_in (v2 ++ w) (u ++ v1) true true A) as I. rewrite E, <- !app_assoc in *.
  destruct (nilb (u ++ v1)); exact I.
Qed.


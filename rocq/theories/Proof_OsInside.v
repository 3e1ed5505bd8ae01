(** Names of operating systems inside words. *)
From Coq Require Import Lia ZifyBool ZifyNat ZifyN.
From Verif Require Import Model_Base Model_Blob Model_Ctx Model_Regex Model_Shipped Model_Parse Spec_Regex Spec_Select Spec_Dead Spec_Getters Spec_Inside Spec_OsInside
  Proof_Base Proof_Regex Proof_Pattern Proof_Select Proof_Word Proof_Covers Proof_Quick Proof_Dead Proof_Shadow Proof_Index
  Proof_Live Proof_Tables Proof_Fine Proof_Reports Proof_Choice Proof_AndroidDb Proof_Inside Proof_Quirks.
Open Scope nat_scope.

Section OsInside.
Variable T : tables.
Hypothesis CO : compiled (or_re T).
Hypothesis NS : forall ua x, ~ skipped T ua x.

Definition os_free (t : tree regex) (x : osTuple) : bool :=
  if (0 <=? ot_matchRI x)%Z then
    match look t (ot_matchRI x) with Some r => match parse_re (re_src r) with Some (a, _) => nobol a | None => false end | None => false end
  else true.
Lemma os_free_before x ua a c : os_free (numbered (or_re T)) x = true -> (bn c < 128)%N -> os_applies T (c :: ua) x -> os_applies T (a ++ c :: ua) x.
Proof.
  unfold os_free, os_applies. intros F C [_ X]. split; [apply NS|]. destruct X as [(L & r & N & M)|(L & s & X & O)].
  - destruct (Z.leb_spec 0 (ot_matchRI x)); [|lia]. destruct (look _ _) as [r'|] eqn:LK; [|discriminate F]. apply (look_nth _ _ _ L) in LK. rewrite N in LK. injection LK as <-.
    destruct (parse_re (re_src r)) as [[e ng]|] eqn:P; [|discriminate F].
    assert (E : r = compile (re_src r)) by (apply CO; exact (nth_error_In _ _ N)).
    left. split; [exact L|]. exists r. split; [exact N|]. rewrite E in M |- *. apply (compile_lang _ e ng _ P) in M. apply (compile_lang _ e ng _ P).
    destruct M as (u & v & w & R & M). pose proof (runes_more c ua C (length a) a (le_n _)) as RM. unfold bytes in *. rewrite RM, R.
    exists (runes a ++ u), v, w. split; [rewrite !app_assoc; reflexivity|]. exact (nobol_lang _ _ _ _ M F _).
  - right. split; [exact L|]. exists s. split; [exact X|]. destruct O as (NE & p & q & E). split; [exact NE|]. exists (a ++ p), q. rewrite E, <- app_assoc. reflexivity.
Qed.
(** Entry by entry, the places left out in ascending order. *)
Fixpoint os_all_free (t : tree regex) (skip : list nat) (n : nat) (l : list osTuple) : bool :=
  match l with
  | [] => true
  | x :: l' => if (if os_free t x then true else existsb (Nat.eqb n) skip) then os_all_free t skip (S n) l' else false
  end.
Lemma os_all_free_nth t skip l : forall n i x, os_all_free t skip n l = true -> nth_error l i = Some x -> ~ In (n + i) skip -> os_free t x = true.
Proof.
  induction l as [|y l IH]; intros n i x H N D; [destruct i; discriminate N|]. cbn [os_all_free] in H. destruct i as [|i]; cbn in N.
  - injection N as ->. destruct (os_free t x); [reflexivity|]. destruct (existsb (Nat.eqb n) skip) eqn:E; [|discriminate H].
    apply existsb_exists in E. destruct E as (m & I & E). apply PeanoNat.Nat.eqb_eq in E. subst m. rewrite PeanoNat.Nat.add_0_r in D. contradiction.
  - apply (IH (S n) i x); [|exact N|replace (S n + i) with (n + S i) by lia; exact D]. destruct (if os_free t y then true else _); [exact H|discriminate H].
Qed.
Definition os_before_check (skip : list nat) : bool := os_all_free (numbered (or_re T)) skip 0 (or_os T).
Lemma os_before_all skip : os_before_check skip = true -> forall i x, nth_error (or_os T) i = Some x -> ~ In i skip ->
  forall a c ua, (bn c < 128)%N -> os_applies T (c :: ua) x -> os_applies T (a ++ c :: ua) x.
Proof. intros H i x I D a c ua C. apply os_free_before; [|exact C]. exact (os_all_free_nth _ _ _ 0 i x H I D). Qed.

(** ** Words *)
Definition os_has_word (t : tree regex) (s : bytes) (x : osTuple) : bool :=
  if asciib s then
  if (0 <=? ot_matchRI x)%Z then
    match look t (ot_matchRI x) with Some r => match parse_re (re_src r) with Some (a, _) => has 300 (caseless s) [a] | None => false end | None => false end
  else false else false.
Lemma os_has_word_ok s x ua : s <> [] -> os_has_word (numbered (or_re T)) s x = true -> says s ua -> os_applies T ua x.
Proof.
  unfold os_has_word. intros NE H (a & w & b & -> & SP). destruct (asciib s) eqn:A; [|discriminate H]. destruct (Z.leb_spec 0 (ot_matchRI x)) as [L|]; [|discriminate H].
  destruct (look _ _) as [r|] eqn:LK; [|discriminate H]. apply (look_nth _ _ _ L) in LK. destruct (parse_re (re_src r)) as [[e ng]|] eqn:P; [|discriminate H].
  destruct (occurs_langs w (a ++ w ++ b) (spelled_ascii w s A SP)) as (u & v & k & R & LG).
  { split; [intros ->; inversion SP; subst; exact (NE eq_refl)|]. exists a, b. reflexivity. }
  apply (spelled_langs s w) in LG; [|exact SP]. destruct (has_found _ _ _ H u v k LG) as (q & [<-|[]] & F). rewrite <- R in F.
  split; [apply NS|]. left. split; [exact L|]. exists r. split; [exact LK|]. rewrite (CO r (nth_error_In _ _ LK)). apply (compile_lang _ e ng _ P). exact F.
Qed.
Definition os_words_check (ws : list (bytes * nat)) : bool :=
  let t := numbered (or_re T) in
  forallb (fun p => match fst p with [] => false | _ => match nth_error (or_os T) (snd p) with Some x => os_has_word t (fst p) x | None => false end end) ws.
Lemma os_words_entry ws s n ua : os_words_check ws = true -> In (s, n) ws -> says s ua -> exists x, nth_error (or_os T) n = Some x /\ os_applies T ua x.
Proof.
  unfold os_words_check. cbv zeta. intros H I SA. rewrite forallb_forall in H. specialize (H (s, n) I). cbn [fst snd] in H.
  assert (NE : s <> []) by (intros ->; discriminate H). destruct s as [|c s]; [contradiction|]. destruct (nth_error (or_os T) n) as [x|]; [|discriminate H].
  exists x. split; [reflexivity|]. exact (os_has_word_ok (c :: s) x ua NE H SA).
Qed.
Lemma os_applies_dec ua x : os_applies T ua x \/ ~ os_applies T ua x.
Proof.
  destruct (applies_dec (or_re T) (or_buf T) (ot_matchRI x) (ot_match64 x) ua) as [A|A]; [left|right].
  - split; [apply NS|exact A].
  - intros [_ B]. exact (A B).
Qed.
Lemma os_words_first ws s n ua : os_words_check ws = true -> In (s, n) ws -> says s ua -> exists i, i <= n /\ picked (os_applies T ua) (or_os T) i.
Proof.
  intros H I SA. destruct (os_words_entry ws s n ua H I SA) as (x & N & X). exact (some_picked (os_applies T ua) (os_applies_dec ua) _ n x N X).
Qed.
Lemma picked_first {A} (P : A -> Prop) l i : picked P l i -> exists x, nth_error l i = Some x /\ first P l x.
Proof.
  intros (x & N & X & B). exists x. split; [exact N|]. destruct (nth_error_split _ _ N) as (l1 & l2 & E & L). exists l1, l2. split; [exact E|]. split; [exact X|].
  intros y I. destruct (In_nth_error _ _ I) as (j & J). assert (JL : j < length l1) by (apply nth_error_Some; rewrite J; discriminate).
  apply (B j y); [lia|]. rewrite E, nth_error_app1 by exact JL. exact J.
Qed.
Lemma os_words_name ws s n mC mD h ua r : os_sane T -> Spec_Select.small ua -> os_words_check ws = true -> In (s, n) ws -> says s ua -> alone T mC mD h ua GOS = Ok (VB r) ->
  exists i x, i <= n /\ nth_error (or_os T) i = Some x /\ os_is T ua x /\ os_name_is T ua x r.
Proof.
  intros SN L H I SA G. destruct (os_words_first ws s n ua H I SA) as (i & LE & P). destruct (picked_first _ _ _ P) as (x & N & F).
  destruct (proj1 (os_reports T mC mD h ua SN L) r G) as (_ & O & _). exists i, x. split; [exact LE|]. split; [exact N|]. split; [exact F|]. exact (O x F).
Qed.
End OsInside.

Lemma shipped_os_free : os_before_check shipped os_anchored = true.
Proof. vm_cast_no_check (eq_refl true). Qed.
Lemma shipped_os_words : os_words_check shipped os_words = true.
Proof. vm_cast_no_check (eq_refl true). Qed.
Lemma shipped_no_skip ua x : ~ skipped shipped ua x.
Proof. exact (Proof_Quirks.dead shipped ltac:(vm_cast_no_check (eq_refl true)) ua x). Qed.
Lemma shipped_os_before i x : nth_error (or_os shipped) i = Some x -> ~ In i os_anchored ->
  forall a c ua, (bn c < 128)%N -> os_applies shipped (c :: ua) x -> os_applies shipped (a ++ c :: ua) x.
Proof. exact (os_before_all shipped or_compiled shipped_no_skip os_anchored shipped_os_free i x). Qed.
Lemma shipped_os_first s n ua : In (s, n) os_words -> says s ua -> exists i, i <= n /\ picked (os_applies shipped ua) (or_os shipped) i.
Proof. exact (os_words_first shipped or_compiled shipped_no_skip os_words s n ua shipped_os_words). Qed.
Lemma shipped_os_name s n mC mD h ua r : In (s, n) os_words -> says s ua -> Spec_Select.small ua -> alone shipped mC mD h ua GOS = Ok (VB r) ->
  exists i x, i <= n /\ nth_error (or_os shipped) i = Some x /\ os_is shipped ua x /\ os_name_is shipped ua x r.
Proof. intros I SA L. exact (os_words_name shipped or_compiled shipped_no_skip os_words s n mC mD h ua r shipped_os_sane L shipped_os_words I SA). Qed.
Lemma os_entry s n ua : In (s, n) os_words -> says s ua -> exists x, nth_error (or_os shipped) n = Some x /\ os_applies shipped ua x.
Proof. exact (os_words_entry shipped or_compiled shipped_no_skip os_words s n ua shipped_os_words). Qed.
Lemma app_small : Spec_Select.small app_client.
Proof. unfold Spec_Select.small. vm_compute. reflexivity. Qed.
Lemma app_says : says (bs "ppc") app_client.
Proof.
  exists (bs "MyA"), (bs "ppC"), (bs "lient/1.0"). split; [reflexivity|].
  refine (@Forall2_cons _ _ _ x70 x70 [x70; x43] [x70; x63] (or_introl eq_refl) (@Forall2_cons _ _ _ x70 x70 [x43] [x63] (or_introl eq_refl)
    (@Forall2_cons _ _ _ x43 x63 [] [] (or_intror (conj (conj _ _) eq_refl)) (Forall2_nil _)))); discriminate.
Qed.
Lemma app_inside : ~ starts_word (bs "ppc") app_client.
Proof. apply insideb_not. reflexivity. Qed.
Lemma app_case : In (bs "ppc", 282) os_words /\ says (bs "ppc") app_client /\ Spec_Select.small app_client /\
  (exists x, nth_error (or_os shipped) 282 = Some x /\ os_applies shipped app_client x) /\ ~ In 282 os_anchored.
Proof.
  assert (I : In (bs "ppc", 282) os_words) by (do 11 right; left; reflexivity).
  split; [exact I|]. split; [exact app_says|]. split; [exact app_small|]. split; [exact (os_entry _ _ _ I app_says)|].
  assert (H : existsb (Nat.eqb 282) os_anchored = false) by (vm_compute; reflexivity).
  intros J. assert (K : existsb (Nat.eqb 282) os_anchored = true) by (apply existsb_exists; exists 282; split; [exact J|apply PeanoNat.Nat.eqb_refl]).
  rewrite H in K. discriminate K.
Qed.
Lemma app_mac : exists ua, Spec_Select.small ua /\ says (bs "ppc") ua /\ ~ starts_word (bs "ppc") ua /\
  alone shipped 63 1023 0 ua GOS = Ok (VB (bs "Mac")).
Proof.
  exact (ex_intro _ app_client (conj app_small (conj app_says (conj app_inside
    (bytes_case shipped 63 1023 0 app_client GOS (bs "Mac") ltac:(vm_compute; reflexivity)))))).
Qed.

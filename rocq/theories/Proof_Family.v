(** Families of texts (a list of sets of characters, each taken once or repeatedly) and a check that no text of a family is
    matched by an expression: the set of places of the family an expression can reach, as a bit set. *)
From Verif Require Import Model_Base Model_Regex Model_Ctx Spec_Regex Spec_Select Spec_Word Proof_Pattern Proof_Word Proof_Covers Proof_Quick Proof_Index
  Proof_Shadow Proof_Bare.
From Coq Require Import Lia ZifyBool ZifyNat ZifyN.

(** One character of the set; with [true], one or more. *)
Definition item := (list N * bool)%type.
Inductive gen : list item -> Spec_Regex.text -> Prop :=
| G_nil : gen [] []
| G_one l b is x s : In x l -> gen is s -> gen ((l, b) :: is) ((x, 1) :: s)
| G_more l is x s : In x l -> gen ((l, true) :: is) s -> gen ((l, true) :: is) ((x, 1) :: s).

(** ** Bit sets *)
Definition bput (b : bool) (n : N) : N := if b then N.succ_double n else N.double n.
Definition has (S : N) (i : nat) : Prop := N.testbit_nat S i = true.
Lemma bput_0 b n : has (bput b n) 0 <-> b = true.
Proof. unfold has, put. destruct b, n; cbn; intuition discriminate. Qed.
Lemma bput_S b n i : has (bput b n) (S i) <-> has n i.
Proof. unfold has, put. destruct b, n; cbn; tauto. Qed.
Lemma has_lor a b i : has (N.lor a b) i <-> has a i \/ has b i.
Proof. unfold has. rewrite <- !Ntestbit_Nbit, N.lor_spec, orb_true_iff. tauto. Qed.
Lemma has_land a b i : has (N.land a b) i <-> has a i /\ has b i.
Proof. unfold has. rewrite <- !Ntestbit_Nbit, N.land_spec, andb_true_iff. tauto. Qed.
Lemma has_double a i : has (N.double a) (S i) <-> has a i.
Proof. exact (bput_S false a i). Qed.
Lemma has_0 i : ~ has 0 i.
Proof. unfold has. destruct i; cbn; discriminate. Qed.

Section Family.
Variable items : list item.
Fixpoint mask_of (f : item -> bool) (l : list item) : N :=
  match l with [] => 0%N | x :: l' => bput (f x) (mask_of f l') end.
Lemma mask_has f l : forall i x, nth_error l i = Some x -> f x = true -> has (mask_of f l) i.
Proof.
  induction l as [|y l IH]; intros [|i] x E F; try discriminate E; cbn [mask_of].
  - injection E as ->. apply bput_0. exact F.
  - apply bput_S. exact (IH i x E F).
Qed.
Fixpoint full (n : nat) : N := match n with 0 => 1%N | S n' => N.succ_double (full n') end.
Lemma full_has n : forall i, i <= n -> has (full n) i.
Proof. induction n as [|n IH]; intros [|i] L; cbn [full]; try lia; try reflexivity; [apply (bput_0 true); reflexivity|]. apply (bput_S true). apply IH. lia. Qed.
Fixpoint only (n : nat) : N := match n with 0 => 1%N | S n' => N.double (only n') end.
Lemma only_has n : has (only n) n.
Proof. induction n as [|n IH]; [reflexivity|]. cbn [only]. apply has_double. exact IH. Qed.

Definition memb (x : N) (l : list N) : bool := existsb (N.eqb x) l.
Lemma memb_in x l : memb x l = true <-> In x l.
Proof. unfold memb. rewrite existsb_exists. split; [intros (y & I & E); apply N.eqb_eq in E as ->; exact I|]. intros I. exists x. split; [exact I|apply N.eqb_refl]. Qed.
(** The characters of the family, each with the items that contain it. *)
Definition alphabet : list (N * N) := map (fun x => (x, mask_of (fun it => memb x (fst it)) items)) (nodup N.eq_dec (flat_map fst items)).
Definition hits_of (al : list (N * N)) (neg : bool) (rs : list (N * N)) : N :=
  fold_right (fun xm acc => if cls_mem neg rs (fst xm) then N.lor (snd xm) acc else acc) 0%N al.
Lemma hits_has neg rs i l b x : nth_error items i = Some (l, b) -> In x l -> cls_mem neg rs x = true -> has (hits_of alphabet neg rs) i.
Proof.
  intros E I C. unfold hits_of, alphabet.
  assert (X : In x (nodup N.eq_dec (flat_map fst items))).
  { apply nodup_In. apply in_flat_map. exists (l, b). split; [exact (nth_error_In _ _ E)|exact I]. }
  induction (nodup N.eq_dec (flat_map fst items)) as [|y ys IH]; [destruct X|]. cbn [map fold_right fst snd].
  destruct X as [->|X].
  - rewrite C. apply has_lor. left. apply (mask_has _ items i (l, b)); [exact E|]. apply memb_in. exact I.
  - destruct (cls_mem neg rs y); [apply has_lor; right|]; exact (IH X).
Qed.

Variables al : list (N * N).
Variables plus whole last : N.
Definition step (S : N) (neg : bool) (rs : list (N * N)) : N :=
  let M := N.land S (hits_of al neg rs) in N.lor (N.double M) (N.land M plus).
Fixpoint closing (n : nat) (f : N -> N) (S : N) : N :=
  match n with
  | 0 => whole
  | S n' => let S' := N.lor S (f S) in if (S' =? S)%N then S else closing n' f S'
  end.
Fixpoint reach (r : re) (S : N) {struct r} : N :=
  match S with
  | N0 => 0%N
  | _ => match r with
         | Eps => S
         | Cls neg rs => step S neg rs
         | Bol => N.land S 1
         | Eol => N.land S last
         | Cat a b => reach b (reach a S)
         | Alt a b => N.lor (reach a S) (reach b S)
         | Star _ a => closing 300 (reach a) S
         | Grp _ a => reach a S
         end
  end.

Hypothesis Hset : al = alphabet /\ plus = mask_of snd items /\ whole = full (length items) /\ last = only (length items).
Hypothesis Hfirst : match items with [] => False | (_, b) :: _ => b = false end.

(** The text [w] is left at place [i] of the family, [u] being read. *)
Definition here (i : nat) (u w : Spec_Regex.text) : Prop := i <= length items /\ (u = [] <-> i = 0) /\ gen (skipn i items) w.
Lemma skip_cons {A} : forall i (l : list A) x r, skipn i l = x :: r -> nth_error l i = Some x /\ skipn (S i) l = r /\ i < length l.
Proof.
  induction i as [|i IH]; intros [|y l] x r E; try discriminate E; cbn in E.
  - injection E as -> ->. cbn. auto with arith.
  - destruct (IH l x r E) as (A1 & A2 & A3). cbn. repeat split; auto. lia.
Qed.
Lemma step_ok S neg rs i u x wd w : has S i -> here i u ((x, wd) :: w) -> cls_mem neg rs x = true ->
  exists j, has (step S neg rs) j /\ here j (u ++ [(x, wd)]) w.
Proof.
  intros H (L & U & G) C. destruct (skipn i items) as [|[l b] r] eqn:E; [inversion G|].
  destruct (skip_cons i items (l, b) r E) as (N1 & N2 & N3).
  assert (M : In x l -> has (N.land S (hits_of al neg rs)) i).
  { intros I. apply has_land. split; [exact H|]. rewrite (proj1 Hset). exact (hits_has neg rs i l b x N1 I C). }
  unfold step. cbv zeta. inversion G as [|l' b' is' x' s' I G'|l' is' x' s' I G']; subst.
  - exists (Datatypes.S i). split; [apply has_lor; left; apply has_double; exact (M I)|]. split; [lia|]. split; [|exact G'].
    split; [intros Z; destruct u; discriminate Z|discriminate].
  - exists i. split.
    + apply has_lor. right. apply has_land. split; [exact (M I)|]. rewrite (proj1 (proj2 Hset)). apply (mask_has snd items i _ N1). reflexivity.
    + split; [lia|]. split; [|rewrite E; exact G']. split; [intros Z; destruct u; discriminate Z|]. intros ->.
      destruct items as [|[l0 b0] is0]; [destruct Hfirst|]. injection N1 as -> ->. discriminate Hfirst.
Qed.
(** Iterating [f] from any place of [S] stays in the closure (or the closure is everything). *)
Lemma closing_has n f : forall S i, has S i -> i <= length items -> has (closing n f S) i.
Proof.
  induction n as [|n IH]; intros S i H B; cbn [closing].
  - rewrite (proj1 (proj2 (proj2 Hset))). apply full_has. exact B.
  - destruct (N.lor S (f S) =? S)%N eqn:E; [exact H|]. apply IH; [|exact B]. apply has_lor. left. exact H.
Qed.
Lemma closing_closed n f : forall S, closing n f S = whole \/ N.lor (closing n f S) (f (closing n f S)) = closing n f S.
Proof.
  induction n as [|n IH]; intros S; cbn [closing]; [left; reflexivity|].
  destruct (N.lor S (f S) =? S)%N eqn:E; [right; apply N.eqb_eq; exact E|apply IH].
Qed.
Lemma reach_ok r : forall u v w, lang r u v w -> forall S i, has S i -> here i u (v ++ w) -> exists j, has (reach r S) j /\ here j (u ++ v) w.
Proof.
  induction r as [|neg rs| | |a IHa b IHb|a IHa b IHb|g a IHa|n a IHa]; intros u v w L S i H B;
    (assert (NZ : S <> 0%N) by (intros ->; exact (has_0 i H))); cbn [reach];
    (destruct S as [|p] eqn:ES; [destruct (NZ eq_refl)|]; rewrite <- ES in *; clear NZ ES).
  - inversion L; subst. exists i. rewrite app_nil_r. auto.
  - inversion L; subst. apply (step_ok S neg rs i u x wd w H B). assumption.
  - inversion L; subst. exists i. rewrite app_nil_r. split; [|exact B]. apply has_land. split; [exact H|].
    destruct B as (_ & [U _] & _). rewrite (U eq_refl). reflexivity.
  - inversion L; subst. exists i. rewrite app_nil_r. split; [|exact B]. apply has_land. split; [exact H|].
    destruct B as (Li & _ & G). cbn [app] in G. inversion G as [E| |]. symmetry in E. rewrite (proj2 (proj2 (proj2 Hset))).
    assert (length items <= i) by (apply (f_equal (@length _)) in E; rewrite skipn_length in E; cbn in E; lia).
    replace i with (length items) by lia. apply only_has.
  - inversion L as [| | | |a' b' u' v1 v2 w' L1 L2| | | | |]; subst. rewrite <- app_assoc in B. destruct (IHa _ _ _ L1 S i H B) as (j & Hj & Bj).
    destruct (IHb _ _ _ L2 _ j Hj Bj) as (k & Hk & Bk). exists k. rewrite app_assoc. auto.
  - inversion L as [| | | | |a' b' u' v' w' L1|a' b' u' v' w' L1| | |]; subst.
    + destruct (IHa _ _ _ L1 S i H B) as (j & Hj & Bj). exists j. split; [apply has_lor; left; exact Hj|exact Bj].
    + destruct (IHb _ _ _ L1 S i H B) as (j & Hj & Bj). exists j. split; [apply has_lor; right; exact Hj|exact Bj].
  - assert (Hc : has (closing 300 (reach a) S) i) by (apply closing_has; [exact H|exact (proj1 B)]).
    pose proof (closing_closed 300 (reach a) S) as CL. revert Hc CL. generalize (closing 300 (reach a) S). intros R Hc CL.
    clear H. revert i Hc B.
    remember (Star g a) as st eqn:Est. induction L; try discriminate Est; intros i Hc B.
    + exists i. rewrite app_nil_r. auto.
    + injection Est as -> ->. rewrite <- app_assoc in B. destruct (IHa _ _ _ L1 R i Hc B) as (j & Hj & Bj).
      assert (Hj' : has R j).
      { destruct CL as [->|CL]; [rewrite (proj1 (proj2 (proj2 Hset))); apply full_has; exact (proj1 Bj)|]. rewrite <- CL. apply has_lor. right. exact Hj. }
      destruct (IHL2 eq_refl j Hj' Bj) as (k & Hk & Bk). exists k. rewrite app_assoc. auto.
  - inversion L as [| | | | | | | | |n' a' u' v' w' L1]; subst. exact (IHa _ _ _ L1 S i H B).
Qed.

(** Places before which a character that is not a letter or digit may stand. *)
Definition loose (l : list N) : bool := existsb (fun x => negb (alnum x)) l.
Fixpoint word_mask (prev : bool) (l : list item) : N :=
  match l with
  | [] => bput prev 0
  | (cs, b) :: l' => bput (if prev then true else if b then loose cs else false) (word_mask (loose cs) l')
  end.
End Family.

Lemma loose_in x l : In x l -> alnum x = false -> loose l = true.
Proof. intros I A. apply existsb_exists. exists x. rewrite A. auto. Qed.
(** Every place of a text of the family is a place of the family. *)
Lemma gen_place l s : gen l s -> forall u w, s = u ++ w -> forall prev, ends_ok prev u = true ->
  exists i, i <= length l /\ gen (skipn i l) w /\ has (word_mask prev l) i /\ (match l with (_, false) :: _ => u = [] <-> i = 0 | _ => True end).
Proof.
  induction 1 as [|cs b is x s I G IH|cs is x s I G IH]; intros u w E prev EO.
  - symmetry in E. apply app_eq_nil in E as [-> ->]. exists 0. split; [lia|]. split; [constructor|]. split; [apply bput_0; exact EO|exact Logic.I].
  - destruct u as [|c u]; cbn [app] in E.
    + subst w. exists 0. split; [lia|]. split; [constructor; assumption|]. split; [|destruct b; tauto].
      cbn [word_mask]. apply bput_0. unfold ends_ok in EO. cbn in EO. rewrite EO. reflexivity.
    + injection E as <- ->. destruct (IH u w eq_refl (loose cs)) as (i & L & Gi & Wi & _).
      { unfold ends_ok in *. cbn [rev] in EO. destruct (rev u) as [|[y wy] r]; cbn in EO; [|exact EO].
        apply (loose_in x); [exact I|]. destruct (alnum x); [discriminate EO|reflexivity]. }
      exists (S i). split; [cbn; lia|]. split; [exact Gi|]. split; [cbn [word_mask]; apply bput_S; exact Wi|].
      destruct b; [exact Logic.I|]. split; discriminate.
  - destruct u as [|c u]; cbn [app] in E.
    + subst w. exists 0. split; [lia|]. split; [apply G_more; assumption|]. split; [|exact Logic.I].
      cbn [word_mask]. apply bput_0. unfold ends_ok in EO. cbn in EO. rewrite EO. reflexivity.
    + injection E as <- ->. destruct u as [|c u].
      * cbn [app] in *. unfold ends_ok in EO. cbn in EO. exists 0. split; [lia|]. split; [exact G|]. split; [|exact Logic.I].
        cbn [word_mask]. apply bput_0. rewrite (loose_in x cs I) by (destruct (alnum x); [discriminate EO|reflexivity]). destruct prev; reflexivity.
      * destruct (IH (c :: u) w eq_refl prev) as (i & L & Gi & Wi & _).
        { unfold ends_ok in *. change (rev ((x, 1) :: c :: u)) with (rev (c :: u) ++ [(x, 1)]) in EO.
          destruct (rev (c :: u)) as [|[y wy] r] eqn:R; [|exact EO]. apply (f_equal (@length _)) in R. rewrite rev_length in R. discriminate R. }
        exists i. auto.
Qed.

(** ** The test of an entry *)
Record fam := mkFam { f_al : list (N * N); f_plus : N; f_whole : N; f_last : N; f_words : N }.
Definition fam_of (items : list item) : fam :=
  mkFam (alphabet items) (mask_of snd items) (full (length items)) (only (length items)) (word_mask true items).
Definition fixed_first (items : list item) : bool := match items with (_, false) :: _ => true | _ => false end.
Definition go (F : fam) (r : re) (S : N) : N := reach (f_al F) (f_plus F) (f_whole F) (f_last F) r S.
Definition lits (s : bytes) : re := fold_right (fun b r => Cat (Cls false [(bn b, bn b)]) r) Eps s.
Definition fam_miss (F : fam) (q : quick) : bool :=
  match q with
  | QRe a => (go F a (f_whole F) =? 0)%N
  | QWord a => if (go F a (f_words F) =? 0)%N then true else (go F (Cat start_re a) (f_whole F) =? 0)%N
  | QLit s => (go F (lits s) (f_whole F) =? 0)%N
  | QNever => true
  | QUnknown => false
  end.

Section Miss.
Variable items : list item.
Hypothesis FF : fixed_first items = true.
Lemma fixed_match : match items with [] => False | (_, b) :: _ => b = false end.
Proof. unfold fixed_first in FF. destruct items as [|[l [|]] is]; [discriminate|discriminate|reflexivity]. Qed.
Lemma go_ok r u v w : lang r u v w -> forall S i, has S i -> here items i u (v ++ w) -> exists j, has (go (fam_of items) r S) j /\ here items j (u ++ v) w.
Proof. intros L S i. apply (reach_ok items _ _ _ _ (conj eq_refl (conj eq_refl (conj eq_refl eq_refl))) fixed_match r u v w L). Qed.
Lemma place_word u w : gen items (u ++ w) -> ends_ok true u = true -> exists i, has (f_words (fam_of items)) i /\ here items i u w.
Proof.
  intros G E. destruct (gen_place items (u ++ w) G u w eq_refl true E) as (i & L & Gi & W & U). exists i. split; [exact W|].
  split; [exact L|]. split; [|exact Gi]. pose proof FF as H. unfold fixed_first in H. destruct items as [|[l [|]] is]; [discriminate|discriminate|exact U].
Qed.
Lemma gen_any l s : gen l s -> forall u w, s = u ++ w ->
  exists i, i <= length l /\ gen (skipn i l) w /\ (match l with (_, false) :: _ => u = [] <-> i = 0 | _ => True end).
Proof.
  induction 1 as [|cs b is x s I G IH|cs is x s I G IH]; intros u w E.
  - symmetry in E. apply app_eq_nil in E as [-> ->]. exists 0. split; [lia|]. split; [constructor|exact Logic.I].
  - destruct u as [|c u]; cbn [app] in E.
    + subst w. exists 0. split; [lia|]. split; [constructor; assumption|destruct b; tauto].
    + injection E as <- ->. destruct (IH u w eq_refl) as (i & L & Gi & _). exists (S i). split; [cbn; lia|]. split; [exact Gi|].
      destruct b; [exact Logic.I|]. split; discriminate.
  - destruct u as [|c u]; cbn [app] in E.
    + subst w. exists 0. split; [lia|]. split; [apply G_more; assumption|exact Logic.I].
    + injection E as <- ->. destruct (IH u w eq_refl) as (i & L & Gi & _). exists i. auto.
Qed.
Lemma place_any u w : gen items (u ++ w) -> exists i, has (f_whole (fam_of items)) i /\ here items i u w.
Proof.
  intros G. destruct (gen_any items (u ++ w) G u w eq_refl) as (i & L & Gi & U). exists i. split; [apply full_has; exact L|].
  split; [exact L|]. split; [|exact Gi]. pose proof FF as H. unfold fixed_first in H. destruct items as [|[l [|]] is]; [discriminate|discriminate|exact U].
Qed.
Lemma go_miss r u v w : gen items (u ++ v ++ w) -> lang r u v w -> (go (fam_of items) r (f_whole (fam_of items)) =? 0)%N = false.
Proof.
  intros G L. destruct (place_any u (v ++ w) G) as (i & H & B). destruct (go_ok r u v w L _ i H B) as (j & Hj & _).
  apply N.eqb_neq. intros Z. rewrite Z in Hj. exact (has_0 j Hj).
Qed.
Lemma lang_lits s : forall u w, lang (lits s) u (map (fun b => (bn b, 1)) s) w.
Proof.
  induction s as [|b s IH]; intros u w; [constructor|]. cbn [lits fold_right map].
  apply (L_cat _ _ u [(bn b, 1)] (map (fun b => (bn b, 1)) s) w); [|apply IH]. constructor. unfold cls_mem, in_rng. cbn [existsb fst snd]. rewrite !N.leb_refl. reflexivity.
Qed.
Definition ascii (s : bytes) : Prop := Forall (fun b => (bn b < 128)%N) s.
Lemma runes_ascii_all s : ascii s -> runes s = map (fun b => (bn b, 1)) s.
Proof. induction 1 as [|b s L _ IH]; [reflexivity|]. rewrite runes_ascii by exact L. cbn [map]. rewrite IH. reflexivity. Qed.

Lemma fam_re_ok src ua : gen items (runes ua) -> fam_miss (fam_of items) (quick_re src) = true -> re_find (compile src) ua = None.
Proof.
  intros G H. destruct (re_find (compile src) ua) eqn:F; [|reflexivity]. exfalso.
  assert (F' : re_find (compile src) ua <> None) by congruence. clear F. unfold quick_re in H.
  destruct (parse_re src) as [[a ng]|] eqn:P; [|apply F'; unfold compile; rewrite P; reflexivity].
  apply (compile_lang src a ng ua P) in F'. destruct F' as (u & v & w & Er & L). rewrite Er in G.
  assert (GO : fam_miss (fam_of items) (QRe a) = true -> False) by (cbn [fam_miss]; intros Z; rewrite (go_miss a u v w G L) in Z; discriminate Z).
  destruct a; try exact (GO H). destruct (re_eqb a1 start_re) eqn:S; [|exact (GO H)]. apply re_eqb_eq in S. subst a1.
  cbn [fam_miss] in H. destruct (go (fam_of items) a2 (f_words (fam_of items)) =? 0)%N eqn:W; [|exact (GO H)].
  apply lang_cat_inv in L. destruct L as (v1 & v2 & -> & L1 & L2).
  assert (As : at_start (u ++ v1)) by (apply lang_start; intros w'; exists u, v1; split; [reflexivity|]; exact (lang_start_any _ _ _ _ L1)).
  apply start_ends in As. replace (u ++ (v1 ++ v2) ++ w) with ((u ++ v1) ++ v2 ++ w) in G by (rewrite <- !app_assoc; reflexivity).
  destruct (place_word (u ++ v1) (v2 ++ w) G As) as (j & Hj & B).
  destruct (go_ok a2 (u ++ v1) v2 w L2 _ j Hj B) as (k & Hk & _). apply N.eqb_eq in W. rewrite W in Hk. exact (has_0 k Hk).
Qed.
End Miss.

(** ** An entry and a table, several families at once *)
Definition quick_at (t : tree regex) (ps : tree bytes) (i : Z) (e : N) : quick :=
  if (0 <=? i)%Z then match look t i with Some r => quick_re (re_src r) | None => QUnknown end
  else match cut ps e with [] => QUnknown | s => QLit s end.
Lemma quick_at_ok items n res buf i e ua : fixed_first items = true -> compiled res -> ascii ua -> gen items (runes ua) ->
  fam_miss (fam_of items) (quick_at (numbered res) (numbered (pages n buf)) i e) = true -> ~ applies res buf i e ua.
Proof.
  intros FF CO A G H [(R & r & E & Fd)|(R & s & T & O)]; unfold quick_at in H.
  - replace (0 <=? i)%Z with true in H by lia. destruct (look (numbered res) i) as [r'|] eqn:K; [|discriminate H].
    apply (look_nth res i r' R) in K. rewrite E in K. injection K as <-. apply Fd. rewrite (CO r (nth_error_In _ _ E)).
    exact (fam_re_ok items FF _ ua G H).
  - replace (0 <=? i)%Z with false in H by lia. apply (cut_ok n) in T.
    destruct (cut (numbered (pages n buf)) e) as [|c l] eqn:K; [discriminate H|]. destruct T as [T|T]; [|discriminate T]. rewrite T in H.
    destruct O as [_ (a & b & E)]. cbn [fam_miss] in H. subst ua. rewrite runes_ascii_all in G by exact A. rewrite !map_app in G.
    rewrite (go_miss items FF (lits s) _ _ _ G (lang_lits s _ _)) in H. discriminate H.
Qed.
(** Entry number [k] is missed by every family that has not stopped before it. *)
Definition all_miss (Fs : list (fam * N)) (k : N) (q : quick) : bool :=
  forallb (fun F => if (k <? snd F)%N then fam_miss (fst F) q else true) Fs.
Fixpoint table_miss {A} (f : A -> quick) (Fs : list (fam * N)) (k : N) (l : list A) : bool :=
  match l with
  | [] => true
  | x :: l' => if all_miss Fs k (f x) then table_miss f Fs (N.succ k) l' else false
  end.
Lemma table_miss_ok {A} (f : A -> quick) Fs l : forall k, table_miss f Fs k l = true -> forall F stop i x, In (F, stop) Fs -> nth_error l i = Some x -> (k + N.of_nat i < stop)%N ->
  fam_miss F (f x) = true.
Proof.
  induction l as [|y l IH]; intros k H F stop [|i] x I E L; try discriminate E; cbn [table_miss] in H; destruct (all_miss Fs k (f y)) eqn:M; try discriminate H.
  - injection E as ->. unfold all_miss in M. rewrite forallb_forall in M. apply M in I. cbn [fst snd] in I.
    replace (k <? stop)%N with true in I by lia. exact I.
  - apply (IH (N.succ k) H F stop i x I E). lia.
Qed.

(** The matcher finds the best match, and finds one exactly when the language of the pattern has one. *)
From Verif Require Import Model_Base Model_Ctx Model_Regex Spec_Regex.
From Coq Require Import Lia ZifyBool ZifyNat ZifyN.

Lemma width_app u v : width (u ++ v) = (width u + width v)%Z.
Proof. induction u as [|[x w] u IH]; cbn [app width]; lia. Qed.

Fixpoint runes_of (t : tree) : nat :=
  match t with
  | TEps | TStop => 0
  | TChar _ => 1
  | TCat a b | TMore a b => runes_of a + runes_of b
  | TL a | TR a | TGrp _ a => runes_of a
  end.
Lemma parses_runes r p t v w : parses r p t v w -> length v = runes_of t.
Proof. intros H. induction H; cbn [runes_of length]; rewrite ?app_length; lia. Qed.
Lemma parses_size r p t v w : parses r p t v w -> width v = size t.
Proof. intros H. induction H; cbn [size width]; rewrite ?width_app; lia. Qed.
Lemma split_eq {A} (a b c d : list A) : length a = length c -> a ++ b = c ++ d -> a = c /\ b = d.
Proof.
  revert c. induction a as [|x a IH]; intros [|y c]; cbn [app length]; try discriminate; [auto|].
  intros L E. injection L as L. injection E as -> E. destruct (IH c L E) as [-> ->]. auto.
Qed.
Lemma same_tree r r' p p' t v v' w w' : parses r p t v w -> parses r' p' t v' w' -> v ++ w = v' ++ w' -> v = v' /\ w = w'.
Proof. intros A B. apply split_eq. rewrite (parses_runes _ _ _ _ _ A), (parses_runes _ _ _ _ _ B). reflexivity. Qed.

(** Captures as the matcher collects them. *)
Fixpoint capt (t : tree) (p : Z) (c : caps) : caps :=
  match t with
  | TEps | TStop | TChar _ => c
  | TCat a b | TMore a b => capt b (p + size a) (capt a p c)
  | TL a | TR a => capt a p c
  | TGrp n a => (n, (p, p + size a)%Z) :: capt a p c
  end.

Definition outcome (r : re) (s : text) (p : Z) (c : caps) (k : cont_t) (o : option caps) : Prop :=
  match o with
  | Some c' => exists t v w, s = v ++ w /\ parses r p t v w /\ k w (p + size t)%Z (capt t p c) = Some c' /\
      forall t' v' w', s = v' ++ w' -> parses r p t' v' w' -> prefers r t' t -> k w' (p + size t')%Z (capt t' p c) = None
  | None => forall t v w, s = v ++ w -> parses r p t v w -> k w (p + size t)%Z (capt t p c) = None
  end.

Lemma outcome_star a g k : (forall s p c k, outcome a s p c k (mt a s p c k)) ->
  forall n s p c, length s < n -> outcome (Star g a) s p c k (star_loop (mt a) g k n s p c).
Proof.
  intros IHa. induction n as [|n IHn]; intros s p c L; [lia|]. cbn [star_loop].
  set (K := fun s' p' c' => if length s' <? length s then star_loop (mt a) g k n s' p' c' else None).
  specialize (IHa s p c K).
  (* the possible results with at least one iteration *)
  assert (More : match mt a s p c K with
    | Some c' => exists t1 t2 v w, s = v ++ w /\ parses (Star g a) p (TMore t1 t2) v w /\ k w (p + size (TMore t1 t2))%Z (capt (TMore t1 t2) p c) = Some c' /\
        forall t1' t2' v' w', s = v' ++ w' -> parses (Star g a) p (TMore t1' t2') v' w' -> prefers (Star g a) (TMore t1' t2') (TMore t1 t2) ->
        k w' (p + size (TMore t1' t2'))%Z (capt (TMore t1' t2') p c) = None
    | None => forall t1 t2 v w, s = v ++ w -> parses (Star g a) p (TMore t1 t2) v w -> k w (p + size (TMore t1 t2))%Z (capt (TMore t1 t2) p c) = None
    end).
  { unfold outcome in IHa. destruct (mt a s p c K) as [c'|].
    - destruct IHa as (t1 & v1 & w1 & -> & P1 & K1 & M1). unfold K in K1. destruct (length w1 <? length (v1 ++ w1)) eqn:E1; [|discriminate K1].
      apply Nat.ltb_lt in E1. assert (N1 : v1 <> []) by (intros ->; cbn in E1; lia).
      pose proof (IHn w1 (p + size t1)%Z (capt t1 p c) ltac:(rewrite app_length in *; lia)) as O2. rewrite K1 in O2.
      destruct O2 as (t2 & v2 & w2 & -> & P2 & K2 & M2).
      assert (W1 : width v1 = size t1) by (eapply parses_size; eassumption).
      exists t1, t2, (v1 ++ v2), w2. split; [apply app_assoc|]. split; [constructor; [exact N1|exact P1|rewrite W1; exact P2]|].
      split; [cbn [size capt]; rewrite Z.add_assoc; exact K2|].
      intros t1' t2' v' w' Es Pr Pf. inversion Pr as [| | | | | | | |? ? ? ? ? v1' v2' ? N1' P1' P2'|]; subst.
      assert (W1' : width v1' = size t1') by (eapply parses_size; eassumption). rewrite W1' in P2'.
      rewrite <- app_assoc in Es. cbn [size capt]. rewrite Z.add_assoc.
      inversion Pf; subst.
      + assert (Hn : K (v2' ++ w') (p + size t1')%Z (capt t1' p c) = None).
        { apply (M1 t1' v1' (v2' ++ w')); assumption. }
        unfold K in Hn. destruct (length (v2' ++ w') <? length (v1 ++ v2 ++ w2)) eqn:E2.
        * apply Nat.ltb_lt in E2. pose proof (IHn (v2' ++ w') (p + size t1')%Z (capt t1' p c) ltac:(lia)) as O3. rewrite Hn in O3.
          exact (O3 t2' v2' w' eq_refl P2').
        * apply Nat.ltb_ge in E2. rewrite Es, app_length in E2. destruct v1'; [contradiction|cbn [length] in E2; lia].
      + destruct (same_tree _ _ _ _ _ _ _ _ _ P1 P1' Es) as [<- Ew]. exact (M2 t2' v2' w' Ew P2' H0).
    - intros t1 t2 v w -> Pr. inversion Pr as [| | | | | | | |? ? ? ? ? v1 v2 ? N1 P1 P2|]; subst.
      rewrite <- app_assoc in IHa. specialize (IHa t1 v1 (v2 ++ w) eq_refl P1). unfold K in IHa.
      replace (length (v2 ++ w) <? length ((v1 ++ v2) ++ w)) with true in IHa.
      2: { symmetry. apply Nat.ltb_lt. rewrite !app_length. destruct v1; [contradiction|cbn [length]; lia]. }
      assert (W1 : width v1 = size t1) by (eapply parses_size; eassumption). rewrite W1 in P2.
      pose proof (IHn (v2 ++ w) (p + size t1)%Z (capt t1 p c) ltac:(rewrite !app_length in *; destruct v1; [contradiction|cbn [length] in *; lia])) as O2.
      rewrite IHa in O2. cbn [size capt]. rewrite Z.add_assoc. exact (O2 t2 v2 w eq_refl P2). }
  assert (Stop : forall t' v' w', s = v' ++ w' -> parses (Star g a) p t' v' w' -> t' = TStop -> w' = s).
  { intros t' v' w' -> Pr ->. apply parses_runes in Pr. cbn in Pr. destruct v'; [reflexivity|discriminate Pr]. }
  fold K. cbv zeta.
  assert (Shape : forall t' v' w', parses (Star g a) p t' v' w' -> t' = TStop \/ exists t1 t2, t' = TMore t1 t2).
  { intros t' v' w' Pr. inversion Pr; eauto. }
  destruct g; unfold orelse; cbv beta.
  - destruct (mt a s p c K) as [c'|].
    + destruct More as (t1 & t2 & v & w & Es & Pr & Kk & M). exists (TMore t1 t2), v, w. split; [exact Es|]. split; [exact Pr|]. split; [exact Kk|].
      intros t' v' w' Es' Pr' Pf. destruct (Shape _ _ _ Pr') as [->|(t1' & t2' & ->)]; [inversion Pf|]. eapply M; eassumption.
    + destruct (k s p c) as [c'|] eqn:Ek.
      * exists TStop, [], s. split; [reflexivity|]. split; [constructor|]. cbn [size capt]. rewrite Z.add_0_r. split; [exact Ek|].
        intros t' v' w' Es' Pr' Pf. destruct (Shape _ _ _ Pr') as [->|(t1' & t2' & ->)]; [inversion Pf|]. eapply More; eassumption.
      * intros t' v' w' Es' Pr'. destruct (Shape _ _ _ Pr') as [->|(t1' & t2' & ->)]; [|eapply More; eassumption].
        rewrite (Stop _ _ _ Es' Pr' eq_refl). cbn [size capt]. rewrite Z.add_0_r. exact Ek.
  - destruct (k s p c) as [c'|] eqn:Ek.
    + exists TStop, [], s. split; [reflexivity|]. split; [constructor|]. cbn [size capt]. rewrite Z.add_0_r. split; [exact Ek|].
      intros t' v' w' Es' Pr' Pf. inversion Pf.
    + destruct (mt a s p c K) as [c'|].
      * destruct More as (t1 & t2 & v & w & Es & Pr & Kk & M). exists (TMore t1 t2), v, w. split; [exact Es|]. split; [exact Pr|]. split; [exact Kk|].
        intros t' v' w' Es' Pr' Pf. destruct (Shape _ _ _ Pr') as [->|(t1' & t2' & ->)]; [|eapply M; eassumption].
        rewrite (Stop _ _ _ Es' Pr' eq_refl). cbn [size capt]. rewrite Z.add_0_r. exact Ek.
      * intros t' v' w' Es' Pr'. destruct (Shape _ _ _ Pr') as [->|(t1' & t2' & ->)]; [|eapply More; eassumption].
        rewrite (Stop _ _ _ Es' Pr' eq_refl). cbn [size capt]. rewrite Z.add_0_r. exact Ek.
Qed.

Lemma outcome_mt r : forall s p c k, outcome r s p c k (mt r s p c k).
Proof.
  induction r as [|neg rs| | |a IHa b IHb|a IHa b IHb|g a IHa|n a IHa]; intros s p c k; cbn [mt].
  - destruct (k s p c) as [c'|] eqn:E.
    + exists TEps, [], s. split; [reflexivity|]. split; [constructor|]. cbn [size capt]. rewrite Z.add_0_r. split; [exact E|]. intros t' v' w' _ _ Pf. inversion Pf.
    + intros t v w -> Pr. inversion Pr; subst. cbn [size capt]. rewrite Z.add_0_r. exact E.
  - destruct s as [|[x wd] s]; [intros t v w Es Pr; inversion Pr; subst; discriminate Es|].
    destruct (cls_mem neg rs x) eqn:Cm.
    + destruct (k s (p + Z.of_nat wd)%Z c) as [c'|] eqn:E.
      * exists (TChar wd), [(x, wd)], s. split; [reflexivity|]. split; [constructor; exact Cm|]. cbn [size capt]. split; [exact E|]. intros t' v' w' _ _ Pf. inversion Pf.
      * intros t v w Es Pr. inversion Pr; subst. injection Es as -> -> ->. cbn [size capt]. exact E.
    + intros t v w Es Pr. inversion Pr; subst. injection Es as -> -> ->. congruence.
  - destruct (p =? 0)%Z eqn:Ep.
    + destruct (k s p c) as [c'|] eqn:E.
      * apply Z.eqb_eq in Ep. subst p. exists TEps, [], s. split; [reflexivity|]. split; [constructor|]. cbn [size capt]. split; [exact E|]. intros t' v' w' _ _ Pf. inversion Pf.
      * intros t v w -> Pr. inversion Pr; subst. cbn [size capt]. exact E.
    + intros t v w -> Pr. inversion Pr; subst. discriminate Ep.
  - destruct s as [|y s].
    + destruct (k [] p c) as [c'|] eqn:E.
      * exists TEps, [], []. split; [reflexivity|]. split; [constructor|]. cbn [size capt]. rewrite Z.add_0_r. split; [exact E|]. intros t' v' w' _ _ Pf. inversion Pf.
      * intros t v w Es Pr. inversion Pr; subst. cbn [size capt]. rewrite Z.add_0_r. exact E.
    + intros t v w Es Pr. inversion Pr; subst. discriminate Es.
  - (* Cat *)
    specialize (IHa s p c (fun s' p' c' => mt b s' p' c' k)). unfold outcome in IHa.
    destruct (mt a s p c (fun s' p' c' => mt b s' p' c' k)) as [c'|].
    + destruct IHa as (t1 & v1 & w1 & -> & P1 & K1 & M1). pose proof (IHb w1 (p + size t1)%Z (capt t1 p c) k) as O2. rewrite K1 in O2.
      destruct O2 as (t2 & v2 & w2 & -> & P2 & K2 & M2). assert (W1 : width v1 = size t1) by (eapply parses_size; eassumption).
      exists (TCat t1 t2), (v1 ++ v2), w2. split; [apply app_assoc|]. split; [constructor; [exact P1|rewrite W1; exact P2]|].
      split; [cbn [size capt]; rewrite Z.add_assoc; exact K2|].
      intros t' v' w' Es Pr Pf. inversion Pr as [| | | |? ? ? t1' t2' v1' v2' ? P1' P2'| | | | |]; subst.
      assert (W1' : width v1' = size t1') by (eapply parses_size; eassumption). rewrite W1' in P2'.
      rewrite <- app_assoc in Es. cbn [size capt]. rewrite Z.add_assoc. inversion Pf; subst.
      * pose proof (M1 t1' v1' (v2' ++ w') Es P1' ltac:(assumption)) as Hn.
        pose proof (IHb (v2' ++ w') (p + size t1')%Z (capt t1' p c) k) as O3. rewrite Hn in O3. exact (O3 t2' v2' w' eq_refl P2').
      * destruct (same_tree _ _ _ _ _ _ _ _ _ P1 P1' Es) as [<- Ew]. eapply M2; eassumption.
    + intros t v w -> Pr. inversion Pr as [| | | |? ? ? t1 t2 v1 v2 ? P1 P2| | | | |]; subst. rewrite <- app_assoc in IHa.
      specialize (IHa t1 v1 (v2 ++ w) eq_refl P1). assert (W1 : width v1 = size t1) by (eapply parses_size; eassumption). rewrite W1 in P2.
      pose proof (IHb (v2 ++ w) (p + size t1)%Z (capt t1 p c) k) as O2. rewrite IHa in O2. cbn [size capt]. rewrite Z.add_assoc. exact (O2 t2 v2 w eq_refl P2).
  - (* Alt *)
    specialize (IHa s p c k). specialize (IHb s p c k). unfold orelse. unfold outcome in IHa, IHb. destruct (mt a s p c k) as [c'|].
    + destruct IHa as (t & v & w & Es & Pr & Kk & M). exists (TL t), v, w. split; [exact Es|]. split; [constructor; exact Pr|]. split; [exact Kk|].
      intros t' v' w' Es' Pr' Pf. inversion Pf; subst t'. inversion Pr'; subst. cbn [size capt]. eapply M; eassumption.
    + destruct (mt b s p c k) as [c'|].
      * destruct IHb as (t & v & w & Es & Pr & Kk & M). exists (TR t), v, w. split; [exact Es|]. split; [constructor; exact Pr|]. split; [exact Kk|].
        intros t' v' w' Es' Pr' Pf. inversion Pf; subst t'; inversion Pr'; subst; cbn [size capt]; [eapply IHa; eassumption|eapply M; eassumption].
      * intros t' v' w' Es' Pr'. inversion Pr'; subst; cbn [size capt]; [eapply IHa; eauto|eapply IHb; eauto].
  - apply outcome_star; [exact IHa|lia].
  - (* Grp *)
    specialize (IHa s p c (fun s' p' c' => k s' p' ((n, (p, p')) :: c'))). unfold outcome in IHa.
    destruct (mt a s p c (fun s' p' c' => k s' p' ((n, (p, p')) :: c'))) as [c'|].
    + destruct IHa as (t & v & w & Es & Pr & Kk & M). exists (TGrp n t), v, w. split; [exact Es|]. split; [constructor; exact Pr|]. split; [exact Kk|].
      intros t' v' w' Es' Pr' Pf. inversion Pf; subst. inversion Pr'; subst. cbn [size capt]. eapply M; eauto.
    + intros t' v' w' Es' Pr'. inversion Pr'; subst. cbn [size capt]. eapply IHa; eauto.
Qed.

(** Two ways of matching at one place are comparable. *)
Lemma prefers_total r : forall p t v w t' v' w', parses r p t v w -> parses r p t' v' w' -> v ++ w = v' ++ w' ->
  t' = t \/ prefers r t t' \/ prefers r t' t.
Proof.
  intros p t v w t' v' w' H. revert t' v' w'. induction H as [p w|neg rs p x wd w Hc|w|p|a b p t1 t2 v1 v2 w H1 IH1 H2 IH2|a b p t v w H IH|a b p t v w H IH|g a p w|g a p t1 t2 v1 v2 w Hn H1 IH1 H2 IH2|n a p t v w H IH];
    intros t' v' w' H' E.
  - inversion H'; auto.
  - inversion H'; subst. injection E as E1 E2 E3. subst. auto.
  - inversion H'; auto.
  - inversion H'; auto.
  - inversion H' as [| | | |? ? ? t1' t2' v1' v2' ? P1' P2'| | | | |]; subst. rewrite <- !app_assoc in E.
    destruct (IH1 t1' v1' (v2' ++ w') P1' E) as [->|[X|X]]; [|right; left; constructor; exact X|right; right; constructor; exact X].
    destruct (same_tree _ _ _ _ _ _ _ _ _ H1 P1' E) as [-> E2].
    destruct (IH2 t2' v2' w' P2' E2) as [->|[X|X]]; [auto|right; left; apply F_cat2; exact X|right; right; apply F_cat2; exact X].
  - inversion H' as [| | | | |? ? ? ? ? ? P0|? ? ? ? ? ? P0| | |]; subst; [|right; left; constructor]. destruct (IH _ _ _ P0 E) as [->|[X|X]]; [auto|right; left; constructor; exact X|right; right; constructor; exact X].
  - inversion H' as [| | | | |? ? ? ? ? ? P0|? ? ? ? ? ? P0| | |]; subst; [right; right; constructor|]. destruct (IH _ _ _ P0 E) as [->|[X|X]]; [auto|right; left; constructor; exact X|right; right; constructor; exact X].
  - inversion H'; subst; [auto|]. destruct g; [right; right|right; left]; constructor.
  - inversion H' as [| | | | | | | |? ? ? t1' t2' v1' v2' ? N1' P1' P2'|]; subst; [destruct g; [right; left|right; right]; constructor|]. rewrite <- !app_assoc in E.
    destruct (IH1 t1' v1' (v2' ++ w') P1' E) as [->|[X|X]]; [|right; left; constructor; exact X|right; right; constructor; exact X].
    destruct (same_tree _ _ _ _ _ _ _ _ _ H1 P1' E) as [-> E2].
    destruct (IH2 t2' v2' w' P2' E2) as [->|[X|X]]; [auto|right; left; apply F_more2; exact X|right; right; apply F_more2; exact X].
  - inversion H' as [| | | | | | | | |? ? ? ? ? ? P0]; subst. destruct (IH _ _ _ P0 E) as [->|[X|X]]; [auto|right; left; constructor; exact X|right; right; constructor; exact X].
Qed.
Lemma prefers_irrefl r t : ~ prefers r t t.
Proof. revert r. induction t; intros r H; inversion H; subst; try (eapply IHt1; eassumption); try (eapply IHt2; eassumption); eapply IHt; eassumption. Qed.

(** The search. *)
Definition final (p : Z) : cont_t := fun _ p' c' => Some ((0, (p, p')) :: c').
Lemma find_spec r : forall s u, match find_from r s (width u) with
  | Some c => exists t, (exists u1 v w, s = u1 ++ v ++ w /\ parses r (width (u ++ u1)) t v w /\ c = (0, (width (u ++ u1), (width (u ++ u1) + size t)%Z)) :: capt t (width (u ++ u1)) [] /\
      (forall u' t' v' w', s = u' ++ v' ++ w' -> length u' < length u1 -> ~ parses r (width (u ++ u')) t' v' w') /\
      (forall t' v' w', v ++ w = v' ++ w' -> parses r (width (u ++ u1)) t' v' w' -> t' = t \/ prefers r t t'))
  | None => forall u' t' v' w', s = u' ++ v' ++ w' -> ~ parses r (width (u ++ u')) t' v' w'
  end.
Proof.
  assert (Here : forall s u, match mt r s (width u) [] (final (width u)) with
    | Some c => exists t v w, s = v ++ w /\ parses r (width u) t v w /\ c = (0, (width u, (width u + size t)%Z)) :: capt t (width u) [] /\
        (forall t' v' w', v ++ w = v' ++ w' -> parses r (width u) t' v' w' -> t' = t \/ prefers r t t')
    | None => forall t' v' w', s = v' ++ w' -> ~ parses r (width u) t' v' w'
    end).
  { intros s u. pose proof (outcome_mt r s (width u) [] (final (width u))) as O. destruct (mt r s (width u) [] (final (width u))) as [c|].
    - destruct O as (t & v & w & Es & Pr & Kk & M). exists t, v, w. split; [exact Es|]. split; [exact Pr|]. split; [injection Kk as <-; reflexivity|].
      intros t' v' w' E' Pr'. destruct (prefers_total _ _ _ _ _ _ _ _ Pr Pr' E') as [X|[X|X]]; auto. exfalso.
      specialize (M t' v' w' ltac:(congruence) Pr' X). discriminate M.
    - intros t' v' w' Es Pr. specialize (O t' v' w' Es Pr). discriminate O. }
  induction s as [|[x wd] s IH]; intros u; cbn [find_from]; fold (final (width u)).
  - pose proof (Here [] u) as H. destruct (mt r [] (width u) [] (final (width u))) as [c|]; unfold orelse.
    + destruct H as (t & v & w & Es & Pr & Ec & M). exists t, [], v, w. rewrite app_nil_r. cbn [app length].
      split; [exact Es|]. split; [exact Pr|]. split; [exact Ec|]. split; [intros; lia|exact M].
    + intros u' t' v' w' Es. destruct u'; [|discriminate Es]. rewrite app_nil_r. apply H. exact Es.
  - pose proof (Here ((x, wd) :: s) u) as H. destruct (mt r ((x, wd) :: s) (width u) [] (final (width u))) as [c|]; unfold orelse.
    + destruct H as (t & v & w & Es & Pr & Ec & M). exists t, [], v, w. rewrite app_nil_r. cbn [app length].
      split; [exact Es|]. split; [exact Pr|]. split; [exact Ec|]. split; [intros; lia|exact M].
    + specialize (IH (u ++ [(x, wd)])). rewrite width_app in IH. cbn [width] in IH. rewrite Z.add_0_r in IH.
      destruct (find_from r s (width u + Z.of_nat wd)%Z) as [c|].
      * destruct IH as (t & u1 & v & w & Es & Pr & Ec & Lm & M). exists t, ((x, wd) :: u1), v, w.
        rewrite <- app_assoc in Pr, Ec, M. cbn [app] in *.
        split; [cbn [app]; congruence|]. split; [exact Pr|]. split; [exact Ec|]. split; [|exact M].
        intros u' t' v' w' E' L'. destruct u' as [|y u']; [rewrite app_nil_r; apply H; exact E'|].
        cbn [app] in E'. injection E' as <- E'. specialize (Lm u' t' v' w' E' ltac:(cbn [length] in L'; lia)). rewrite <- app_assoc in Lm. exact Lm.
      * intros u' t' v' w' E'. destruct u' as [|y u']; [rewrite app_nil_r; apply H; exact E'|].
        cbn [app] in E'. injection E' as <- E'. specialize (IH u' t' v' w' E'). rewrite <- app_assoc in IH. exact IH.
Qed.

(** The reported groups. *)
Lemma group_capt n t : forall p c, cap_get (capt t p c) n = match group_of n p t with Some x => x | None => cap_get c n end.
Proof.
  induction t as [| |a IHa b IHb|a IHa|a IHa| |a IHa b IHb|m a IHa]; intros p c; cbn [capt group_of]; auto.
  - rewrite IHb, IHa. destruct (group_of n (p + size a) b); reflexivity.
  - rewrite IHb, IHa. destruct (group_of n (p + size a) b); reflexivity.
  - cbn [cap_get]. destruct (m =? n); [reflexivity|apply IHa].
Qed.
Lemma flat_map_in {A B} (f g : A -> list B) l : (forall x, In x l -> f x = g x) -> flat_map f l = flat_map g l.
Proof. induction l as [|x l IH]; cbn [flat_map]; intros H; [reflexivity|]. rewrite (H x) by (left; reflexivity). rewrite IH by (intros; apply H; right; assumption). reflexivity. Qed.
Lemma flat_groups ng p t : flat_caps ng ((0, (p, (p + size t)%Z)) :: capt t p []) = groups ng p t.
Proof.
  unfold flat_caps, groups. cbn [seq flat_map cap_get Nat.eqb fst snd app]. do 2 f_equal.
  apply flat_map_in. intros n I. apply in_seq in I. destruct n as [|n]; [lia|]. cbn [cap_get Nat.eqb]. rewrite group_capt.
  destruct (group_of (S n) p t) as [[lo hi]|]; reflexivity.
Qed.

Lemma find_best a ng s : match find_re a ng s with
  | Some m => exists p t, best a (runes s) p t /\ m = groups ng p t
  | None => forall u v w t, runes s = u ++ v ++ w -> ~ parses a (width u) t v w
  end.
Proof.
  unfold find_re. pose proof (find_spec a (runes s) []) as H. cbn [width app] in H. destruct (find_from a (runes s) 0) as [c|].
  - destruct H as (t & u & v & w & Es & Pr & Ec & Lm & M). exists (width u), t. split; [|rewrite Ec; apply flat_groups].
    exists u, v, w. auto.
  - intros u v w t E. apply (H u t v w E).
Qed.

(** The best match is unique. *)
Lemma best_unique a s p t p' t' : best a s p t -> best a s p' t' -> p = p' /\ t = t'.
Proof.
  intros (u & v & w & Es & Ep & Pr & Lm & M) (u' & v' & w' & Es' & Ep' & Pr' & Lm' & M').
  assert (Lu : length u = length u').
  { destruct (Nat.lt_trichotomy (length u) (length u')) as [L|[L|L]]; [exfalso|exact L|exfalso].
    - apply (Lm' u t v w Es L). rewrite <- Ep. exact Pr.
    - apply (Lm u' t' v' w' Es' L). rewrite <- Ep'. exact Pr'. }
  rewrite Es in Es'. destruct (split_eq _ _ _ _ Lu Es') as [-> E]. subst p p'. split; [reflexivity|].
  destruct (M t' v' w' E Pr') as [X|X]; [congruence|]. destruct (M' t v w (eq_sym E) Pr) as [Y|Y]; [exact Y|].
  exfalso. clear - X Y. revert Y. induction X; intros Y; inversion Y; subst; auto; try (eapply prefers_irrefl; eassumption).
Qed.

(** ** Language *)
Definition proper (s : text) : Prop := Forall (fun x => 0 < snd x) s.
Lemma proper_width u : proper u -> width u = 0%Z -> u = [].
Proof. intros H W. destruct H as [|[x w] u L H]; [reflexivity|]. cbn [width snd] in *. assert (0 <= width u)%Z by (clear; induction u as [|[? ?] ? ?]; cbn [width]; lia). lia. Qed.
Lemma parses_lang r p t v w : parses r p t v w -> forall u, proper u -> proper v -> p = width u -> lang r u v w.
Proof.
  intros H. induction H as [p w|neg rs p x wd w Hc|w|p|a b p t1 t2 v1 v2 w H1 IH1 H2 IH2|a b p t v w H IH|a b p t v w H IH|g a p w|g a p t1 t2 v1 v2 w Hn H1 IH1 H2 IH2|n a p t v w H IH];
    intros u Pu Pv Ep; try (constructor; auto; fail).
  - rewrite (proper_width u Pu (eq_sym Ep)). constructor.
  - apply Forall_app in Pv as [Pv1 Pv2]. constructor; [apply IH1; auto|]. apply IH2; [apply Forall_app; auto|exact Pv2|rewrite width_app; lia].
  - apply Forall_app in Pv as [Pv1 Pv2]. apply L_more; [apply IH1; auto|]. apply IH2; [apply Forall_app; auto|exact Pv2|rewrite width_app; lia].
Qed.
Lemma lang_parses r u v w : lang r u v w -> exists t, parses r (width u) t v w.
Proof.
  intros H. induction H as [u w|neg rs u x wd w Hc|w|u|a b u v1 v2 w H1 [t1 IH1] H2 [t2 IH2]|a b u v w H [t IH]|a b u v w H [t IH]|g a u w|g a u v1 v2 w H1 [t1 IH1] H2 [t2 IH2]|n a u v w H [t IH]];
    try (eexists; constructor; eauto; fail).
  - rewrite width_app in IH2. eexists. econstructor; eassumption.
  - destruct v1 as [|y v1]; [rewrite app_nil_r in *; exists t2; exact IH2|]. rewrite width_app in IH2. eexists. econstructor; [discriminate|eassumption|eassumption].
Qed.

Lemma decode_rune_pos b s : 0 < snd (decode_rune (b :: s)).
Proof.
  cbn [decode_rune]. repeat match goal with
    | |- context [if ?x then _ else _] => destruct x
    | |- context [let '(_, _) := ?x in _] => destruct x
    | |- context [match ?x with [] => _ | _ :: _ => _ end] => destruct x
  end; cbn [snd]; lia.
Qed.
Lemma runes_proper s : proper (runes s).
Proof.
  unfold runes, proper. generalize (length s) as f. intros f. revert s. induction f as [|f IH]; intros [|b s]; cbn [runes_fuel]; try constructor.
  pose proof (decode_rune_pos b s) as D. destruct (decode_rune (b :: s)) as [r w]. constructor; [exact D|apply IH].
Qed.

Lemma find_lang a ng s : find_re a ng s <> None <-> exists u v w, runes s = u ++ v ++ w /\ lang a u v w.
Proof.
  pose proof (find_best a ng s) as H. pose proof (runes_proper s) as Pr. destruct (find_re a ng s) as [m|].
  - split; [intros _|discriminate]. destruct H as (p & t & (u & v & w & Es & Ep & P & _) & _). exists u, v, w. split; [exact Es|].
    rewrite Es in Pr. apply Forall_app in Pr as [Pu Pr]. apply Forall_app in Pr as [Pv _]. eapply parses_lang; eassumption.
  - split; [contradiction|]. intros (u & v & w & Es & L) _. apply lang_parses in L as [t L]. exact (H u v w t Es L).
Qed.

Lemma compile_find src a ng s : parse_re src = Some (a, ng) -> re_find (compile src) s = find_re a ng s.
Proof. intros H. unfold compile. cbn [re_find]. rewrite H. reflexivity. Qed.

Lemma compile_best src a ng s m : parse_re src = Some (a, ng) ->
  re_find (compile src) s = Some m <-> exists p t, best a (runes s) p t /\ m = groups ng p t.
Proof.
  intros H. rewrite (compile_find _ _ _ _ H). pose proof (find_best a ng s) as F. split.
  - intros E. rewrite E in F. exact F.
  - intros (p & t & B & ->). destruct (find_re a ng s) as [m'|].
    + destruct F as (p' & t' & B' & ->). destruct (best_unique _ _ _ _ _ _ B B') as [-> ->]. reflexivity.
    + destruct B as (u & v & w & Es & -> & Pr & _). exfalso. exact (F u v w t Es Pr).
Qed.
Lemma compile_lang src a ng s : parse_re src = Some (a, ng) ->
  re_find (compile src) s <> None <-> exists u v w, runes s = u ++ v ++ w /\ lang a u v w.
Proof. intros H. rewrite (compile_find _ _ _ _ H). apply find_lang. Qed.

(** ** UTF-8 *)
Lemma bn_lt b : (bn b < 256)%N.
Proof. unfold bn. pose proof (Byte.to_N_bounded b). lia. Qed.
Lemma cons_inv {A} (x y : A) l m : x :: l = y :: m -> x = y /\ l = m.
Proof. intros H. injection H as -> ->. auto. Qed.
Lemma decode_utf8 r e s : scalar r -> map bn e = utf8 r -> decode_rune (e ++ s) = (r, length e).
Proof.
  unfold scalar, utf8. intros Sc.
  destruct (r <? 128)%N eqn:R1; [|destruct (r <? 2048)%N eqn:R2; [|destruct (r <? 65536)%N eqn:R3]].
  - destruct e as [|b0 [|? ?]]; cbn [map]; intros E; try discriminate E. injection E as E0. cbn [app decode_rune length]. rewrite E0, R1. reflexivity.
  - destruct e as [|b0 [|b1 [|? ?]]]; cbn [map]; intros E; try discriminate E. apply cons_inv in E as [E0 E]. apply cons_inv in E as [E1 _]. cbn [app decode_rune length]. rewrite E0, E1.
    apply N.ltb_ge in R1. apply N.ltb_lt in R2.
    assert (Q : (2 <= r / 64 < 32)%N) by (split; [apply N.div_le_lower_bound; lia|apply N.div_lt_upper_bound; lia]).
    assert (D : (r = 64 * (r / 64) + r mod 64)%N) by (apply N.div_mod; lia). assert (L : (r mod 64 < 64)%N) by (apply N.mod_lt; lia).
    remember (r / 64)%N as q0. remember (r mod 64)%N as q1.
    replace (192 + q0 <? 128)%N with false by lia. replace (in_rng 194 244 (192 + q0)) with true by (unfold in_rng; lia).
    unfold second_rng. replace (192 + q0 =? 224)%N with false by lia. replace (192 + q0 =? 237)%N with false by lia.
    replace (192 + q0 =? 240)%N with false by lia. replace (192 + q0 =? 244)%N with false by lia.
    replace (negb (in_rng 128 191 (128 + q1))) with false by (unfold in_rng; lia). replace (192 + q0 <? 224)%N with true by lia.
    f_equal. lia.
  - destruct e as [|b0 [|b1 [|b2 [|? ?]]]]; cbn [map]; intros E; try discriminate E. apply cons_inv in E as [E0 E]. apply cons_inv in E as [E1 E]. apply cons_inv in E as [E2 _]. cbn [app decode_rune length]. rewrite E0, E1, E2.
    apply N.ltb_ge in R1. apply N.ltb_ge in R2. apply N.ltb_lt in R3.
    assert (D : (r = 64 * (r / 64) + r mod 64)%N) by (apply N.div_mod; lia). assert (L : (r mod 64 < 64)%N) by (apply N.mod_lt; lia).
    assert (D2 : (r / 64 = 64 * (r / 4096) + r / 64 mod 64)%N).
    { replace (r / 4096)%N with (r / 64 / 64)%N by (rewrite N.div_div by lia; reflexivity). apply N.div_mod. lia. }
    assert (L2 : (r / 64 mod 64 < 64)%N) by (apply N.mod_lt; lia).
    remember (r / 4096)%N as q0. remember (r / 64 mod 64)%N as q1. remember (r mod 64)%N as q2. remember (r / 64)%N as q3.
    replace (224 + q0 <? 128)%N with false by lia. replace (in_rng 194 244 (224 + q0)) with true by (unfold in_rng; lia).
    unfold second_rng.
    replace (224 + q0 =? 240)%N with false by lia. replace (224 + q0 =? 244)%N with false by lia.
    replace (224 + q0 <? 224)%N with false by lia. replace (negb (cont (128 + q2))) with false by (unfold cont, in_rng; lia).
    replace (224 + q0 <? 240)%N with true by lia.
    destruct (224 + q0 =? 224)%N eqn:Z1; [|destruct (224 + q0 =? 237)%N eqn:Z2].
    + replace (negb (in_rng 160 191 (128 + q1))) with false by (unfold in_rng; lia). f_equal. lia.
    + replace (negb (in_rng 128 159 (128 + q1))) with false by (unfold in_rng; lia). f_equal. lia.
    + replace (negb (in_rng 128 191 (128 + q1))) with false by (unfold in_rng; lia). f_equal. lia.
  - destruct e as [|b0 [|b1 [|b2 [|b3 [|? ?]]]]]; cbn [map]; intros E; try discriminate E. apply cons_inv in E as [E0 E]. apply cons_inv in E as [E1 E]. apply cons_inv in E as [E2 E]. apply cons_inv in E as [E3 _]. cbn [app decode_rune length]. rewrite E0, E1, E2, E3.
    apply N.ltb_ge in R1. apply N.ltb_ge in R2. apply N.ltb_ge in R3.
    assert (D : (r = 64 * (r / 64) + r mod 64)%N) by (apply N.div_mod; lia). assert (L : (r mod 64 < 64)%N) by (apply N.mod_lt; lia).
    assert (D2 : (r / 64 = 64 * (r / 4096) + r / 64 mod 64)%N).
    { replace (r / 4096)%N with (r / 64 / 64)%N by (rewrite N.div_div by lia; reflexivity). apply N.div_mod. lia. }
    assert (L2 : (r / 64 mod 64 < 64)%N) by (apply N.mod_lt; lia).
    assert (D3 : (r / 4096 = 64 * (r / 262144) + r / 4096 mod 64)%N).
    { replace (r / 262144)%N with (r / 4096 / 64)%N by (rewrite N.div_div by lia; reflexivity). apply N.div_mod. lia. }
    assert (L3 : (r / 4096 mod 64 < 64)%N) by (apply N.mod_lt; lia).
    remember (r / 262144)%N as q0. remember (r / 4096 mod 64)%N as q1. remember (r / 64 mod 64)%N as q2. remember (r mod 64)%N as q3.
    remember (r / 64)%N as q4. remember (r / 4096)%N as q5.
    replace (240 + q0 <? 128)%N with false by lia. replace (in_rng 194 244 (240 + q0)) with true by (unfold in_rng; lia).
    unfold second_rng. replace (240 + q0 =? 224)%N with false by lia. replace (240 + q0 =? 237)%N with false by lia.
    replace (240 + q0 <? 224)%N with false by lia. replace (negb (cont (128 + q2))) with false by (unfold cont, in_rng; lia).
    replace (negb (cont (128 + q3))) with false by (unfold cont, in_rng; lia). replace (240 + q0 <? 240)%N with false by lia.
    destruct (240 + q0 =? 240)%N eqn:Z1; [|destruct (240 + q0 =? 244)%N eqn:Z2].
    + replace (negb (in_rng 144 191 (128 + q1))) with false by (unfold in_rng; lia). f_equal. lia.
    + replace (negb (in_rng 128 143 (128 + q1))) with false by (unfold in_rng; lia). f_equal. lia.
    + replace (negb (in_rng 128 191 (128 + q1))) with false by (unfold in_rng; lia). f_equal. lia.
Qed.
Lemma utf8_length r : 1 <= length (utf8 r).
Proof. unfold utf8. repeat match goal with |- context [if ?b then _ else _] => destruct b end; cbn [length]; lia. Qed.

Lemma runes_fuel_more f : forall f' s, length s <= f -> length s <= f' -> runes_fuel f s = runes_fuel f' s.
Proof.
  induction f as [|f IH]; intros f' [|b s] L L'; destruct f' as [|f']; cbn [length] in *; try lia; try reflexivity.
  cbn [runes_fuel]. pose proof (decode_rune_pos b s) as D. destruct (decode_rune (b :: s)) as [r w]. cbn [snd] in D. f_equal.
  apply IH; rewrite skipn_length; cbn [length]; lia.
Qed.
Lemma runes_cons b s : runes (b :: s) = let '(r, w) := decode_rune (b :: s) in (r, w) :: runes (skipn w (b :: s)).
Proof.
  unfold runes. cbn [length runes_fuel]. pose proof (decode_rune_pos b s) as D. destruct (decode_rune (b :: s)) as [r w]. cbn [snd] in D. f_equal.
  apply runes_fuel_more; rewrite ?skipn_length; cbn [length]; lia.
Qed.
Lemma runes_utf8 rs : forall e, Forall scalar rs -> map bn e = flat_map utf8 rs -> runes e = map (fun r => (r, length (utf8 r))) rs.
Proof.
  induction rs as [|r rs IH]; intros e Sc E; cbn [flat_map map] in *; [destruct e; [reflexivity|discriminate E]|].
  inversion Sc as [|? ? S0 S1]; subst. pose proof (utf8_length r) as L.
  assert (X : exists e1 e2, e = e1 ++ e2 /\ map bn e1 = utf8 r /\ map bn e2 = flat_map utf8 rs).
  { exists (firstn (length (utf8 r)) e), (skipn (length (utf8 r)) e). split; [symmetry; apply firstn_skipn|].
    rewrite <- firstn_map, <- skipn_map, E. rewrite firstn_app, firstn_all, Nat.sub_diag, skipn_app, skipn_all, Nat.sub_diag. cbn [firstn skipn app].
    rewrite app_nil_r. auto. }
  destruct X as (e1 & e2 & -> & E1 & E2). assert (L1 : length e1 = length (utf8 r)) by (rewrite <- E1, map_length; reflexivity).
  pose proof (decode_utf8 r e1 e2 S0 E1) as D. destruct e1 as [|b e1]; [cbn in L1; lia|]. cbn [app] in *. rewrite runes_cons, D.
  rewrite L1. f_equal. change (b :: e1 ++ e2) with ((b :: e1) ++ e2). rewrite <- L1. rewrite skipn_app, skipn_all, Nat.sub_diag. cbn [app skipn]. apply IH; assumption.
Qed.

(** ** Plain patterns *)
Lemma decode_ascii b s : (bn b < 128)%N -> decode_rune (b :: s) = (bn b, 1).
Proof. intros L. cbn [decode_rune]. replace (bn b <? 128)%N with true by lia. reflexivity. Qed.
Lemma runes_ascii b s : (bn b < 128)%N -> runes (b :: s) = (bn b, 1) :: runes s.
Proof. intros L. rewrite runes_cons, decode_ascii by exact L. reflexivity. Qed.
Lemma runes_ascii_app p s : Forall (fun b => (bn b < 128)%N) p -> runes (p ++ s) = map (fun b => (bn b, 1)) p ++ runes s.
Proof. induction p as [|b p IH]; intros H; [reflexivity|]. inversion H; subst. cbn [app map]. rewrite runes_ascii by assumption. rewrite IH by assumption. reflexivity. Qed.
(** A rune that starts with a byte of at least 128 has only such bytes and is not ASCII. *)
Lemma second_spec x lo hi : (194 <= x <= 244)%N -> second_rng x = (lo, hi) -> (128 <= lo)%N /\ (hi <= 191)%N /\ (x = 224 -> lo = 160)%N /\ (x = 240 -> lo = 144)%N.
Proof.
  unfold second_rng. intros L H. repeat match type of H with context [if ?b then _ else _] => let E := fresh in destruct b eqn:E end; injection H as <- <-; lia.
Qed.
Lemma decode_high b s : (128 <= bn b)%N -> (128 <= fst (decode_rune (b :: s)))%N.
Proof.
  intros L. cbn [decode_rune]. replace (bn b <? 128)%N with false by lia. unfold rune_error.
  destruct (in_rng 194 244 (bn b)) eqn:R0; [|cbn [fst]; lia]. destruct s as [|b1 s]; [cbn [fst]; lia|].
  destruct (second_rng (bn b)) as [lo hi] eqn:Sr. unfold in_rng in R0. destruct (second_spec (bn b) lo hi ltac:(lia) Sr) as (S1 & S2 & S3 & S4). unfold in_rng, cont, in_rng.
  destruct (negb ((lo <=? bn b1)%N && (bn b1 <=? hi)%N)) eqn:R1; [cbn [fst]; lia|].
  destruct (bn b <? 224)%N eqn:R2; [cbn [fst]; lia|]. destruct s as [|b2 s]; [cbn [fst]; lia|].
  destruct (negb ((128 <=? bn b2)%N && (bn b2 <=? 191)%N)) eqn:R3; [cbn [fst]; lia|].
  destruct (bn b <? 240)%N eqn:R4.
  { cbn [fst]. assert (H : (32 <= (bn b - 224) * 64 + (bn b1 - 128))%N) by (destruct (N.eq_dec (bn b) 224) as [E|E]; [specialize (S3 E)|]; lia). lia. }
  destruct s as [|b3 s]; [cbn [fst]; lia|].
  destruct (negb ((128 <=? bn b3)%N && (bn b3 <=? 191)%N)) eqn:R5; cbn [fst]; [lia|].
  assert (H : (16 <= (bn b - 240) * 64 + (bn b1 - 128))%N) by (destruct (N.eq_dec (bn b) 240) as [E|E]; [specialize (S4 E)|]; lia). lia.
Qed.
Lemma decode_width b s : forall i x, i < snd (decode_rune (b :: s)) -> nth_error (b :: s) i = Some x -> (bn x < 128)%N -> i = 0 /\ snd (decode_rune (b :: s)) = 1.
Proof.
  intros i x Hi Hx Hl. cut (bn b < 128)%N.
  { intros Hb. rewrite decode_ascii in * by exact Hb. cbn [snd] in *. lia. }
  destruct (N.lt_ge_cases (bn b) 128) as [Hb|Hb]; [exact Hb|exfalso]. revert Hi Hx.
  cbn [decode_rune]. replace (bn b <? 128)%N with false by lia.
  assert (One : i < 1 -> nth_error (b :: s) i = Some x -> False).
  { intros Hi Hx. destruct i; [|lia]. injection Hx as ->. lia. }
  destruct (in_rng 194 244 (bn b)) eqn:R0; [|exact One]. destruct s as [|b1 s]; [exact One|].
  destruct (second_rng (bn b)) as [lo hi] eqn:Sr. unfold in_rng in R0. destruct (second_spec (bn b) lo hi ltac:(lia) Sr) as (S1 & S2 & _). unfold in_rng, cont, in_rng.
  destruct (negb ((lo <=? bn b1)%N && (bn b1 <=? hi)%N)) eqn:R1; [exact One|].
  assert (Two : i < 2 -> nth_error (b :: b1 :: s) i = Some x -> False).
  { intros Hi Hx. destruct i as [|[|i]]; [apply One; [lia|exact Hx]| |lia]. injection Hx as ->. lia. }
  destruct (bn b <? 224)%N eqn:R2; [exact Two|]. destruct s as [|b2 s]; [exact One|].
  destruct (negb ((128 <=? bn b2)%N && (bn b2 <=? 191)%N)) eqn:R3; [exact One|].
  assert (Three : i < 3 -> nth_error (b :: b1 :: b2 :: s) i = Some x -> False).
  { intros Hi Hx. destruct i as [|[|[|i]]]; [apply Two; [lia|exact Hx]|apply Two; [lia|exact Hx]| |lia]. injection Hx as ->. lia. }
  destruct (bn b <? 240)%N eqn:R4; [exact Three|]. destruct s as [|b3 s]; [exact One|].
  destruct (negb ((128 <=? bn b3)%N && (bn b3 <=? 191)%N)) eqn:R5; [exact One|].
  cbn [snd]. intros Hi Hx. destruct i as [|[|[|[|i]]]]; [apply Three; [lia|exact Hx]|apply Three; [lia|exact Hx]|apply Three; [lia|exact Hx]| |lia]. injection Hx as ->. lia.
Qed.

Definition chars (cs : list N) : re := fold_left (fun acc c => cat acc (Cls false [(c, c)])) cs Eps.
Lemma lang_cat_eps acc a u v w : lang (cat acc a) u v w <-> lang (Cat acc a) u v w.
Proof.
  unfold cat. destruct acc; try reflexivity. split.
  - intros H. apply (L_cat Eps a u [] v w); [constructor|rewrite app_nil_r; exact H].
  - intros H. inversion H as [| | | |? ? ? v1 v2 ? H1 H2| | | | |]; subst. inversion H1; subst. rewrite app_nil_r in H2. exact H2.
Qed.
Lemma lang_char c u v w : lang (Cls false [(c, c)]) u v w <-> exists wd, v = [(c, wd)].
Proof.
  split.
  - intros H. inversion H as [|? ? ? x wd ? Hc| | | | | | | |]; subst. unfold cls_mem, in_rng in Hc. cbn [existsb fst snd] in Hc. exists wd. assert (x = c) by lia. subst. reflexivity.
  - intros [wd ->]. constructor. unfold cls_mem, in_rng. cbn [existsb fst snd]. lia.
Qed.
Lemma lang_chars cs : forall u v w, lang (chars cs) u v w <-> map fst v = cs.
Proof.
  unfold chars. induction cs as [|c cs IH] using rev_ind; intros u v w.
  - cbn [fold_left]. split; [intros H; inversion H; reflexivity|]. destruct v; [constructor|discriminate].
  - rewrite fold_left_app. cbn [fold_left]. rewrite lang_cat_eps. split.
    + intros H. inversion H as [| | | |? ? ? v1 v2 ? H1 H2| | | | |]; subst. apply IH in H1. apply lang_char in H2 as [wd ->]. rewrite map_app, H1. reflexivity.
    + intros E. assert (X : exists v1 wd, v = v1 ++ [(c, wd)] /\ map fst v1 = cs).
      { destruct v as [|x v] using rev_ind; [destruct cs; discriminate E|]. rewrite map_app in E. cbn [map] in E. apply app_inj_tail in E as [E1 E2].
        destruct x as [c' wd]. cbn in E2. subst c'. eauto. }
      destruct X as (v1 & wd & -> & E1). constructor; [apply IH; exact E1|apply lang_char; eauto].
Qed.

Lemma parse_plain cs : (forall c, In c cs -> ~ In c [92; 46; 43; 42; 63; 40; 41; 124; 91; 123; 94; 36]%N) ->
  forall fuel n acc, length cs < fuel -> parse_seq fuel false n cs acc = Some (fold_left (fun acc c => cat acc (Cls false [(c, c)])) cs acc, n, []).
Proof.
  induction cs as [|c cs IH]; intros Hc fuel n acc L; destruct fuel as [|fuel]; try (cbn [length] in L; lia); [reflexivity|].
  assert (Pl : ~ In c [92; 46; 43; 42; 63; 40; 41; 124; 91; 123; 94; 36]%N) by (apply Hc; left; reflexivity).
  assert (Q : parse_quant cs = None).
  { destruct cs as [|d cs]; [reflexivity|]. assert (Pd : ~ In d [92; 46; 43; 42; 63; 40; 41; 124; 91; 123; 94; 36]%N) by (apply Hc; right; left; reflexivity).
    cbn [In] in Pd. unfold parse_quant.
    destruct (d =? 42)%N eqn:E1; [exfalso; lia|]. destruct (d =? 43)%N eqn:E2; [exfalso; lia|]. destruct (d =? 63)%N eqn:E3; [exfalso; lia|]. destruct (d =? 123)%N eqn:E4; [exfalso; lia|]. reflexivity. }
  cbn [parse_seq]. cbn [In] in Pl.
  replace ((c =? 124)%N || (c =? 41)%N) with false by lia. replace (c =? 40)%N with false by lia. replace (c =? 91)%N with false by lia.
  replace (c =? 92)%N with false by lia. replace (c =? 46)%N with false by lia. replace (c =? 94)%N with false by lia. replace (c =? 36)%N with false by lia.
  replace ((c =? 42)%N || (c =? 43)%N || (c =? 63)%N || (c =? 123)%N) with false by lia. cbv beta iota zeta. rewrite Q.
  cbn [fold_left]. unfold lit_rs. apply IH; [intros d Hd; apply Hc; right; exact Hd|cbn [length] in L; lia].
Qed.

Lemma runes_plain p : Forall plain p -> map fst (runes p) = map bn p.
Proof.
  intros H. rewrite <- (app_nil_r p) at 1. rewrite runes_ascii_app by (eapply Forall_impl; [|exact H]; intros b [Hb _]; exact Hb).
  cbn. rewrite app_nil_r, map_map. reflexivity.
Qed.
Lemma parse_re_plain p : Forall plain p -> parse_re p = Some (chars (map bn p), 0).
Proof.
  intros H. unfold parse_re. rewrite runes_plain by exact H. set (cs := map bn p).
  assert (Hc : forall c, In c cs -> ~ In c [92; 46; 43; 42; 63; 40; 41; 124; 91; 123; 94; 36]%N).
  { intros c I. apply in_map_iff in I as (b & <- & I). rewrite Forall_forall in H. apply H. exact I. }
  assert (E : (match cs with
     | a :: b :: c :: d :: r => if ((a =? 40)%N && (b =? 63)%N && (c =? 105)%N && (d =? 41)%N) then (true, r) else (false, cs)
     | _ => (false, cs) end) = (false, cs)).
  { destruct cs as [|a [|b [|c [|d r]]]]; try reflexivity. specialize (Hc a (or_introl eq_refl)). cbn [In] in Hc. replace (a =? 40)%N with false by lia. reflexivity. }
  rewrite E. replace (2 * length cs + 2) with (S (2 * length cs + 1)) by lia. cbn [parse_alt]. rewrite (parse_plain cs Hc) by lia. reflexivity.
Qed.

(** ASCII substrings of the bytes and of the runes. *)
Lemma sub_bytes_runes p b : forall n a, length a <= n -> p <> [] -> Forall (fun x => (bn x < 128)%N) p ->
  exists u w, runes (a ++ p ++ b) = u ++ map (fun x => (bn x, 1)) p ++ w.
Proof.
  induction n as [|n IH]; intros a L N H.
  - destruct a; [|cbn in L; lia]. exists [], (runes b). cbn [app]. apply runes_ascii_app. exact H.
  - destruct a as [|x a]; [exists [], (runes b); exact (runes_ascii_app p b H)|]. cbn [app].
    rewrite runes_cons. pose proof (decode_rune_pos x (a ++ p ++ b)) as D0. pose proof (decode_width x (a ++ p ++ b) (length (x :: a))) as D1.
    destruct (decode_rune (x :: a ++ p ++ b)) as [r w]. cbn [snd] in *.
    assert (W : w <= length (x :: a)).
    { destruct (Nat.le_gt_cases w (length (x :: a))) as [Hw|Hw]; [exact Hw|exfalso]. destruct p as [|y p]; [contradiction|].
      destruct (D1 y) as [E _]; [lia| |inversion H; assumption|cbn [length] in E; lia].
      change (x :: a ++ (y :: p) ++ b) with ((x :: a) ++ y :: p ++ b). rewrite nth_error_app2 by lia. rewrite Nat.sub_diag. reflexivity. }
    change (x :: a ++ p ++ b) with ((x :: a) ++ p ++ b). rewrite skipn_app. replace (w - length (x :: a)) with 0 by lia. cbn [skipn].
    destruct (IH (skipn w (x :: a))) as (u & w' & E); [rewrite skipn_length; cbn [length] in *; lia|exact N|exact H|].
    rewrite E. exists ((r, w) :: u), w'. reflexivity.
Qed.
Lemma runes_prefix cs : forall s v w, Forall (fun c => (c < 128)%N) cs -> runes s = v ++ w -> map fst v = cs -> exists p b, s = p ++ b /\ map bn p = cs.
Proof.
  induction cs as [|c cs IH]; intros s v w H E M; [exists [], s; auto|].
  destruct v as [|[c' wd] v]; [discriminate M|]. cbn [map fst] in M. injection M as -> M. inversion H as [|? ? Hc Ht]; subst.
  destruct s as [|x s]; [discriminate E|]. rewrite runes_cons in E.
  assert (Hx : (bn x < 128)%N).
  { destruct (N.lt_ge_cases (bn x) 128) as [Hx|Hx]; [exact Hx|exfalso]. pose proof (decode_high x s Hx) as D. destruct (decode_rune (x :: s)) as [r w0]. cbn [fst] in D. cbn [app] in E. injection E as -> _ _. lia. }
  rewrite decode_ascii in E by exact Hx. cbn [app] in E. injection E as E1 E2 E3. cbn [skipn] in E3.
  destruct (IH s v w Ht E3 eq_refl) as (p & b & -> & Ep). exists (x :: p), b. split; [reflexivity|]. cbn [map]. congruence.
Qed.
Lemma sub_runes_bytes cs u : forall s v w, Forall (fun c => (c < 128)%N) cs -> runes s = u ++ v ++ w -> map fst v = cs -> exists a p b, s = a ++ p ++ b /\ map bn p = cs.
Proof.
  induction u as [|[r wd] u IH]; intros s v w H E M.
  - cbn [app] in E. destruct (runes_prefix cs s v w H E M) as (p & b & -> & Ep). exists [], p, b. auto.
  - destruct s as [|x s]; [discriminate E|]. rewrite runes_cons in E. destruct (decode_rune (x :: s)) as [r' w']. cbn [app] in E. injection E as _ _ E.
    destruct (IH _ v w H E M) as (a & p & b & Es & Ep). exists (firstn w' (x :: s) ++ a), p, b. rewrite <- app_assoc, <- Es, firstn_skipn. auto.
Qed.
Lemma bn_inj a b : bn a = bn b -> a = b.
Proof. unfold bn. intros H. pose proof (Byte.of_to_N a). pose proof (Byte.of_to_N b). congruence. Qed.
Lemma plain_find p s : p <> [] -> Forall plain p -> re_find (compile p) s <> None <-> exists a b, s = a ++ p ++ b.
Proof.
  intros N H. rewrite (compile_lang p _ _ s (parse_re_plain p H)).
  assert (A : Forall (fun b => (bn b < 128)%N) p) by (eapply Forall_impl; [|exact H]; intros b [Hb _]; exact Hb).
  split.
  - intros (u & v & w & E & L). apply lang_chars in L.
    destruct (sub_runes_bytes (map bn p) u s v w) as (a & p' & b & Es & Ep); [apply Forall_map; exact A|exact E|exact L|].
    exists a, b. assert (p' = p); [|subst; reflexivity]. clear - Ep. revert p' Ep. induction p as [|x p IH]; intros [|y p']; cbn [map]; intros E; try discriminate E; [reflexivity|].
    injection E as E1 E2. apply bn_inj in E1. subst. f_equal. auto.
  - intros (a & b & ->). destruct (sub_bytes_runes p b (length a) a (le_n _) N A) as (u & w & E). exists u, (map (fun x => (bn x, 1)) p), w.
    split; [exact E|]. apply lang_chars. rewrite map_map. reflexivity.
Qed.

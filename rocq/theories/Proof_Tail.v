(** What a version group at the end of a pattern captures: the whole run of digits and dots. *)
From Verif Require Import Model_Base Model_Regex Spec_Regex Proof_Pattern.
From Coq Require Import Lia ZifyBool ZifyNat ZifyN.

Definition re_d : re := Cls false [(48, 57)%N].
Definition re_e : re := Cls false [(46, 46)%N; (48, 57)%N].
(** [\d+[.\d]+] *)
Definition re_body : re := Cat (Cat re_d (Star true re_d)) (Cat re_e (Star true re_e)).
Definition is_d (x : N) : bool := cls_mem false [(48, 57)%N] x.
Definition is_e (x : N) : bool := cls_mem false [(46, 46)%N; (48, 57)%N] x.
Lemma d_e x : is_d x = true -> is_e x = true.
Proof. unfold is_d, is_e, cls_mem. cbn [existsb fst snd]. destruct (in_rng 48 57 x); [|discriminate]. intros _. destruct (in_rng 46 46 x); reflexivity. Qed.

Definition run (s : text) : Prop := Forall (fun r => is_e (fst r) = true) s.
Definition stops (s : text) : Prop := match s with [] => True | r :: _ => is_e (fst r) = false end.
Lemma run_unique v : forall v' w w', v ++ w = v' ++ w' -> run v -> run v' -> stops w -> stops w' -> v = v' /\ w = w'.
Proof.
  induction v as [|x v IH]; intros [|x' v'] w w' E R R' S S'; cbn [app] in E.
  - auto.
  - subst w. inversion R'; subst. cbn [stops app] in S. congruence.
  - subst w'. inversion R; subst. cbn [stops app] in S'. congruence.
  - injection E as <- E. inversion R; subst. inversion R'; subst. destruct (IH v' w w' E) as [-> ->]; auto.
Qed.
(** The last run of a text that is preceded by another character. *)
Lemma last_run a x v a' x' v' : a ++ x :: v = a' ++ x' :: v' -> is_e (fst x) = false -> is_e (fst x') = false -> run v -> run v' -> v = v' /\ a ++ [x] = a' ++ [x'].
Proof.
  intros E X X' R R'.
  assert (Q : rev v = rev v' /\ x :: rev a = x' :: rev a').
  { apply run_unique; [|apply Forall_rev; exact R|apply Forall_rev; exact R'|exact X|exact X'].
    apply (f_equal (@rev _)) in E. rewrite !rev_app_distr in E. cbn [rev] in E. rewrite <- !app_assoc in E. exact E. }
  destruct Q as [Q1 Q2]. split; [rewrite <- (rev_involutive v), Q1; apply rev_involutive|].
  injection Q2 as -> Q2. apply (f_equal (@rev _)) in Q2. rewrite !rev_involutive in Q2. subst a'. reflexivity.
Qed.

Lemma cls_parse neg rs p t v w : parses (Cls neg rs) p t v w -> exists x wd, t = TChar wd /\ v = [(x, wd)] /\ cls_mem neg rs x = true.
Proof. inversion 1; subst. eauto. Qed.
Lemma cat_parse a b p t v w : parses (Cat a b) p t v w ->
  exists t1 t2 v1 v2, t = TCat t1 t2 /\ v = v1 ++ v2 /\ parses a p t1 v1 (v2 ++ w) /\ parses b (p + width v1)%Z t2 v2 w.
Proof. inversion 1; subst. repeat eexists; eassumption. Qed.
Lemma star_all neg rs g p t v w : parses (Star g (Cls neg rs)) p t v w -> Forall (fun r => cls_mem neg rs (fst r) = true) v.
Proof.
  remember (Star g (Cls neg rs)) as r eqn:Er. induction 1; try discriminate Er; [constructor|]. injection Er as -> ->.
  apply Forall_app. split; [|auto]. apply cls_parse in H0 as (x & wd & _ & -> & C). repeat constructor. exact C.
Qed.
(** A greedy star that could go on is not preferred. *)
Lemma star_more neg rs p t v x wd w : parses (Star true (Cls neg rs)) p t v ((x, wd) :: w) -> cls_mem neg rs x = true ->
  exists t', parses (Star true (Cls neg rs)) p t' (v ++ [(x, wd)]) w /\ prefers (Star true (Cls neg rs)) t' t.
Proof.
  intros P C. remember (Star true (Cls neg rs)) as r eqn:Er. remember ((x, wd) :: w) as w0 eqn:Ew. revert Er Ew.
  induction P; intros Er Ew; try discriminate Er.
  - injection Er as -> ->. subst w0. exists (TMore (TChar wd) TStop). split; [|constructor].
    cbn [app]. apply (P_more true (Cls neg rs) p (TChar wd) TStop [(x, wd)] [] w); [discriminate|constructor; exact C|constructor].
  - injection Er as -> ->. subst w0. destruct (IHP2 eq_refl eq_refl) as (t' & P' & F). exists (TMore t1 t'). split.
    + rewrite <- app_assoc. apply P_more; [assumption| |exact P']. rewrite <- app_assoc. exact P1.
    + apply F_more2. exact F.
Qed.
Lemma star_run neg rs p : forall v w, Forall (fun r => cls_mem neg rs (fst r) = true) v -> exists t, parses (Star true (Cls neg rs)) p t v w.
Proof.
  intros v w F. revert p. induction F as [|[x wd] v C _ IH]; intros p; [exists TStop; constructor|].
  destruct (IH (p + width [(x, wd)])%Z) as (t & P). exists (TMore (TChar wd) t).
  apply (P_more true (Cls neg rs) p (TChar wd) t [(x, wd)] v w); [discriminate|constructor; exact C|exact P].
Qed.
Lemma body_some p x wd y wd' v w : is_d x = true -> is_e y = true -> run v -> exists t, parses re_body p t ((x, wd) :: (y, wd') :: v) w.
Proof.
  intros X Y R. destruct (star_run false [(46, 46)%N; (48, 57)%N] (p + width [(x, wd)] + width [(y, wd')])%Z v w R) as (t & P).
  exists (TCat (TCat (TChar wd) TStop) (TCat (TChar wd') t)).
  apply (P_cat _ _ p _ _ [(x, wd)] ((y, wd') :: v) w).
  - apply (P_cat _ _ p _ _ [(x, wd)] [] _); [constructor; exact X|constructor].
  - apply (P_cat _ _ _ _ _ [(y, wd')] v w); [constructor; exact Y|exact P].
Qed.
Lemma body_run p t v w : parses re_body p t v w -> run v.
Proof.
  intros P. apply cat_parse in P as (t1 & t2 & v1 & v2 & -> & -> & P1 & P2).
  apply cat_parse in P1 as (t3 & t4 & v3 & v4 & -> & -> & P3 & P4). apply cat_parse in P2 as (t5 & t6 & v5 & v6 & -> & -> & P5 & P6).
  apply cls_parse in P3 as (x & wd & -> & -> & C3). apply cls_parse in P5 as (y & wd' & -> & -> & C5).
  apply star_all in P4. apply star_all in P6. apply Forall_app. split; apply Forall_app; split.
  - repeat constructor. apply d_e. exact C3.
  - eapply Forall_impl; [|exact P4]. intros r Hr. apply d_e. exact Hr.
  - repeat constructor. exact C5.
  - exact P6.
Qed.
Lemma body_more p t v x wd w : parses re_body p t v ((x, wd) :: w) -> is_e x = true ->
  exists t', parses re_body p t' (v ++ [(x, wd)]) w /\ prefers re_body t' t.
Proof.
  intros P C. apply cat_parse in P as (t1 & t2 & v1 & v2 & -> & -> & P1 & P2).
  apply cat_parse in P2 as (t5 & t6 & v5 & v6 & -> & -> & P5 & P6).
  destruct (star_more _ _ _ _ _ x wd w P6 C) as (t' & P' & F). exists (TCat t1 (TCat t5 t')). split.
  - rewrite <- app_assoc. apply P_cat; [rewrite <- !app_assoc in *; cbn [app] in *; exact P1|]. rewrite <- app_assoc.
    apply P_cat; [rewrite <- app_assoc; exact P5|exact P'].
  - apply F_cat2, F_cat2. exact F.
Qed.

(** [t] is the preferred way to match [r] here. *)
Definition top (r : re) (p : Z) (t : tree) (v w : text) : Prop :=
  parses r p t v w /\ forall t' v' w', v ++ w = v' ++ w' -> parses r p t' v' w' -> t' = t \/ prefers r t t'.
Lemma prefers_asym r t t' : prefers r t t' -> prefers r t' t -> False.
Proof.
  intros A. induction A; intros B; inversion B; subst; auto; try (eapply prefers_irrefl; eassumption).
Qed.

Lemma body_top p t v w V B : top re_body p t v w -> v ++ w = V ++ B -> run V -> stops B -> v = V.
Proof.
  intros [P F] E R S. assert (Sw : stops w).
  { destruct w as [|[x wd] w]; [exact I|]. cbn [stops fst]. destruct (is_e x) eqn:X; [|reflexivity]. exfalso.
    destruct (body_more p t v x wd w P X) as (t' & P' & Q). destruct (F t' (v ++ [(x, wd)]) w) as [->|Q'].
    - rewrite <- app_assoc. reflexivity.
    - exact P'.
    - exact (prefers_irrefl _ _ Q).
    - exact (prefers_asym _ _ _ Q Q'). }
  exact (proj1 (run_unique v V w B E (body_run _ _ _ _ P) R Sw S)).
Qed.
Lemma top_cat a b p t v w : top (Cat a b) p t v w ->
  exists t1 t2 v1 v2, t = TCat t1 t2 /\ v = v1 ++ v2 /\ parses a p t1 v1 (v2 ++ w) /\ top b (p + width v1)%Z t2 v2 w.
Proof.
  intros [P F]. apply cat_parse in P as (t1 & t2 & v1 & v2 & -> & -> & P1 & P2). exists t1, t2, v1, v2.
  split; [reflexivity|]. split; [reflexivity|]. split; [exact P1|]. split; [exact P2|]. intros t' v' w' E P'.
  destruct (F (TCat t1 t') (v1 ++ v') w') as [Q|Q].
  - rewrite <- !app_assoc, E. reflexivity.
  - apply P_cat; [rewrite <- E; exact P1|exact P'].
  - injection Q as ->. left. reflexivity.
  - inversion Q; subst; [exfalso; eapply prefers_irrefl; eassumption|]. right. assumption.
Qed.
Lemma top_grp n a p t v w : top (Grp n a) p t v w -> exists t1, t = TGrp n t1 /\ top a p t1 v w.
Proof.
  intros [P F]. inversion P; subst. exists t0. split; [reflexivity|]. split; [assumption|]. intros t' v' w' E P'.
  destruct (F (TGrp n t') v' w' E) as [Q|Q]; [constructor; exact P'|injection Q as ->; left; reflexivity|]. inversion Q; subst. right. assumption.
Qed.
Lemma top_left a b p t v w t' v' w' : top (Alt a b) p t v w -> v ++ w = v' ++ w' -> parses a p t' v' w' -> exists t1, t = TL t1 /\ top a p t1 v w.
Proof.
  intros [P F] E P'. inversion P; subst.
  - exists t0. split; [reflexivity|]. split; [assumption|]. intros t2 v2 w2 E2 P2.
    destruct (F (TL t2) v2 w2 E2) as [Q|Q]; [constructor; exact P2|injection Q as ->; left; reflexivity|]. inversion Q; subst. right. assumption.
  - exfalso. destruct (F (TL t') v' w' E) as [Q|Q]; [constructor; exact P'|discriminate Q|inversion Q].
Qed.

(** Both shapes of the last part of a pattern: the version group after a character of a class, and the same, optional. *)
Lemma group_end p t v w V B : top (Grp 1 re_body) p t v w -> v ++ w = V ++ B -> run V -> stops B ->
  group_of 1 p t = Some (p, p + width V)%Z.
Proof.
  intros T E R S. apply top_grp in T as (t1 & -> & T). pose proof (body_top p t1 v w V B T E R S) as Ev. cbn [group_of].
  rewrite Nat.eqb_refl. destruct T as [P _]. rewrite <- (parses_size _ _ _ _ _ P), Ev. reflexivity.
Qed.
Lemma option_end neg rs p t v w x wd y wd' z wd'' V B : top (Alt (Cat (Cls neg rs) (Grp 1 re_body)) Eps) p t v w ->
  v ++ w = (x, wd) :: ((y, wd') :: (z, wd'') :: V) ++ B -> cls_mem neg rs x = true -> is_d y = true -> is_e z = true -> run V -> stops B ->
  group_of 1 p t = Some (p + Z.of_nat wd, p + Z.of_nat wd + width ((y, wd') :: (z, wd'') :: V))%Z.
Proof.
  intros T E X Y Z R S. destruct (body_some (p + width [(x, wd)])%Z y wd' z wd'' V B Y Z R) as (tb & Pb).
  destruct (top_left _ _ p t v w (TCat (TChar wd) (TGrp 1 tb)) ([(x, wd)] ++ (y, wd') :: (z, wd'') :: V) B T E) as (t1 & -> & T1).
  { apply P_cat; [constructor; exact X|]. constructor. exact Pb. }
  apply top_cat in T1 as (t2 & t3 & v1 & v2 & -> & -> & P1 & T3). apply cls_parse in P1 as (x' & wd0 & -> & -> & _).
  rewrite <- app_assoc in E. cbn [app] in E. injection E as -> -> E.
  cbn [group_of size]. replace (p + Z.of_nat wd)%Z with (p + width [(x, wd)])%Z by (cbn [width]; lia).
  rewrite (group_end _ t3 v2 w ((y, wd') :: (z, wd'') :: V) B T3 E); [reflexivity| |exact S]. repeat constructor; [apply d_e; exact Y|exact Z|exact R].
Qed.
Lemma best_top r s p t : best r s p t -> exists u v w, s = u ++ v ++ w /\ p = width u /\ top r p t v w.
Proof. intros (u & v & w & E & Ep & P & _ & F). exists u, v, w. split; [exact E|]. split; [exact Ep|]. split; [exact P|exact F]. Qed.


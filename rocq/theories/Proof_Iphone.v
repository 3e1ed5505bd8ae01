(** Safari on an iPhone. *)
From Verif Require Import Model_Base Model_CacheEntry Model_Regex Model_Ctx Model_Parse Model_Shipped Spec_Regex Spec_Getters Spec_Select Spec_Word Spec_Panic Spec_Family Spec_Iphone
  Proof_Base Proof_Pattern Proof_Word Proof_Covers Proof_Quick Proof_Index Proof_Shadow Proof_Bare Proof_Charset Proof_Agree Proof_Select Proof_OS Proof_Client Proof_Choice
  Proof_Live Proof_Tables Proof_Fine Proof_StaleShipped Proof_Reports Proof_OsInside Proof_Family Proof_Tail Proof_Desktop Proof_DesktopBrowser Proof_DesktopSystem Proof_DesktopShipped
  Proof_DesktopDevice Proof_Phone Proof_Library.
From Coq Require Import Lia ZifyBool ZifyNat ZifyN.
Open Scope nat_scope.

(** ** Digits, dots and underscores *)
Definition is_s (x : N) : bool := is_e x || (x =? 95)%N.
Definition srun (v : Spec_Regex.text) : Prop := Forall (fun r => is_s (fst r) = true) v.
Definition sstops (w : Spec_Regex.text) : Prop := match w with x :: _ => is_s (fst x) = false | [] => True end.
Lemma d_s x : is_d x = true -> is_s x = true.
Proof. intros H. unfold is_s. rewrite (d_e x H). reflexivity. Qed.
Lemma last_srun a x v a' x' v' : a ++ x :: v = a' ++ x' :: v' -> is_s (fst x) = false -> is_s (fst x') = false -> srun v -> srun v' -> v = v' /\ a ++ [x] = a' ++ [x'].
Proof.
  intros E X X' R R'.
  assert (K : forall a x v a' x' v' (l : Spec_Regex.text), a = a' ++ l -> x' :: v' = l ++ x :: v -> is_s (fst x) = false -> srun v' -> v = v' /\ a ++ [x] = a' ++ [x']).
  { clear. intros a x v a' x' v' [|y l] -> E X R; cbn [app] in E; injection E as -> ->; [rewrite app_nil_r; auto|].
    unfold srun in R. rewrite Forall_forall in R. specialize (R x (in_elt _ _ _)). rewrite R in X. discriminate X. }
  apply app_eq_app in E as (l & [[E1 E2]|[E1 E2]]).
  - exact (K a x v a' x' v' l E1 E2 X R').
  - destruct (K a' x' v' a x v l E1 E2 X' R) as [-> ->]. auto.
Qed.

(** ** The body [\d+(?:[_.]\d+)*] *)
Definition sepc : list (N * N) := [(95, 95); (46, 46)]%N.
Definition re_num : re := Cat re_d (Star true re_d).
Definition re_next : re := Cat (Cls false sepc) re_num.
Definition re_sys : re := Cat re_num (Star true re_next).
Lemma sep_s x : cls_mem false sepc x = true -> is_s x = true.
Proof.
  intros C. unfold sepc, cls_mem in C. cbn [existsb fst snd] in C. unfold is_s. destruct (in_rng 95 95 x) eqn:E; unfold in_rng in E.
  - assert (x = 95%N) as -> by lia. reflexivity.
  - destruct (in_rng 46 46 x) eqn:F; unfold in_rng in F; [|discriminate C]. assert (x = 46%N) as -> by lia. reflexivity.
Qed.
Lemma s_sep x : is_s x = true -> is_d x = false -> cls_mem false sepc x = true.
Proof.
  intros S D. unfold is_s in S. apply Bool.orb_true_iff in S as [S|S].
  - apply is_e_iff in S as [->|S]; [reflexivity|]. rewrite D in S. discriminate S.
  - apply N.eqb_eq in S as ->. reflexivity.
Qed.
Lemma num_run p t v w : parses re_num p t v w -> srun v /\ exists x wd v', v = (x, wd) :: v' /\ is_d x = true.
Proof.
  intros P. apply cat_parse in P as (t3 & t4 & v3 & v4 & -> & -> & P3 & P4). apply cls_parse in P3 as (x & wd & -> & -> & C3). apply star_all in P4.
  split; [|exists x, wd, v4; split; [reflexivity|exact C3]]. constructor; [apply d_s; exact C3|]. eapply Forall_impl; [|exact P4]. intros r Hr. apply d_s. exact Hr.
Qed.
Lemma num_more p t v x wd w : parses re_num p t v ((x, wd) :: w) -> is_d x = true -> exists t', parses re_num p t' (v ++ [(x, wd)]) w /\ prefers re_num t' t.
Proof.
  intros P C. apply cat_parse in P as (t1 & t2 & v1 & v2 & -> & -> & P1 & P2).
  destruct (star_more _ _ _ _ _ x wd w P2 C) as (t' & P' & F). exists (TCat t1 t'). split; [|apply F_cat2; exact F].
  rewrite <- app_assoc. apply P_cat; [rewrite <- app_assoc; exact P1|exact P'].
Qed.
Lemma next_more p t v x wd w : parses re_next p t v ((x, wd) :: w) -> is_d x = true -> exists t', parses re_next p t' (v ++ [(x, wd)]) w /\ prefers re_next t' t.
Proof.
  intros P C. apply cat_parse in P as (t1 & t2 & v1 & v2 & -> & -> & P1 & P2).
  destruct (num_more _ _ _ x wd w P2 C) as (t' & P' & F). exists (TCat t1 t'). split; [|apply F_cat2; exact F].
  rewrite <- app_assoc. apply P_cat; [rewrite <- app_assoc; exact P1|exact P'].
Qed.
Lemma stars_run p t v w : parses (Star true re_next) p t v w -> srun v.
Proof.
  intros P. remember (Star true re_next) as r eqn:Er. induction P; try discriminate Er; [constructor|]. injection Er as -> ->.
  apply Forall_app. split; [|apply IHP2; reflexivity]. apply cat_parse in P1 as (t3 & t4 & v3 & v4 & -> & -> & P3 & P4). apply cls_parse in P3 as (x & wd & -> & -> & C3).
  constructor; [apply sep_s; exact C3|]. exact (proj1 (num_run _ _ _ _ P4)).
Qed.
(** A digit prolongs the last numeral. *)
Lemma stars_digit p t v x wd w : parses (Star true re_next) p t v ((x, wd) :: w) -> is_d x = true -> v = [] \/
  exists t', parses (Star true re_next) p t' (v ++ [(x, wd)]) w /\ prefers (Star true re_next) t' t.
Proof.
  intros P C. remember (Star true re_next) as r eqn:Er. remember ((x, wd) :: w) as w0 eqn:Ew. revert Er Ew.
  induction P; intros Er Ew; try discriminate Er; [left; reflexivity|]. injection Er as -> ->. subst w0. right.
  destruct (IHP2 eq_refl eq_refl) as [->|(t' & P' & F)].
  - cbn [app] in P1. destruct (next_more _ _ _ x wd w P1 C) as (t' & P' & F). exists (TMore t' TStop). split; [|apply F_more1; exact F].
    rewrite app_nil_r. rewrite <- (app_nil_r (v1 ++ [(x, wd)])). apply P_more; [destruct v1; discriminate|exact P'|constructor].
  - exists (TMore t1 t'). split; [|apply F_more2; exact F]. rewrite <- app_assoc. apply P_more; [assumption| |exact P']. rewrite <- app_assoc. exact P1.
Qed.
(** A separator and a digit make one more iteration. *)
Lemma stars_sep p t v s d w : parses (Star true re_next) p t v (s :: d :: w) -> cls_mem false sepc (fst s) = true -> is_d (fst d) = true ->
  exists t', parses (Star true re_next) p t' (v ++ [s; d]) w /\ prefers (Star true re_next) t' t.
Proof.
  intros P C D. remember (Star true re_next) as r eqn:Er. remember (s :: d :: w) as w0 eqn:Ew. revert Er Ew.
  induction P; intros Er Ew; try discriminate Er.
  - injection Er as -> ->. subst w0. destruct s as [s sw], d as [d dw]. cbn [fst] in C, D. exists (TMore (TCat (TChar sw) (TCat (TChar dw) TStop)) TStop). split; [|constructor].
    apply (P_more true re_next p _ TStop [(s, sw); (d, dw)] [] w); [discriminate| |constructor].
    apply (P_cat _ _ p (TChar sw) _ [(s, sw)] [(d, dw)]); [constructor; exact C|].
    apply (P_cat _ _ _ (TChar dw) TStop [(d, dw)] []); [constructor; exact D|constructor].
  - injection Er as -> ->. subst w0. destruct (IHP2 eq_refl eq_refl) as (t' & P' & F). exists (TMore t1 t'). split.
    + rewrite <- app_assoc. apply P_more; [assumption| |exact P']. rewrite <- app_assoc. exact P1.
    + apply F_more2. exact F.
Qed.
Lemma sys_run p t v w : parses re_sys p t v w -> srun v /\ exists x wd v', v = (x, wd) :: v' /\ is_d x = true.
Proof.
  intros P. apply cat_parse in P as (t1 & t2 & v1 & v2 & -> & -> & P1 & P2). destruct (num_run _ _ _ _ P1) as (R1 & x & wd & v' & -> & D).
  split; [apply Forall_app; split; [exact R1|exact (stars_run _ _ _ _ P2)]|]. exists x, wd. eexists. split; [reflexivity|exact D].
Qed.
(** Every separator is followed by a digit. *)
Definition closed (V : Spec_Regex.text) : Prop := forall a s b, V = a ++ s :: b -> is_d (fst s) = false -> exists d b', b = d :: b' /\ is_d (fst d) = true.
Lemma sys_top p t v w V B : top re_sys p t v w -> v ++ w = V ++ B -> srun V -> closed V -> sstops B -> v = V.
Proof.
  intros [P F] E R CL S. destruct (sys_run _ _ _ _ P) as (Rv & _).
  apply app_eq_app in E as (l & [[-> E2]|[-> E2]]); destruct l as [|[x wd] l]; rewrite ?app_nil_r; try reflexivity; exfalso.
  - rewrite E2 in S. cbn [app sstops fst] in S. unfold srun in Rv. rewrite Forall_forall in Rv. specialize (Rv (x, wd) (in_elt _ _ _)). cbn [fst] in Rv. rewrite Rv in S. discriminate S.
  - cbn [app] in E2. subst w.
    assert (NO : forall t' v' w', v ++ (x, wd) :: l ++ B = v' ++ w' -> parses re_sys p t' v' w' -> prefers re_sys t' t -> False).
    { intros t' v' w' Ev P' Q. destruct (F t' v' w' Ev P') as [->|Q']; [exact (prefers_irrefl _ _ Q)|exact (prefers_asym _ _ _ Q Q')]. }
    apply cat_parse in P as (t1 & t2 & v1 & v2 & -> & -> & P1 & P2).
    destruct (is_d x) eqn:D.
    + destruct (stars_digit _ _ _ x wd (l ++ B) P2 D) as [->|(t' & P' & Q)].
      * cbn [app] in P1. destruct (num_more _ _ _ x wd (l ++ B) P1 D) as (t' & P' & Q). rewrite app_nil_r in NO.
        refine (NO (TCat t' TStop) ((v1 ++ [(x, wd)]) ++ []) (l ++ B) _ (P_cat _ _ _ _ _ (v1 ++ [(x, wd)]) [] _ P' (P_stop _ _ _ _)) (F_cat1 _ _ _ _ _ _ Q)).
        rewrite app_nil_r, <- app_assoc. reflexivity.
      * refine (NO (TCat t1 t') (v1 ++ v2 ++ [(x, wd)]) (l ++ B) _ (P_cat _ _ _ _ _ v1 (v2 ++ [(x, wd)]) _ _ P') (F_cat2 _ _ _ _ _ Q)).
        -- rewrite <- !app_assoc. reflexivity.
        -- rewrite <- app_assoc. exact P1.
    + destruct (CL (v1 ++ v2) (x, wd) l eq_refl D) as (d & b' & -> & Dd).
      assert (C : cls_mem false sepc (fst (x, wd)) = true) by (apply s_sep; [|exact D]; unfold srun in R; rewrite Forall_forall in R; exact (R (x, wd) (in_elt _ _ _))).
      destruct (stars_sep _ _ _ (x, wd) d (b' ++ B) P2 C Dd) as (t' & P' & Q).
      refine (NO (TCat t1 t') (v1 ++ v2 ++ [(x, wd); d]) (b' ++ B) _ (P_cat _ _ _ _ _ v1 (v2 ++ [(x, wd); d]) _ _ P') (F_cat2 _ _ _ _ _ Q)).
      * rewrite <- !app_assoc. reflexivity.
      * rewrite <- app_assoc. exact P1.
Qed.

(** ** Patterns whose matches end outside these characters *)
Fixpoint ends_off (a : re) : bool :=
  match a with
  | Cls neg rs => negb (existsb (cls_mem neg rs) (95 :: 46 :: digs)%N)
  | Cat a b => ends_off b && (if empty_ok b then ends_off a else true)
  | Alt a b => ends_off a && ends_off b
  | Star _ a | Grp _ a => ends_off a
  | _ => true
  end.
Definition off_end (v : Spec_Regex.text) : Prop := v = [] \/ exists u x, v = u ++ [x] /\ is_s (fst x) = false.
Lemma s_in x : is_s x = true -> In x (95 :: 46 :: digs)%N.
Proof. unfold is_s. intros H. apply Bool.orb_true_iff in H as [H|H]; [right; apply e_in; exact H|left; apply N.eqb_eq in H; auto]. Qed.
Lemma off_app u v : off_end v -> (v = [] -> off_end u) -> off_end (u ++ v).
Proof. intros [->|(y & x & -> & H)] Hu; [rewrite app_nil_r; auto|]. right. exists (u ++ y), x. rewrite app_assoc. auto. Qed.
Lemma ends_off_ok a u v w : lang a u v w -> ends_off a = true -> off_end v.
Proof.
  induction 1; cbn [ends_off]; intros E; try (left; reflexivity); auto.
  - right. exists [], (x, wd). split; [reflexivity|]. cbn [fst]. apply Bool.not_true_iff_false. intros Q. apply Bool.negb_true_iff in E.
    rewrite <- Bool.not_true_iff_false in E. apply E. apply existsb_exists. exists x. split; [apply s_in; exact Q|assumption].
  - apply andb_prop in E as [E1 E2]. apply off_app; [auto|]. intros ->. rewrite (empty_ok_ok _ _ _ _ H0 eq_refl) in E2. auto.
  - apply andb_prop in E as [E1 E2]. auto.
  - apply andb_prop in E as [E1 E2]. auto.
  - apply off_app; [auto|]. auto.
Qed.

Lemma prefix_width : forall (u1 w1 u w : Spec_Regex.text), u1 ++ w1 = u ++ w -> width u1 = width u -> Forall (fun x => snd x = 1) (u1 ++ w1) -> u1 = u.
Proof.
  intros u1 w1 u w E W O. assert (X : forall y z, Forall (fun x => snd x = 1) (y ++ z : Spec_Regex.text) -> width y = Z.of_nat (length y)).
  { clear. induction y as [|[a b] y IH]; intros z O; [reflexivity|]. inversion O as [|? ? O1 O2]; subst. cbn [snd] in O1. subst b. change ((a, 1) :: y) with ([(a, 1)] ++ y). rewrite width_app, app_length, (IH z O2). change (width [(a, 1)]) with 1%Z. change (length [(a, 1)]) with 1. lia. }
  pose proof (X u1 w1 O) as X1. rewrite E in O. pose proof (X u w O) as X2. rewrite X1, X2 in W. assert (length u1 = length u) as Le by (clear - W; lia). clear - E Le.
  revert u E Le. induction u1 as [|x u1 IH]; intros [|y u] E Le; try discriminate Le; [reflexivity|]. cbn in E, Le. injection E as -> E. f_equal. apply IH; [exact E|lia].
Qed.
Section Release.
Variable items : list item.
Hypothesis FF : fixed_first items = true.
Variables (A V B : bytes) (sep : byte).
Notation ua := ((A ++ [sep]) ++ V ++ B).
Hypothesis HS : is_s (bn sep) = false.
Hypothesis RV : srun (map chr V).
Hypothesis CV : closed (map chr V).
Hypothesis DV : exists d r, V = d :: r /\ is_d (bn d) = true.
Hypothesis HB : sstops (map chr B).
Hypothesis HG : gen items (map chr ua).
Lemma cap_from Q neg rs M S k p t : (forall u w, map chr ua = u ++ w -> p = width u -> exists i, has M i /\ here items i u w) -> best (Cat (Cat Q (Cls neg rs)) (Grp 1 re_sys)) (map chr ua) p t -> ends_off Q = true -> empty_ok Q = false ->
  (forall x, cls_mem neg rs x = true -> is_s x = true -> is_d x = false) ->
  go (fam_of items) (Cat Q (Cls neg rs)) M = S ->
  (forall j, has S j -> j = k \/ exists cs b is, skipn j items = (cs, b) :: is /\ forall x, In x cs -> is_d x = false) ->
  (forall pre x, gen (skipn k items) x -> map chr ua = pre ++ x -> exists v, x = v ++ map chr B /\ srun v) ->
  group_of 1 p t = at_release A V sep.
Proof.
  intros PL Bt EO EM CS K SK Sk. apply best_top in Bt as (u & v & w & E & Ep & Tp). apply top_cat in Tp as (tq & tt & vq & vt & -> & -> & Pq & Tp).
  pose proof (parses_size _ _ _ _ _ Pq) as Sq. rewrite <- (app_assoc vq vt w) in E. pose proof (chr_ones ua) as O. rewrite E in O.
  destruct (proper_ones _ _ _ eq_refl O) as (Pu & O1 & Ou). destruct (proper_ones _ _ _ eq_refl O1) as (Pvq & O2 & Ovq).
  assert (Lq : lang (Cat Q (Cls neg rs)) u vq (vt ++ w)) by (apply (parses_lang _ _ _ _ _ Pq u Pu Pvq Ep)).
  destruct (PL u (vq ++ vt ++ w) E Ep) as (i & Hi & Bi).
  destruct (go_ok items FF _ u vq (vt ++ w) Lq _ i Hi Bi) as (j & Hj & (_ & _ & Gj)). rewrite K in Hj.
  apply top_grp in Tp as (t1 & -> & Tp). destruct (sys_run _ _ _ _ (proj1 Tp)) as (Rt & x & wd & v' & Ev & Dx).
  destruct (SK j Hj) as [->|(cs & b & is & Es & Nd)].
  2: { exfalso. rewrite Es, Ev in Gj. inversion Gj as [|? ? ? ? ? Ix _|? ? ? ? Ix _]; subst; rewrite (Nd _ Ix) in Dx; discriminate Dx. }
  destruct (Sk (u ++ vq) _ Gj) as (V' & E' & R'); [rewrite E, <- app_assoc; reflexivity|].
  assert (X : exists y c z, vq = (y ++ [c]) ++ [z] /\ is_s (fst c) = false /\ cls_mem neg rs (fst z) = true).
  { inversion Lq as [| | | |? ? ? vq1 vq2 ? L1 L2| | | | |]; subst. inversion L2; subst. destruct (ends_off_ok Q _ _ _ L1 EO) as [->|(y & c & -> & Cc)].
    - exfalso. pose proof (empty_ok_ok _ _ _ _ L1 eq_refl) as X. rewrite EM in X. discriminate X.
    - exists y, c, (x0, wd0). auto. }
  destruct X as (y & c & z & -> & Cc & Cz).
  assert (Q1 : (((u ++ y) ++ c :: z :: V') ++ map chr B = (map chr A ++ chr sep :: map chr V) ++ map chr B)).
  { transitivity (map chr ua).
    - rewrite E, E', <- !app_assoc. reflexivity.
    - rewrite !map_app, <- !app_assoc. reflexivity. }
  apply app_inv_tail in Q1.
  assert (X : V' = map chr V /\ (u ++ y ++ [c]) ++ [z] = map chr A ++ [chr sep]).
  { destruct (is_s (fst z)) eqn:Sz.
    - exfalso. apply last_srun in Q1 as [Q1 _]; [|exact Cc|exact HS|constructor; [exact Sz|exact R']|exact RV]. destruct DV as (d & r & -> & Dd). injection Q1 as -> _.
      cbn [fst chr] in Cz, Sz. rewrite (CS _ Cz Sz) in Dd. discriminate Dd.
    - change (c :: z :: V') with ([c] ++ z :: V') in Q1. rewrite app_assoc in Q1. apply last_srun in Q1 as [Q1 Q2]; [|exact Sz|exact HS|exact R'|exact RV].
      split; [exact Q1|]. rewrite <- Q2, <- !app_assoc. reflexivity. }
  destruct X as [-> Q2].
  pose proof (sys_top _ _ _ _ (map chr V) (map chr B) Tp E' RV CV HB) as Evt.
  pose proof (parses_size _ _ _ _ _ (proj1 Tp)) as St. rewrite Evt, chr_width in St.
  assert (W : (p + size tq)%Z = Z.of_nat (length (A ++ [sep]))).
  { rewrite <- Sq, Ep, <- width_app. rewrite !app_assoc. rewrite !app_assoc in Q2. rewrite Q2. change [chr sep] with (map chr [sep]). rewrite <- map_app, chr_width. reflexivity. }
  cbn [group_of Nat.eqb]. unfold at_release. rewrite W. f_equal. f_equal. lia.
Qed.
Lemma cap_system Q neg rs S k p t : best (Cat (Cat Q (Cls neg rs)) (Grp 1 re_sys)) (map chr ua) p t -> ends_off Q = true -> empty_ok Q = false ->
  (forall x, cls_mem neg rs x = true -> is_s x = true -> is_d x = false) ->
  go (fam_of items) (Cat Q (Cls neg rs)) (f_whole (fam_of items)) = S ->
  (forall j, has S j -> j = k \/ exists cs b is, skipn j items = (cs, b) :: is /\ forall x, In x cs -> is_d x = false) ->
  (forall pre x, gen (skipn k items) x -> map chr ua = pre ++ x -> exists v, x = v ++ map chr B /\ srun v) ->
  group_of 1 p t = at_release A V sep.
Proof. apply cap_from. intros u w E _. apply place_any; [exact FF|]. rewrite <- E. exact HG. Qed.
(** Only the matches that start early count when there is one that starts early. *)
Lemma cap_early n Q neg rs S k p t u0 v0 w0 : map chr ua = u0 ++ v0 ++ w0 -> length u0 <= n -> lang (Cat (Cat Q (Cls neg rs)) (Grp 1 re_sys)) u0 v0 w0 ->
  forallb (fun it => negb (snd it)) (firstn n items) = true -> n <= length items ->
  best (Cat (Cat Q (Cls neg rs)) (Grp 1 re_sys)) (map chr ua) p t -> ends_off Q = true -> empty_ok Q = false ->
  (forall x, cls_mem neg rs x = true -> is_s x = true -> is_d x = false) ->
  go (fam_of items) (Cat Q (Cls neg rs)) (full n) = S ->
  (forall j, has S j -> j = k \/ exists cs b is, skipn j items = (cs, b) :: is /\ forall x, In x cs -> is_d x = false) ->
  (forall pre x, gen (skipn k items) x -> map chr ua = pre ++ x -> exists v, x = v ++ map chr B /\ srun v) ->
  group_of 1 p t = at_release A V sep.
Proof.
  intros E0 L0 H0 FX Ln Bt. refine (cap_from Q neg rs (full n) S k p t _ Bt). intros u w E Ep.
  assert (Lu : length u <= n).
  { destruct Bt as (u1 & v1 & w1 & E1 & Ep1 & _ & LM & _). destruct (Nat.le_gt_cases (length u) n) as [X|X]; [exact X|exfalso].
    assert (u1 = u) as ->.
    { pose proof (chr_ones ua) as O. apply (prefix_width u1 (v1 ++ w1) u w); [congruence|congruence|rewrite <- E1; exact O]. }
    apply lang_parses in H0 as [t0 P0]. refine (LM u0 t0 v0 w0 E0 _ P0). clear - L0 X. lia. }
  exists (length u). split; [apply full_has; exact Lu|]. split; [clear - Lu Ln; lia|]. split; [destruct u; cbn; split; (reflexivity || discriminate)|].
  assert (G0 : gen items (u ++ w)) by (rewrite <- E; exact HG). clear - FX Lu G0. revert n FX Lu w G0. generalize items as its. induction u as [|x u IH]; intros its n FX Lu w G0; [exact G0|].
  destruct n as [|n]; [inversion Lu|]. destruct its as [|[cs q] its]; [inversion G0|]. cbn [firstn forallb snd] in FX. apply andb_prop in FX as [F1 F2]. destruct q; [discriminate F1|].
  cbn [length skipn]. apply (IH its n F2); [cbn in Lu; lia|]. cbn [app] in G0. inversion G0; subst. assumption.
Qed.
End Release.

(** ** The families *)
Definition iphone_start : bytes := bs "Mozilla/5.0 (iPhone; CPU iPhone OS ".
Definition iphone_tail : bytes := bs " like Mac OS X) AppleWebKit/605.1.15 (KHTML, like Gecko) Version".
Definition iphone_back : bytes := bs " Mobile/15E148 Safari/604.1".
Definition iphone_items (rel : list item) : list item :=
  lit_items iphone_start ++ rel ++ lit_items iphone_tail ++ lit_items [x2f] ++ ver_items ++ lit_items iphone_back.
Definition majors : list (list item) :=
  [[(digs, false)]; [([49], false); ([48; 50; 51; 52; 53; 54; 55; 56; 49], false)]; [([48; 50; 51; 52; 53; 54; 55; 56; 57], false); (digs, false)]]%N.
Definition minors : list (list item) := [[]; [([95], false); (95 :: digs, true)]]%N.
Definition ios_families : list (list item) := flat_map (fun m => map (fun n => m ++ n) minors) majors.
Definition iphone_clients : list (list item * N) := map (fun r => (iphone_items r, 572%N)) ios_families.
Definition iphone_systems : list (list item * N) := map (fun r => (iphone_items r, 255%N)) ios_families.
Definition any_plus : re := Cat (Cls true [(10, 10)]%N) (Star true (Cls true [(10, 10)]%N)).
Definition iphone_q : re :=
  Alt (fold_left (fun a c => Cat a (Cls false c)) (low (bs "version")) (Cat (Alt (word_q (bs "ipod")) (Alt (word_q (bs "ipad")) (word_q (bs "iphone")))) any_plus)) (word_q (bs "mobilesafari")).
Definition safari_re : re := Cat start_re (Cat (Cat iphone_q (Cls false slash)) (Grp 1 re_body)).
Definition ios_sep : list (N * N) := [(32, 32); (95, 95); (47, 47)]%N.
Definition ios_q : re := match parse_re (bs "(?i)(?:CPU OS|iPh(?:one)?[ _]OS|iPhone.+ OS|PodMN.+iPhone|iOS)") with Some (a, _) => a | None => Eps end.
Definition ios_re : re := Cat (Cat ios_q (Cls false ios_sep)) (Grp 1 re_sys).
Lemma safari_entry : entry_ok shipped 572 safari_re (bs "Mobile Safari") = true.
Proof. vm_compute. reflexivity. Qed.
Lemma ios_group : system_group shipped 255 ios_re 0 = true.
Proof. vm_compute. reflexivity. Qed.
Lemma ios_found : forallb (fun d => system_entry shipped 255 (iphone_start ++ [d]) (bs "iOS") None) digit_bytes = true.
Proof. vm_compute. reflexivity. Qed.
Lemma iphone_clients_missed : clients_miss shipped iphone_clients = true.
Proof. vm_cast_no_check (eq_refl true). Qed.
Lemma iphone_systems_missed : systems_miss shipped iphone_systems = true.
Proof. vm_cast_no_check (eq_refl true). Qed.
Lemma iphone_fine : forallb (fun r => fam_fine (Cat iphone_q (Cls false slash)) (fun l => length l - (2 + length iphone_back)) (iphone_items r) &&
  (go (fam_of (iphone_items r)) (Cat ios_q (Cls false ios_sep)) (f_whole (fam_of (iphone_items r))) =? N.lor (only 35) (only (35 + (length r + 13))))%N) ios_families = true.
Proof. vm_compute. reflexivity. Qed.
Lemma ios_ends : ends_off ios_q = true /\ empty_ok ios_q = false.
Proof. split; vm_compute; reflexivity. Qed.

(** ** The release *)
Lemma dotted_map s out : dotted s out -> out = map (fun b => if Byte.eqb b x5f then x2e else b) s.
Proof.
  revert out. induction s as [|b s IH]; intros [|c out] [L H]; try discriminate L; [reflexivity|]. cbn [map]. destruct (H 0 b eq_refl) as [H1 H2].
  f_equal; [|apply IH; split; [cbn in L; lia|]; intros i d E; exact (H (S i) d E)].
  destruct (Byte.eqb b x5f) eqn:E.
  - apply Byte.byte_dec_bl in E. specialize (H1 E). injection H1 as ->. reflexivity.
  - assert (b <> x5f) as X by (intros ->; discriminate E). specialize (H2 X). injection H2 as ->. reflexivity.
Qed.
Lemma numeral_map n : Forall digit n -> map (fun b => if Byte.eqb b x5f then x2e else b) n = n.
Proof.
  induction 1 as [|b n D _ IH]; [reflexivity|]. cbn [map]. rewrite IH. destruct (Byte.eqb b x5f) eqn:E; [|reflexivity].
  apply Byte.byte_dec_bl in E as ->. exfalso. destruct D as [_ D]. vm_compute in D. apply D. reflexivity.
Qed.
Lemma joined_map ns : Forall numeral ns -> map (fun b => if Byte.eqb b x5f then x2e else b) (joined x5f ns) = joined x2e ns.
Proof.
  intros F. destruct ns as [|n r]; [reflexivity|]. inversion F as [|? ? [_ Fn] Fr]; subst. cbn [joined]. rewrite map_app, (numeral_map n Fn). f_equal. clear - Fr.
  induction Fr as [|m r [_ Fm] _ IH]; [reflexivity|]. cbn [flat_map app map]. rewrite map_app, (numeral_map m Fm), IH. reflexivity.
Qed.
Section Version.
Variable T : tables.
Hypothesis CO : compiled (or_re T).
Hypothesis S2 : os_sane T.
Variables (ua V : bytes) (k : nat) (x : osTuple) (pat : re) (n : nat) (mC mD : N).
Hypothesis Nx : nth_error (or_os T) k = Some x.
Hypothesis OI : os_is T ua x.
Hypothesis SG : system_group T k pat n = true.
Hypothesis HA : ascii ua.
Hypothesis CAP : forall p t, best pat (map chr ua) p t -> (forall s, captured (groups (S n) p t) 1 ua s -> s = V) /\ ~ absent (groups (S n) p t) 1.
Hypothesis Sm : Spec_Select.small ua.
Hypothesis NP : forall h, alone T mC mD h ua GOSVersionString <> Panic.
Lemma group_dotted h : exists s, alone T mC mD h ua GOSVersionString = Ok (VB s) /\ dotted V s.
Proof.
  destruct (text_value T mC mD h ua GOSVersionString ltac:(cbn; auto 10) (NP h)) as [s Hs]. exists s. split; [exact Hs|].
  destruct (proj2 (proj2 (os_reports T mC mD h ua S2 Sm) s Hs) x OI) as (f & Vf & D).
  unfold system_group in SG. rewrite Nx in SG. destruct (nth_error (or_re T) (Z.to_nat (ot_matchRI x))) as [r|] eqn:Nr; [|rewrite Bool.andb_false_r in SG; discriminate SG].
  destruct (parse_re (re_src r)) as [[a ng]|] eqn:P; [|rewrite Bool.andb_false_r in SG; discriminate SG].
  apply andb_prop in SG as [H H4]. apply andb_prop in H as [H H3]. apply andb_prop in H as [H H2]. apply andb_prop in H as [H0 H1]. apply andb_prop in H4 as [H4 H5].
  apply re_eqb_eq in H4 as ->. apply Nat.eqb_eq in H5 as ->. apply N.eqb_eq in H1, H2. apply Z.eqb_eq in H3.
  assert (f = V) as ->; [|exact D].
  destruct Vf as [s' Vn _|_ L|m s' _ (_ & r' & Nr' & F) _ Eg|m v s' _ _ Vn|m v mv s' _ _ Vn|m v mv s' _ _ Vn]; try (exfalso; auto; fail).
  - exfalso. clear - H0 L. lia.
  - rewrite Nr in Nr'. injection Nr' as <-. rewrite (CO r (nth_error_In _ _ Nr)) in F. apply (compile_best (re_src r) pat (S n) ua m P) in F as (p & t & Bt & ->).
    rewrite (runes_ascii_all ua HA) in Bt. destruct (CAP p t Bt) as [C1 C2]. unfold entry_group in Eg. rewrite H3 in Eg. destruct Eg as [[_ Eg]|[[Eg|Eg] _]].
    + exact (C1 _ Eg).
    + discriminate Eg.
    + contradiction.
Qed.
End Version.

Lemma digits_srun n : Forall digit n -> srun (map chr n).
Proof. intros F. apply Forall_map. eapply Forall_impl; [|exact F]. intros b D. apply d_s. exact (digit_d b D). Qed.
Lemma closed_app n V : Forall digit n -> closed V -> closed (map chr n ++ V).
Proof.
  intros F C. induction F as [|b n D _ IH]; [exact C|]. intros a s y E Ns. destruct a as [|c a]; cbn [map app] in E; injection E as E1 E2.
  - subst s. cbn [fst chr] in Ns. rewrite (digit_d b D : is_d (bn b) = true) in Ns. discriminate Ns.
  - exact (IH a s y E2 Ns).
Qed.
Lemma closed_sep n V : numeral n -> closed V -> closed (map chr (x5f :: n) ++ V).
Proof.
  intros [Nn F] C a s y E Ns. destruct a as [|c a]; cbn [map app] in E; injection E as E1 E2.
  - destruct n as [|d n]; [contradiction (Nn eq_refl)|]. inversion F; subst. cbn [map app]. eexists. eexists. split; [reflexivity|]. apply digit_d. assumption.
  - exact (closed_app n V F C a s y E2 Ns).
Qed.
Lemma closed_nil : closed []. Proof. intros [|? ?] s b E; discriminate E. Qed.
Lemma rest_facts r : Forall numeral r -> srun (map chr (flat_map (fun m => x5f :: m) r)) /\ closed (map chr (flat_map (fun m => x5f :: m) r)).
Proof.
  induction 1 as [|n r [Nn F] Fr [IH1 IH2]]; [split; [constructor|exact closed_nil]|]. cbn [flat_map]. rewrite map_app. split.
  - apply Forall_app. split; [|exact IH1]. constructor; [reflexivity|]. exact (digits_srun n F).
  - apply closed_sep; [split; assumption|exact IH2].
Qed.
Lemma rest_gen r : Forall numeral r -> exists mi, In mi minors /\ forall is w, gen is w -> gen (mi ++ is) (map chr (flat_map (fun m => x5f :: m) r) ++ w).
Proof.
  intros F. destruct F as [|n r [Nn Fn] Fr].
  - exists []. split; [left; reflexivity|]. auto.
  - eexists. split; [right; left; reflexivity|]. intros is w G. cbn [flat_map]. destruct n as [|d n]; [contradiction (Nn eq_refl)|].
    change (gen ([([95%N], false); (95%N :: digs, true)] ++ is) (chr x5f :: map chr ((d :: n) ++ flat_map (fun m => x5f :: m) r) ++ w)). constructor; [left; reflexivity|].
    assert (S : srun (map chr ((d :: n) ++ flat_map (fun m => x5f :: m) r))).
    { rewrite map_app. apply Forall_app. split; [exact (digits_srun _ Fn)|exact (proj1 (rest_facts r Fr))]. }
    assert (X : forall y, (forall b, In b y -> digit b \/ b = x5f) -> y <> [] -> gen ((95%N :: digs, true) :: is) (map chr y ++ w)).
    { clear - G. intros y Hy Ny. induction y as [|b y IH]; [contradiction (Ny eq_refl)|].
      assert (Ib : In (bn b) (95%N :: digs)) by (destruct (Hy b (or_introl eq_refl)) as [D| ->]; [right; apply digs_in; exact (digit_d b D)|left; reflexivity]).
      destruct y as [|c y]; [constructor; assumption|]. apply G_more; [exact Ib|]. apply IH; [|discriminate]. intros z Iz. apply Hy. right. exact Iz. }
    apply (X ((d :: n) ++ flat_map (fun m => x5f :: m) r)); [|discriminate]. intros b Ib. apply in_app_iff in Ib as [Ib|Ib]; [left; rewrite Forall_forall in Fn; auto|].
    apply in_flat_map in Ib as (m & Im & [<-|Ib]); [auto|]. rewrite Forall_forall in Fr. destruct (Fr m Im) as [_ Fm]. rewrite Forall_forall in Fm. auto.
Qed.
Definition major_ok (n : bytes) : bool := beqs n (bs "19") ||
  existsb (fun m => (length m =? length n) && forallb (fun p => existsb (N.eqb (bn (fst p))) (fst (snd p)) && negb (snd (snd p))) (combine n m)) majors.
Lemma majors_ok : forallb (fun d => major_ok [d] && forallb (fun e => major_ok [d; e]) digit_bytes) digit_bytes = true.
Proof. vm_compute. reflexivity. Qed.
Lemma combine_gen n : forall m is w, (length m =? length n) = true -> forallb (fun p => existsb (N.eqb (bn (fst p))) (fst (snd p)) && negb (snd (snd p))) (combine n m) = true ->
  gen is w -> gen (m ++ is) (map chr n ++ w).
Proof.
  induction n as [|b n IH]; intros [|[cs q] m] is w L F G; try discriminate L; [exact G|]. cbn [combine forallb fst snd] in F. apply andb_prop in F as [F1 F2]. apply andb_prop in F1 as [F1 F3].
  cbn [map app]. destruct q; [discriminate F3|]. apply existsb_exists in F1 as (x & Ix & E). apply N.eqb_eq in E. rewrite <- E in Ix. constructor; [exact Ix|]. apply IH; assumption.
Qed.
Lemma major_gen n : numeral n -> length n <= 2 -> n <> bs "19" -> exists m, In m majors /\ forall is w, gen is w -> gen (m ++ is) (map chr n ++ w).
Proof.
  intros [Nn F] L N9. assert (M : major_ok n = true).
  { pose proof majors_ok as M. rewrite forallb_forall in M. destruct n as [|d [|e [|f n]]]; [contradiction (Nn eq_refl)| | |cbn in L; lia].
    - inversion F; subst. specialize (M d (digit_byte d H1)). apply andb_prop in M as [M _]. exact M.
    - inversion F as [|? ? D1 F']; subst. inversion F' as [|? ? D2 _]; subst. specialize (M d (digit_byte d D1)). apply andb_prop in M as [_ M]. rewrite forallb_forall in M. exact (M e (digit_byte e D2)). }
  apply Bool.orb_true_iff in M as [M|M]; [apply beqs_eq in M; contradiction|]. apply existsb_exists in M as (m & Im & M). apply andb_prop in M as [M1 M2].
  exists m. split; [exact Im|]. intros is w G. exact (combine_gen n m is w M1 M2 G).
Qed.
(** Whatever the items of a release stand for consists of digits and underscores. *)
Lemma rel_inv rel : forallb (fun it => forallb is_s (fst it)) rel = true -> forall is x, gen (rel ++ is) x -> exists v w, x = v ++ w /\ srun v /\ gen is w.
Proof.
  intros F is x G. remember (rel ++ is) as l eqn:El. revert rel F El. induction G as [|cs q is' y s I G IH|cs is' y s I G IH]; intros rel F El.
  - destruct rel; [|discriminate El]. cbn in El. subst is. exists [], []. split; [reflexivity|]. split; constructor.
  - destruct rel as [|[cs' q'] rel].
    + cbn [app] in El. exists [], ((y, 1) :: s). split; [reflexivity|]. split; [constructor|]. rewrite <- El. constructor; assumption.
    + cbn [app] in El. injection El as -> -> ->. cbn [forallb fst] in F. apply andb_prop in F as [F1 F2]. destruct (IH rel F2 eq_refl) as (v & w & -> & R & G').
      exists ((y, 1) :: v), w. split; [reflexivity|]. split; [|exact G']. constructor; [|exact R]. rewrite forallb_forall in F1. exact (F1 y I).
  - destruct rel as [|[cs' q'] rel].
    + cbn [app] in El. exists [], ((y, 1) :: s). split; [reflexivity|]. split; [constructor|]. rewrite <- El. apply G_more; assumption.
    + cbn [app] in El. injection El as E1 E2 E3. subst cs' q' is'. pose proof F as F0. cbn [forallb fst] in F. apply andb_prop in F as [F1 F2].
      destruct (IH ((cs, true) :: rel) F0 eq_refl) as (v & w & -> & R & G').
      exists ((y, 1) :: v), w. split; [reflexivity|]. split; [|exact G']. constructor; [|exact R]. rewrite forallb_forall in F1. exact (F1 y I).
Qed.
Lemma families_s : forallb (fun rel => forallb (fun it => forallb is_s (fst it)) rel) ios_families = true.
Proof. vm_compute. reflexivity. Qed.
Lemma ios_facts ns : ios_release ns -> srun (map chr (joined x5f ns)) /\ closed (map chr (joined x5f ns)) /\ (exists d r, joined x5f ns = d :: r /\ digit d) /\ Forall numeral ns /\
  exists rel, In rel ios_families /\ (forall is w, gen is w -> gen (rel ++ is) (map chr (joined x5f ns) ++ w)) /\
    forall is x, gen (rel ++ is) x -> exists v w, x = v ++ w /\ srun v /\ gen is w.
Proof.
  intros (n & r & -> & Hn & L & N9 & Hr). destruct (rest_facts r Hr) as [R1 R2]. destruct (major_gen n Hn L N9) as (m & Im & Gm). destruct (rest_gen r Hr) as (mi & Imi & Gmi).
  cbn [joined]. rewrite map_app. split; [apply Forall_app; split; [exact (digits_srun n (proj2 Hn))|exact R1]|]. split; [exact (closed_app n _ (proj2 Hn) R2)|]. split.
  { destruct Hn as [Nn Fn]. destruct n as [|d n]; [contradiction (Nn eq_refl)|]. inversion Fn; subst. exists d. eexists. split; [reflexivity|assumption]. }
  split; [constructor; assumption|]. exists (m ++ mi).
  assert (I : In (m ++ mi) ios_families) by (apply in_flat_map; exists m; split; [exact Im|]; exact (in_map (fun n => m ++ n) minors mi Imi)).
  split; [exact I|]. split.
  - intros is w G. rewrite <- !app_assoc. apply Gm. apply Gmi. exact G.
  - apply rel_inv. pose proof families_s as F. rewrite forallb_forall in F. exact (F _ I).
Qed.

Definition iphone_front (a : bytes) : bytes := iphone_start ++ a ++ iphone_tail.
Lemma iphone_sep a v : iphone_safari a v = sep_ua (iphone_front a) v iphone_back.
Proof. unfold iphone_safari, sep_ua, iphone_front, iphone_tail, iphone_start. rewrite <- !app_assoc. reflexivity. Qed.
Definition iphone_words : bytes := bs "Mozilla/5.0 (iPhone; CPU iPhone OS".
Lemma iphone_rel a v : iphone_safari a v = (iphone_words ++ [x20]) ++ a ++ (iphone_tail ++ x2f :: v ++ iphone_back).
Proof. unfold iphone_safari, iphone_tail, iphone_words. rewrite <- !app_assoc. reflexivity. Qed.
Lemma iphone_gen rel a v : (forall is w, gen is w -> gen (rel ++ is) (map chr a ++ w)) -> version_number v -> gen (iphone_items rel) (map chr (iphone_safari a v)).
Proof.
  intros Hr Hv. unfold iphone_items. rewrite iphone_rel. change (iphone_words ++ [x20]) with iphone_start.
  rewrite map_app. apply gen_lit. rewrite map_app. apply Hr. rewrite map_app. apply gen_lit. change (map chr (x2f :: v ++ iphone_back)) with (map chr [x2f] ++ map chr (v ++ iphone_back)). apply gen_lit. rewrite (map_app chr v iphone_back). apply gen_ver; [exact Hv|].
  rewrite <- (app_nil_r (lit_items _)), <- (app_nil_r (map chr _)). apply gen_lit. constructor.
Qed.
Lemma iphone_skip rel : skipn (length (iphone_items rel) - (2 + length iphone_back)) (iphone_items rel) = ver_items ++ lit_items iphone_back.
Proof.
  unfold iphone_items. rewrite !app_assoc. rewrite <- (app_assoc _ ver_items). apply skip_exact. rewrite !app_length, !lit_length. change (length [x2f]) with 1. change (length ver_items) with 2. lia.
Qed.
Lemma any_lang b s u w : Forall (fun b => bn b <> 10%N) (b :: s) -> lang any_plus u (map chr (b :: s)) w.
Proof.
  intros F. assert (C : forall c, bn c <> 10%N -> cls_mem true [(10, 10)]%N (bn c) = true).
  { intros c H. unfold cls_mem. cbn [existsb fst snd]. destruct (in_rng 10 10 (bn c)) eqn:E; [|reflexivity]. unfold in_rng in E. lia. }
  inversion F as [|? ? F1 F2]; subst. apply (L_cat _ _ u [chr b] (map chr s) w); [constructor; exact (C b F1)|]. apply star_lang. apply Forall_map. eapply Forall_impl; [|exact F2]. intros c. apply C.
Qed.
Lemma safari_lang M V a w : Forall (fun b => bn b <> 10%N) M -> version_number V ->
  lang safari_re a (chr x28 :: (((map chr (bs "iPhone") ++ map chr (x3b :: M)) ++ map chr (bs "Version")) ++ map chr [x2f]) ++ map chr V) w.
Proof.
  intros F Hv. apply (L_cat _ _ a [chr x28] ((((map chr (bs "iPhone") ++ map chr (x3b :: M)) ++ map chr (bs "Version")) ++ map chr [x2f]) ++ map chr V) w).
  - assert (E : exists c r, start_re = Alt Bol (Alt (Cls true c) r) /\ cls_mem true c 40 = true) by (eexists; eexists; split; [vm_compute; reflexivity|reflexivity]).
    destruct E as (c & r & -> & C). apply L_right, L_left. constructor. exact C.
  - apply L_cat; [|constructor; apply version_body; exact Hv]. apply L_cat; [|constructor; reflexivity]. apply L_left.
    apply chain_from; [|repeat constructor]. intros w'. apply L_cat; [|apply any_lang; constructor; [discriminate|exact F]].
    apply L_right. apply L_right. apply chain_lang; [reflexivity|repeat constructor].
Qed.

Lemma ios_class x : cls_mem false ios_sep x = true -> is_s x = true -> is_d x = false.
Proof.
  intros C S. unfold cls_mem, ios_sep in C. cbn [existsb fst snd] in C.
  destruct (in_rng 32 32 x) eqn:E1; [unfold in_rng in E1; assert (x = 32%N) as -> by lia; reflexivity|].
  destruct (in_rng 95 95 x) eqn:E2; [unfold in_rng in E2; assert (x = 95%N) as -> by lia; reflexivity|].
  destruct (in_rng 47 47 x) eqn:E3; [unfold in_rng in E3; assert (x = 47%N) as -> by lia; reflexivity|discriminate C].
Qed.
Lemma slash_class x : cls_mem false slash x = true -> is_e x = false.
Proof.
  intros C. assert (x = 47%N) as ->; [|reflexivity]. unfold cls_mem, slash in C. cbn [existsb fst snd] in C. destruct (in_rng 47 47 x) eqn:E; [|discriminate C]. unfold in_rng in E. lia.
Qed.
Lemma iphone_next rel : exists is, skipn (35 + (length rel + 13)) (iphone_items rel) = ([88%N], false) :: is.
Proof.
  unfold iphone_items. change 35 with (length (lit_items iphone_start)). rewrite skipn_app. rewrite (skipn_all2 (lit_items iphone_start)) by lia. cbn [app].
  replace (length (lit_items iphone_start) + (length rel + 13) - length (lit_items iphone_start)) with (length rel + 13) by lia.
  rewrite skipn_app. rewrite (skipn_all2 rel) by lia. cbn [app]. replace (length rel + 13 - length rel) with 13 by lia. eexists. reflexivity.
Qed.
Section Answers.
Variables (ns : list bytes) (v : bytes) (mC mD : N).
Notation a := (joined x5f ns).
Hypothesis Ha : ios_release ns.
Hypothesis Hv : version_number v.
Hypothesis L : short (iphone_safari a v).
Hypothesis O : on mC 1.
Lemma iphone_answers : (forall h, alone shipped mC mD h (iphone_safari a v) GClientType = Ok (VN 1)) /\ alone shipped mC mD 0 (iphone_safari a v) GBrowser = Ok (VB (bs "Mobile Safari")) /\
  (forall h, alone shipped mC mD h (iphone_safari a v) GBrowserVersionString = Ok (VB v)) /\ (forall h, alone shipped mC mD h (iphone_safari a v) GOS = Ok (VB (bs "iOS"))) /\
  forall h, alone shipped mC mD h (iphone_safari a v) GOSVersionString = Ok (VB (joined x2e ns)).
Proof.
  destruct (ios_facts ns Ha) as (Ra & Ca & (d & r & Ed & Dd) & Fn & rel & Ir & Gr & Ginv).
  pose proof iphone_fine as PF. rewrite forallb_forall in PF. specialize (PF rel Ir). apply andb_prop in PF as [PF PG]. apply N.eqb_eq in PG.
  apply fam_fine_inv in PF as (FF & FA & FG). pose proof (iphone_gen rel a v Gr Hv) as G. pose proof (FA _ G) as HA.
  assert (I1 : In (iphone_items rel, N.of_nat 572) iphone_clients) by (exact (in_map (fun r => (iphone_items r, 572%N)) ios_families rel Ir)).
  assert (I2 : In (iphone_items rel, N.of_nat 255) iphone_systems) by (exact (in_map (fun r => (iphone_items r, 255%N)) ios_families rel Ir)).
  pose proof ios_found as AF. rewrite forallb_forall in AF. specialize (AF d (digit_byte d Dd)).
  set (rest := r ++ iphone_tail ++ x2f :: v ++ iphone_back).
  assert (HU : iphone_safari a v = (iphone_start ++ [d]) ++ rest) by (unfold rest, iphone_safari, iphone_tail, iphone_start; rewrite Ed; rewrite <- !app_assoc; reflexivity).
  assert (D : (forall h, alone shipped mC mD h (iphone_safari a v) GClientType = Ok (VN 1)) /\ alone shipped mC mD 0 (iphone_safari a v) GBrowser = Ok (VB (bs "Mobile Safari")) /\
    (forall h, alone shipped mC mD h (iphone_safari a v) GBrowserVersionString = Ok (VB v)) /\ (forall h, alone shipped mC mD h (iphone_safari a v) GOS = Ok (VB (bs "iOS"))) /\
    forall h g, alone shipped mC mD h (iphone_safari a v) g <> Panic).
  { pose proof L as L'. pose proof HA as HA'. pose proof G as G'. pose proof HU as HU'. rewrite iphone_sep in *.
    destruct (desktop_answers shipped cr_compiled or_compiled shipped_client_sane shipped_os_sane shipped_no_skip iphone_clients iphone_systems iphone_clients_missed iphone_systems_missed shipped_never_panics
      (iphone_items rel) (iphone_front a) v iphone_back (iphone_start ++ [d]) rest 572 255 safari_re (bs "Mobile Safari") (bs "iOS") None mC mD
      Hv HU' L' O I1 I2 FF HA' G' safari_entry AF) as (D1 & D2 & D3 & D4 & _ & x & _ & _ & _ & D5).
    - set (M := bs " CPU iPhone OS " ++ a ++ bs " like Mac OS X) AppleWebKit/605.1.15 (KHTML, like Gecko) ").
      exists (map chr (bs "Mozilla/5.0 ")), (chr x28 :: (((map chr (bs "iPhone") ++ map chr (x3b :: M)) ++ map chr (bs "Version")) ++ map chr [x2f]) ++ map chr v), (map chr iphone_back).
      split; [|apply safari_lang; [|exact Hv]].
      + transitivity (map chr (bs "Mozilla/5.0 " ++ ([x28] ++ ((((bs "iPhone" ++ (x3b :: M)) ++ bs "Version") ++ [x2f]) ++ v)) ++ iphone_back)).
        * f_equal. unfold sep_ua, iphone_front, iphone_tail, iphone_start, M. change (x3b :: bs " CPU iPhone OS " ++ a ++ bs " like Mac OS X) AppleWebKit/605.1.15 (KHTML, like Gecko) ") with
            (bs "; CPU iPhone OS " ++ a ++ bs " like Mac OS X) AppleWebKit/605.1.15 (KHTML, like Gecko) "). rewrite <- !app_assoc. reflexivity.
        * rewrite !map_app. reflexivity.
      + unfold M. apply Forall_app. split; [repeat constructor; discriminate|]. apply Forall_app. split; [|repeat constructor; discriminate].
        clear - Ra. apply Forall_forall. intros b Ib E. unfold srun in Ra. rewrite Forall_forall in Ra. specialize (Ra (chr b) (in_map chr _ _ Ib)). cbn [fst chr] in Ra. rewrite E in Ra. discriminate Ra.
    - intros p t Bt. refine (cap_plain (iphone_items rel) FF (iphone_front a) v iphone_back Hv _ G' iphone_q slash _ p t Bt slash_class FG (iphone_skip rel)). reflexivity.
    - auto. }
  destruct D as (D1 & D2 & D3 & D4 & D5). split; [exact D1|]. split; [exact D2|]. split; [exact D3|]. split; [exact D4|]. intros h.
  assert (OI : exists x, nth_error (or_os shipped) 255 = Some x /\ os_is shipped (iphone_safari a v) x).
  { revert HA G D5. rewrite HU. intros HA' G' D5'.
    refine (system_first shipped or_compiled shipped_no_skip iphone_systems iphone_systems_missed (iphone_items rel) 255 (iphone_start ++ [d]) rest (bs "iOS") None mC mD I2 FF HA' _ AF (fun h g _ => D5' h g)).
    rewrite (runes_ascii_all _ HA'). exact G'. }
  destruct OI as (x & Nx & OI).
  assert (GD : exists s, alone shipped mC mD h (iphone_safari a v) GOSVersionString = Ok (VB s) /\ dotted a s).
  { refine (group_dotted shipped or_compiled shipped_os_sane (iphone_safari a v) a 255 x ios_re 0 mC mD Nx OI ios_group HA _ (short_small _ L) (fun h => D5 h GOSVersionString) h).
    intros p t Bt. rewrite iphone_rel in *.
    assert (GA : group_of 1 p t = at_release iphone_words a x20).
    { refine (cap_system (iphone_items rel) FF iphone_words a (iphone_tail ++ x2f :: v ++ iphone_back) x20 eq_refl Ra Ca _ _ G ios_q false ios_sep _ 35 p t Bt (proj1 ios_ends) (proj2 ios_ends) ios_class PG _ _).
      - exists d, r. split; [exact Ed|exact (digit_d d Dd)].
      - reflexivity.
      - intros j Hj. apply has_lor in Hj as [Hj|Hj]; apply only_is in Hj as ->; [left; reflexivity|right]. destruct (iphone_next rel) as (is & En). exists [88%N], false, is. split; [exact En|]. intros y [<-|[]]. reflexivity.
      - intros pre y Gy Ey. change (skipn 35 (iphone_items rel)) with (rel ++ lit_items iphone_tail ++ lit_items [x2f] ++ ver_items ++ lit_items iphone_back) in Gy.
        apply Ginv in Gy as (v1 & w1 & -> & R1 & Gy). apply gen_lit_inv in Gy as (w2 & -> & Gy). apply gen_lit_inv in Gy as (w3 & -> & Gy). apply ver_inv in Gy as (e & z & q & w4 & -> & Y & Z & R2 & Gy).
        rewrite <- (app_nil_r (lit_items iphone_back)) in Gy. apply gen_lit_inv in Gy as (w5 & -> & Gy). inversion Gy; subst w5. rewrite app_nil_r in *.
        exists v1. split; [|exact R1]. f_equal.
        assert (Rv : run ((e, 1) :: (z, 1) :: q)) by (constructor; [apply d_e; exact Y|]; constructor; [exact Z|exact R2]).
        assert (Q1 : ((map chr iphone_words ++ map chr [x20] ++ map chr a ++ map chr iphone_tail) ++ chr x2f :: map chr v) ++ map chr iphone_back =
          ((pre ++ v1 ++ map chr iphone_tail) ++ chr x2f :: (e, 1) :: (z, 1) :: q) ++ map chr iphone_back).
        { transitivity (map chr ((iphone_words ++ [x20]) ++ a ++ iphone_tail ++ x2f :: v ++ iphone_back)).
          - rewrite !map_app. cbn [map]. rewrite !map_app. rewrite <- !app_assoc. cbn [app]. reflexivity.
          - rewrite Ey. rewrite <- !app_assoc. cbn [map app]. reflexivity. }
        apply app_inv_tail in Q1. apply last_run in Q1 as [Q1 _]; [|reflexivity|reflexivity|exact (version_run v Hv)|exact Rv].
        rewrite !map_app. cbn [map]. rewrite map_app, Q1. reflexivity. }
    split; [intros s; exact (release_captured _ _ _ _ 0 p t s GA)|exact (release_present _ _ _ 0 p t GA)]. }
  destruct GD as (s & Es & Ds). rewrite Es, (dotted_map _ _ Ds), (joined_map ns Fn). reflexivity.
Qed.
End Answers.
Lemma iphone_recognised ns v mC mD : ios_release ns -> version_number v -> short (iphone_safari (joined x5f ns) v) -> on mC 1 -> recognised (iphone_safari (joined x5f ns) v) (bs "Mobile Safari") v (bs "iOS") mC mD.
Proof. intros Ha Hv L O. destruct (iphone_answers ns v mC mD Ha Hv L O) as (Q1 & Q2 & Q3 & Q4 & _). exact (conj Q1 (conj Q2 (conj Q3 Q4))). Qed.
Lemma iphone_release ns v mC mD h : ios_release ns -> version_number v -> short (iphone_safari (joined x5f ns) v) -> on mC 1 -> alone shipped mC mD h (iphone_safari (joined x5f ns) v) GOSVersionString = Ok (VB (joined x2e ns)).
Proof. intros Ha Hv L O. exact (proj2 (proj2 (proj2 (proj2 (iphone_answers ns v mC mD Ha Hv L O)))) h). Qed.

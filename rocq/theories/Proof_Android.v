(** User agents that name Android. *)
From Coq Require Import Lia ZifyBool ZifyNat ZifyN.
From Verif Require Import Model_Base Model_Blob Model_Ctx Model_Regex Model_Shipped Model_Parse Spec_Regex Spec_Select Spec_Dead Spec_Getters Spec_Android
  Proof_Base Proof_Regex Proof_Pattern Proof_Select Proof_OS Proof_Agree Proof_Covers Proof_Quick Proof_Dead Proof_Shadow Proof_Index
  Proof_Device Proof_Reports.
Open Scope nat_scope.

Definition alnums : list N := upto 48 10 ++ upto 65 26 ++ upto 97 26.
Lemma alnums_in c : letter_or_digit c -> In (bn c) alnums.
Proof. unfold letter_or_digit, alnums. intros H. rewrite !in_app_iff. destruct H as [H|[H|H]]; [left|right; left|right; right]; apply upto_in; lia. Qed.

(** Two lists of bytes differ. *)
Fixpoint same (a b : bytes) : bool :=
  match a, b with [], [] => true | x :: a', y :: b' => if beq x y then same a' b' else false | _, _ => false end.
Lemma same_ok a : forall b, same a b = false -> a <> b.
Proof.
  induction a as [|x a IH]; intros [|y b] H; try discriminate; cbn in H. destruct (beq_spec x y) as [->|N].
  - intros E. injection E as ->. exact (IH b H eq_refl).
  - intros E. injection E as -> _. exact (N eq_refl).
Qed.

Section Android.
Variable T : tables.
Hypothesis CO : compiled (dr_re T).
Variables (l : list deviceTuple) (n : nat).
Hypothesis EL : nth_error (dr_idx T) phones = Some l.

(** ** Entry [n] applies to all of them *)
Definition swallows : bool :=
  match nth_error l n with
  | Some x => let qs := re_of _ (dr_re T) dt_matchRI x in forallb (fun c => has 300 (lits (bs "Android ") ++ [Cls false [(c, c)]]) qs) alnums
  | None => false
  end.
Lemma swallow_applies ua : swallows = true -> names_android ua -> exists x, nth_error l n = Some x /\ device_applies T ua x.
Proof.
  unfold swallows. destruct (nth_error l n) as [x|]; [|discriminate]. cbv zeta. intros H (a & c & b & -> & C). exists x. split; [reflexivity|].
  rewrite forallb_forall in H. specialize (H _ (alnums_in c C)).
  assert (LC : lits (bs "Android ") ++ [Cls false [(bn c, bn c)]] = lits (bs "Android " ++ [c])) by reflexivity. rewrite LC in H.
  assert (A : asciib (bs "Android " ++ [c]) = true).
  { unfold asciib. rewrite forallb_app. cbn [forallb]. replace (bn c <? 128)%N with true by (unfold letter_or_digit in C; lia). reflexivity. }
  destruct (occurs_langs (bs "Android " ++ [c]) (a ++ bs "Android " ++ c :: b) A) as (u & v & w & R & L).
  { split; [discriminate|]. exists a, b. rewrite <- (app_assoc (bs "Android ")). reflexivity. }
  destruct (has_found _ _ _ H u v w L) as (q & I & F). rewrite <- R in F.
  destruct (re_hit _ (dr_re T) (dr_buf T) dt_matchRI dt_match64 CO _ x q I F) as [K _]. exact (proj1 (hit_applies _ _ _ _ _ _ K) eq_refl).
Qed.

Lemma first_before {A} (P : A -> Prop) (k : list A) i x y : nth_error k i = Some x -> P x -> first P k y -> exists j, j <= i /\ nth_error k j = Some y /\ picked P k j.
Proof.
  intros N PX (k1 & k2 & -> & PY & B). exists (length k1). assert (NY : nth_error (k1 ++ y :: k2) (length k1) = Some y) by (rewrite nth_error_app2, PeanoNat.Nat.sub_diag by lia; reflexivity).
  split; [|split; [exact NY|]].
  - destruct (PeanoNat.Nat.le_gt_cases (length k1) i) as [L|L]; [exact L|]. rewrite nth_error_app1 in N by exact L. destruct (B x (nth_error_In _ _ N) PX).
  - exists y. split; [exact NY|]. split; [exact PY|]. intros j z J Z. rewrite nth_error_app1 in Z by exact J. exact (B z (nth_error_In _ _ Z)).
Qed.

(** ** Whose brand it is *)
Definition known (ua : bytes) : Prop := exists x, nth_error l n = Some x /\ device_applies T ua x.
Lemma chosen mD ua b idx def x : known ua -> on mD 2 -> device_is T mD ua b idx def x ->
  exists l' i, nth_error (dr_idx T) idx = Some l' /\ nth_error l' i = Some x /\ (idx = phones -> i <= n) /\ idx <> 4.
Proof.
  intros (y & NY & AY) M (before & after & ir & O & S & _ & E & F).
  assert (I4 : idx <> 4).
  { intros ->. assert (In (2%N, 3, 2%N) before).
    { unfold device_order in O. destruct before as [|b0 [|b1 [|b2 [|b3 [|b4 [|b5 [|b6 [|b7 bf]]]]]]]]; cbn in O; try discriminate O;
        injection O; intros; subst; try (destruct bf; discriminate); cbn; tauto. }
    rewrite Forall_forall in S. destruct (S _ H M) as (ir' & E' & N). cbn [fst snd] in E'. unfold phones in EL. rewrite EL in E'. injection E' as <-.
    exact (N y (nth_error_In _ _ NY) AY). }
  exists ir. destruct (PeanoNat.Nat.eq_dec idx phones) as [->|D].
  - rewrite EL in E. injection E as <-. destruct (first_before _ _ _ _ _ NY AY F) as (j & J & N & _). exists j. repeat split; auto.
  - destruct F as (l1 & l2 & -> & _). exists (length l1). split; [exact E|]. split; [rewrite nth_error_app2, PeanoNat.Nat.sub_diag by lia; reflexivity|]. split; [intros D'; destruct (D D')|exact I4].
Qed.
Lemma no_none mD ua : known ua -> on mD 2 -> ~ no_device T mD ua.
Proof.
  intros (y & NY & AY) M N. unfold no_device in N. rewrite Forall_forall in N.
  destruct (N (2%N, 3, 2%N) ltac:(cbn; tauto) M) as (ir & E & F). cbn [fst snd] in E. unfold phones in EL. rewrite EL in E. injection E as <-.
  exact (F y (nth_error_In _ _ NY) AY).
Qed.
Lemma known_brand mC mD h ua s : device_sane T -> short ua -> known ua -> on mD 2 -> alone T mC mD h ua GBrand = Ok (VB s) ->
  exists k l' i x, nth_error (dr_idx T) k = Some l' /\ nth_error l' i = Some x /\ brand_is T x s /\ (k = phones -> i <= n) /\ k <> 4.
Proof.
  intros SA L A M H. destruct (device_brand T mC mD h ua SA L s H) as [(b & idx & def & x & D & B)|[N _]]; [|destruct (no_none mD ua A M N)].
  destruct (chosen _ _ _ _ _ _ A M D) as (l' & i & E & I & R). exists idx, l', i, x. tauto.
Qed.

(** ** Brands that are nowhere else *)
Definition brand_not (bt : tree byte) (names : list bytes) (x : deviceTuple) : bool :=
  if (dt_brand64 x =? 0)%N then negb (existsb (same (bs "UNK")) names)
  else match slice_at bt (dt_brand64 x) with Some w => let t := trim w x20 in negb (existsb (same t) names) | None => false end.
Lemma brand_not_ok names x s : brand_not (numbered (dr_buf T)) names x = true -> In s names -> ~ brand_is T x s.
Proof.
  unfold brand_not. intros H I. assert (Q : forall t, negb (existsb (same t) names) = true -> t <> s).
  { intros t K. apply Bool.negb_true_iff in K. destruct (same t s) eqn:E; [|exact (same_ok t s E)].
    assert (existsb (same t) names = true) by (apply existsb_exists; exists s; auto). congruence. }
  intros [(Z & ->)|(Z & w & X & TR)].
  - rewrite Z in H. exact (Q _ H eq_refl).
  - destruct (N.eqb_spec (dt_brand64 x) 0) as [|_]; [contradiction|]. destruct (slice_at _ _) as [w'|] eqn:E; [|discriminate H]. apply slice_at_ok in E.
    apply text_slice in X. rewrite E in X. injection X as <-. cbv zeta in H. exact (Q _ H (trimmed_fun _ _ _ (trim_trimmed w') TR)).
Qed.
Definition only_behind (names : list bytes) : bool :=
  let bt := numbered (dr_buf T) in
  match dr_idx T with
  | [c0; c1; c2; c3; _; c5; c6; c7] => forallb (forallb (brand_not bt names)) [c0; c1; c2; firstn (S n) c3; c5; c6; c7]
  | _ => false
  end.
Lemma in_firstn {A} (k : list A) : forall i m x, nth_error k i = Some x -> i < m -> In x (firstn m k).
Proof. induction k as [|y k IH]; intros [|i] [|m] x H L; try discriminate; try lia; cbn in *; [injection H as <-; left; reflexivity|right; apply (IH i); [exact H|lia]]. Qed.
Lemma behind names s k l' i x : only_behind names = true -> In s names -> nth_error (dr_idx T) k = Some l' -> nth_error l' i = Some x -> (k = phones -> i <= n) -> k <> 4 -> ~ brand_is T x s.
Proof.
  unfold only_behind, phones. intros H IN K I LE NE. destruct (dr_idx T) as [|c0 [|c1 [|c2 [|c3 [|c4 [|c5 [|c6 [|c7 [|]]]]]]]]]; try discriminate H.
  rewrite forallb_forall in H. apply (brand_not_ok names x s); [|exact IN].
  assert (G : forall c, In c [c0; c1; c2; firstn (S n) c3; c5; c6; c7] -> In x c -> brand_not (numbered (dr_buf T)) names x = true).
  { intros c C X. specialize (H c C). rewrite forallb_forall in H. exact (H x X). }
  pose proof (nth_error_In _ _ I) as X.
  destruct k as [|[|[|[|[|[|[|[|k]]]]]]]]; cbn in K; try (destruct k; discriminate K); try (exfalso; exact (NE eq_refl)); injection K as <-;
    try (eapply G; [|exact X]; cbn; tauto).
  apply (G (firstn (S n) c3)); [cbn; tauto|]. apply (in_firstn _ i); [exact I|]. specialize (LE eq_refl). lia.
Qed.

(** ** A user agent to which no entry applies *)
Fixpoint filled (t : tree regex) (bt : tree byte) (i : index) (k : list deviceTuple) : option index :=
  match k with
  | [] => Some i
  | x :: k' => match seq_at _ dt_matchRI dt_match64 t bt x with Some p => filled t bt (put (fst p) i) k' | None => None end
  end.
Lemma filled_entries k : forall done i j, (forall x, In x done -> exists p, seq_of _ (dr_re T) (dr_buf T) dt_matchRI dt_match64 x = Some p /\ entry i p) ->
  filled (numbered (dr_re T)) (numbered (dr_buf T)) i k = Some j ->
  forall x, In x done \/ In x k -> exists p, seq_of _ (dr_re T) (dr_buf T) dt_matchRI dt_match64 x = Some p /\ entry j p.
Proof.
  induction k as [|y k IH]; intros done i j D H x X; cbn [filled] in H; [injection H as <-; destruct X as [X|[]]; exact (D x X)|].
  destruct (seq_at _ _ _ _ _ y) as [[p o]|] eqn:P0; [|discriminate H]. cbn [fst] in H. destruct (seq_at_of _ _ _ _ _ CO y p o [] P0) as [P _].
  apply (IH (y :: done) _ _) with (2 := H); [|destruct X as [X|[X|X]]; [left; right; exact X|left; left; exact X|right; exact X]].
  intros z [<-|Z]; [exists p; split; [exact P|apply put_entry]|]. destruct (D z Z) as (q & Q & E). exists q. split; [exact Q|exact (entry_grows _ _ _ (put_grows p i) E)].
Qed.
Definition quiet (t : tree regex) (bt : tree byte) (s : Spec_Regex.text) (k : list deviceTuple) : bool :=
  match filled t bt (mkIndex Leaf []) k with Some i => if index_hit i s then false else true | None => false end.
Lemma quiet_none ua k : ascii_text (runes ua) = true -> quiet (numbered (dr_re T)) (numbered (dr_buf T)) (runes ua) k = true -> none (device_applies T ua) k.
Proof.
  unfold quiet. intros AT H. destruct (filled _ _ _ k) as [i|] eqn:F; [|discriminate H]. destruct (index_hit i (runes ua)) eqn:IX; [discriminate H|].
  intros y Y AP. destruct (filled_entries k [] _ _ ltac:(intros x []) F y (or_intror Y)) as (q & Q & E).
  destruct (seq_hit _ (dr_re T) (dr_buf T) dt_matchRI dt_match64 CO ua y q Q) as (c & C & CL). apply (hit_applies _ _ _ _ _ _ C) in AP.
  destruct (CL AP) as (u & v & w & R & LQ). rewrite R in *. rewrite (entry_knows i q E u v w AT LQ) in IX. discriminate IX.
Qed.
(** ... and to which entry [n] is the first phone to apply, while phone [m] does too. *)
Definition owned (t : tree regex) (bt : tree byte) (ua : bytes) (s : Spec_Regex.text) (x : deviceTuple) : bool :=
  match seq_at _ dt_matchRI dt_match64 t bt x with Some p => own p ua s | None => false end.
Definition brand_at (bt : tree byte) (x : deviceTuple) (b : bytes) : bool :=
  if (dt_brand64 x =? 0)%N then false else match slice_at bt (dt_brand64 x) with Some w => same (trim w x20) b | None => false end.
Definition taken (ua : bytes) (m : nat) (right wrong : bytes) : bool :=
  let t := numbered (dr_re T) in let bt := numbered (dr_buf T) in let s := runes ua in
  match dr_idx T with
  | [c0; c1; c2; c3; _; c5; c6; c7] =>
      if ascii_text s then
      if forallb (quiet t bt s) [c0; c1; c2; c5; c6; c7; firstn n c3] then
        match skipn n c3 with
        | x :: _ => if owned t bt ua s x then if brand_at bt x wrong then
            match nth_error c3 m with Some y => if owned t bt ua s y then brand_at bt y right else false | None => false end else false else false
        | [] => false
        end
      else false else false
  | _ => false
  end.
Lemma owned_applies ua x : owned (numbered (dr_re T)) (numbered (dr_buf T)) ua (runes ua) x = true -> device_applies T ua x.
Proof. unfold owned. destruct (seq_at _ _ _ _ _ x) as [[p o]|] eqn:P; [|discriminate]. intros O. exact (proj2 (seq_at_of _ _ _ _ _ CO x p o ua P) O). Qed.
Lemma same_eq a : forall b, same a b = true -> a = b.
Proof. induction a as [|x a IH]; intros [|y b] H; try discriminate; [reflexivity|]. cbn in H. destruct (beq_spec x y) as [->|N]; [f_equal; apply IH; exact H|discriminate H]. Qed.
Lemma brand_at_is x b : brand_at (numbered (dr_buf T)) x b = true -> forall s, brand_is T x s <-> s = b.
Proof.
  unfold brand_at. destruct (N.eqb_spec (dt_brand64 x) 0) as [|Z]; [discriminate|]. destruct (slice_at _ _) as [w|] eqn:E; [|discriminate]. intros H. apply same_eq in H.
  apply slice_at_ok in E. intros s. split.
  - intros [(Z' & _)|(_ & w' & X & TR)]; [contradiction|]. apply text_slice in X. rewrite E in X. injection X as <-. rewrite <- H. exact (trimmed_fun _ _ _ TR (trim_trimmed w)).
  - intros ->. right. split; [exact Z|]. exists w. split; [apply text_slice; exact E|rewrite <- H; apply trim_trimmed].
Qed.
Lemma taken_ok ua m right wrong mD : taken ua m right wrong = true -> on mD 2 ->
  (exists y, nth_error l m = Some y /\ device_applies T ua y /\ brand_is T y right) /\
  exists x, device_is T mD ua 2 phones 2 x /\ forall s, brand_is T x s <-> s = wrong.
Proof.
  unfold taken. cbv zeta. intros H M. destruct (dr_idx T) as [|c0 [|c1 [|c2 [|c3 [|c4 [|c5 [|c6 [|c7 [|]]]]]]]]] eqn:EI; try discriminate H.
  destruct (ascii_text (runes ua)) eqn:AT; [|discriminate H]. destruct (forallb _ _) eqn:Q in H; [|discriminate H]. rewrite forallb_forall in Q.
  destruct (skipn n c3) as [|x k] eqn:SK; [discriminate H|]. destruct (owned _ _ ua _ x) eqn:OX in H; [|discriminate H]. destruct (brand_at _ x wrong) eqn:BX in H; [|discriminate H].
  destruct (nth_error c3 m) as [y|] eqn:NY; [|discriminate H]. destruct (owned _ _ ua _ y) eqn:OY in H; [|discriminate H].
  assert (C3 : l = c3) by (cbn in EL; congruence). subst c3. split.
  { exists y. split; [exact NY|]. split; [exact (owned_applies _ _ OY)|]. apply (proj2 (brand_at_is _ _ H right) eq_refl). }
  exists x. split; [|exact (brand_at_is _ _ BX)].
  exists (firstn 6 device_order), [(1%N, 4, 1%N)], l. split; [reflexivity|].
  split; [|split; [exact M|split; [rewrite EI; reflexivity|]]].
  - assert (G : forall k c, nth_error (dr_idx T) k = Some c -> In c [c0; c1; c2; c5; c6; c7; firstn n l] -> forall b d, device_silent T mD ua (b, k, d)).
    { intros k0 c E I b d _. exists c. split; [exact E|]. apply quiet_none; [exact AT|exact (Q c I)]. }
    cbn [firstn device_order]. repeat (constructor; [eapply G; [rewrite EI; reflexivity|cbn; tauto]|]). constructor.
  - exists (firstn n l), k. split; [rewrite <- SK; symmetry; apply firstn_skipn|]. split; [exact (owned_applies _ _ OX)|].
    apply quiet_none; [exact AT|]. apply Q. cbn; tauto.
Qed.
Lemma taken_brand ua m right wrong mC mD h : device_sane T -> short ua -> alone T mC mD h ua GBrand <> Panic -> taken ua m right wrong = true -> on mD 2 ->
  alone T mC mD h ua GBrand = Ok (VB wrong).
Proof.
  intros SA L NP H M. destruct (taken_ok ua m right wrong mD H M) as (_ & x & D & B).
  assert (V : exists s, alone T mC mD h ua GBrand = Ok (VB s)).
  { revert NP. rewrite alone_brand. destruct (snd (dev_end T mC mD h ua)); [|contradiction]. destruct (snd (read_brand _ _)) as [s|]; [|contradiction]. intros _. exists s. reflexivity. }
  destruct V as [s V]. rewrite V. destruct (device_reports T mC mD h ua SA L) as [_ R]. destruct (R s V) as [R1 _]. rewrite (proj1 (B s) (R1 _ _ _ _ D)). reflexivity.
Qed.
End Android.

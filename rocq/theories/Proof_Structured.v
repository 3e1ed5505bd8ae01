(** Proofs for C61. *)
From Coq Require Import ZifyN ZifyNat ZifyBool.
From Verif Require Import Model_Base Model_CacheEntry Model_Version Model_Ctx Model_Parse Spec_Version Spec_Getters
  Spec_Structured Proof_Base Proof_Version Proof_Safe Proof_Getters.
Open Scope nat_scope.

Lemma cold_version (proj : ctx -> version) (upd : version -> ctx -> ctx) (gs : P bytes) (gv : P version) c :
  (forall v c, proj (upd v c) = v) -> (forall c, v_p (proj c) = false -> gv c =
     (raw <- gs ;; plift (mmod (fun c => upd (fst (parse (proj c) raw)) c)) ;; plift (mget proj))%p c) ->
  proj c = version_zero -> (forall c1 r, run_cold (gs c) = (c1, r) -> proj c1 = version_zero) ->
  snd (run_cold (pmap VV gv c)) =
  match snd (run_cold (pmap VB gs c)) with Ok (VB s) => Ok (VV (fst (parse version_zero s))) | _ => Panic end.
Proof.
  intros H1 H2 H3 H4. unfold pmap. unfold pbind at 1 2. rewrite H2 by (rewrite H3; reflexivity).
  unfold pbind. rewrite !run_cold_bind. destruct (run_cold (gs c)) as [c1 [s|]] eqn:E; [|reflexivity].
  cbn. rewrite (H4 c1 (Ok s) eq_refl), H1. reflexivity.
Qed.

Lemma vers_zero mC mD h ua {A} (p : P A) : (forall c, keeps_vers (p c) c) ->
  forall c1 r, run_cold (p (fresh_ctx mC mD h ua)) = (c1, r) -> vers c1 = vers (fresh_ctx mC mD h ua).
Proof. intros K c1 r E. pose proof (safe_cold _ _ _ (K (fresh_ctx mC mD h ua))) as S. cbv beta in S. rewrite E in S. exact S. Qed.

Lemma structured T mC mD h ua gv gs : version_pair gv gs ->
  alone T mC mD h ua gv =
  match alone T mC mD h ua gs with Ok (VB s) => Ok (VV (fst (parse version_zero s))) | _ => Panic end.
Proof.
  intros [[-> ->]|[[-> ->]|[-> ->]]]; unfold alone; cbn [run_getter].
  - apply (cold_version c_cver up_cver); [reflexivity|intros c H; unfold get_browser_version; rewrite H; reflexivity|reflexivity|].
    intros c1 r E. pose proof (vers_zero mC mD h ua _ (keeps_bvs T) c1 r E) as V. unfold vers in V. cbn in V. congruence.
  - apply (cold_version c_ever up_ever); [reflexivity|intros c H; unfold get_engine_version; rewrite H; reflexivity|reflexivity|].
    intros c1 r E. pose proof (vers_zero mC mD h ua _ (keeps_evs T) c1 r E) as V. unfold vers in V. cbn in V. congruence.
  - apply (cold_version c_over up_over); [reflexivity|intros c H; unfold get_os_version; rewrite H; reflexivity|reflexivity|].
    intros c1 r E. pose proof (vers_zero mC mD h ua _ (keeps_ovs T) c1 r E) as V. unfold vers in V. cbn in V. congruence.
Qed.

Lemma denotes_parse s : denotes s (fst (parse version_zero s)).
Proof.
  intros cs rest P. destruct (parse_spec version_zero s cs rest eq_refl P) as [A B]. split.
  - intros zs Z. destruct (A zs Z) as (v' & -> & _ & F & S). exact (conj F S).
  - intros pre c post zs E Z N. destruct (B pre c post zs E Z N) as (v' & -> & _ & F & S). exact (conj F S).
Qed.

(** ** Numbers written the usual way *)
Lemma zero_digits d : Decimal d 0 -> (d = bs "0" \/ forall d', d <> x30 :: d') -> d = bs "0".
Proof.
  intros D. remember 0%Z as z. revert Heqz. induction D as [c k Dg|s n c k D IH Dg]; intros E [H|H]; try exact H.
  - assert (k = 0) by lia. subst k. cbv in Dg. injection Dg as <-. reflexivity.
  - exfalso. pose proof (Decimal_nonneg _ _ D). assert (n = 0%Z) by lia. subst n.
    assert (S : s = bs "0"). { apply IH; [reflexivity|]. destruct s as [|x s]; [right; discriminate|].
      right. intros d' E'. injection E' as -> ->. exact (H _ eq_refl). }
    subst s. exact (H _ eq_refl).
Qed.

Lemma digit_inj c c' k k' : Digit c k -> Digit c' k' -> k = k' -> c = c'.
Proof. unfold Digit. intros A B ->. congruence. Qed.

Definition nolead (d : bytes) : Prop := d = bs "0" \/ forall d', d <> x30 :: d'.
Lemma nolead_front s c : s <> [] -> nolead (s ++ [c]) -> s <> bs "0" /\ nolead s.
Proof.
  intros N [H|H].
  - exfalso. destruct s as [|x [|y s]]; [contradiction| |]; discriminate.
  - destruct s as [|x s]; [contradiction|]. split; [intros E; injection E as -> ->; exact (H _ eq_refl)|].
    right. intros d' E. injection E as -> ->. exact (H _ eq_refl).
Qed.
Lemma decimal_cases d z : Decimal d z -> (exists c k, d = [c] /\ Digit c k /\ z = Z.of_nat k) \/
  (exists s n c k, d = s ++ [c] /\ Decimal s n /\ Digit c k /\ (z = 10 * n + Z.of_nat k)%Z).
Proof. intros [c k D|s n c k D D']; [left|right]; eauto 10. Qed.
Lemma usual_unique d z : Decimal d z -> nolead d -> forall d', Decimal d' z -> nolead d' -> d = d'.
Proof.
  induction 1 as [c k Dg|s n c k D IH Dg]; intros N d' D' N'.
  - destruct (decimal_cases _ _ D') as [(c' & k' & -> & Dg' & E2)|(s' & n' & c' & k' & -> & D1 & Dg' & E2)].
    + f_equal. apply (digit_inj _ _ k k'); [assumption..|lia].
    + exfalso. pose proof (digit_val_spec _ _ Dg) as [_ K]. pose proof (Decimal_nonneg _ _ D1).
      assert (n' = 0%Z) by lia. subst n'. destruct (nolead_front _ _ (Decimal_nonempty _ _ D1) N') as [X Y].
      apply X. apply zero_digits; assumption.
  - destruct (nolead_front _ _ (Decimal_nonempty _ _ D) N) as [X Y]. pose proof (Decimal_nonneg _ _ D).
    assert (n <> 0%Z) by (intros ->; apply X; apply zero_digits; assumption).
    pose proof (digit_val_spec _ _ Dg) as [_ K].
    destruct (decimal_cases _ _ D') as [(c' & k' & -> & Dg' & E2)|(s' & n' & c' & k' & -> & D1 & Dg' & E2)].
    + exfalso. pose proof (digit_val_spec _ _ Dg') as [_ K']. lia.
    + pose proof (digit_val_spec _ _ Dg') as [_ K']. pose proof (Decimal_nonneg _ _ D1).
      assert (n' = n) by lia. subst n'. assert (k' = k) by lia. subst k'.
      destruct (nolead_front _ _ (Decimal_nonempty _ _ D1) N') as [X' Y'].
      rewrite (IH Y s' D1 Y'), (digit_inj _ _ k k Dg Dg' eq_refl). reflexivity.
Qed.

Lemma digit_lead n : (0 < n < 10)%N -> digit n <> x30.
Proof.
  intros H E.
  assert (F : forallb (fun k => negb (beq (digit k) x30)) [1;2;3;4;5;6;7;8;9]%N = true) by reflexivity.
  rewrite forallb_forall in F. assert (I : In n [1;2;3;4;5;6;7;8;9]%N) by (cbn; lia).
  specialize (F n I). rewrite E in F. discriminate F.
Qed.
Lemma ndigits_lead f : forall n, (0 < n < 2 ^ N.of_nat f)%N -> forall d', ndigits (S f) n <> x30 :: d'.
Proof.
  induction f as [|f IH]; intros n H d'.
  - exfalso. cbn in H. lia.
  - change (ndigits (S (S f)) n) with (if (n <? 10)%N then [digit n] else ndigits (S f) (n / 10)%N ++ [digit (n mod 10)%N]).
    destruct (n <? 10)%N eqn:L.
    + intros E. injection E as E _. apply (digit_lead n); [lia|exact E].
    + assert (B : (0 < n / 10 < 2 ^ N.of_nat f)%N).
      { split; [apply N.div_str_pos; lia|]. apply N.div_lt_upper_bound; [lia|].
        replace (N.of_nat (S f)) with (N.succ (N.of_nat f)) in H by lia. rewrite N.pow_succ_r' in H. lia. }
      destruct (ndigits (S f) (n / 10)) as [|x l] eqn:E1; cbn [app].
      * exfalso. pose proof (ndigits_Decimal f (n / 10) (proj2 B)) as D. rewrite E1 in D. apply Decimal_nonempty in D. congruence.
      * intros E. injection E as -> _. exact (IH _ B _ E1).
Qed.
Lemma itoa_usual d z : Usual d z -> itoa z = d.
Proof.
  intros [D N]. pose proof (Decimal_nonneg _ _ D) as P. apply (usual_unique (itoa z) z).
  - apply itoa_Decimal. exact P.
  - destruct (Z.eqb_spec z 0) as [->|Z0]; [left; reflexivity|]. right. unfold itoa.
    assert ((z <? 0)%Z = false) as -> by lia. cbn [app]. apply ndigits_lead. split; [lia|]. apply size_nat_bound.
  - exact D.
  - exact N.
Qed.

Lemma same_text T mC mD h ua gv gs s a b c d za zb zc zd : version_pair gv gs ->
  alone T mC mD h ua gs = Ok (VB s) -> Usual a za -> Usual b zb -> Usual c zc -> Usual d zd ->
  (0 < za < 2 ^ 31 /\ zb < 2 ^ 31 /\ zc < 2 ^ 31 /\ zd < 2 ^ 31)%Z -> s = a ++ [x2e] ++ b ++ [x2e] ++ c ++ [x2e] ++ d ->
  exists v, alone T mC mD h ua gv = Ok (VV v) /\ fields v = [za; zb; zc; zd] /\ v_suffix v = [] /\ version_string v = s.
Proof.
  intros P A Ua Ub Uc Ud R E. rewrite (structured T mC mD h ua gv gs P), A.
  set (w := mkVersion za zb zc zd [] false).
  assert (W : version_string w = s).
  { unfold version_string. rewrite version_write_pos by (cbn; lia). cbn [w v_suffix length Nat.ltb Nat.leb app].
    unfold text4. cbn [w v_major v_minor v_patch v_revision]. rewrite !itoa_usual with (d := a) by exact Ua.
    rewrite (itoa_usual b zb Ub), (itoa_usual c zc Uc), (itoa_usual d zd Ud), E, app_nil_r. reflexivity. }
  pose proof (Decimal_nonneg _ _ (proj1 Ub)). pose proof (Decimal_nonneg _ _ (proj1 Uc)). pose proof (Decimal_nonneg _ _ (proj1 Ud)).
  rewrite <- W, round_trip_ok; [|unfold nonneg32; cbn; lia|reflexivity|cbn; lia].
  cbn [fst]. exists (set_parsed w). repeat split.
Qed.

Lemma components T mC mD h ua gv gs : version_pair gv gs ->
  (forall s, alone T mC mD h ua gs = Ok (VB s) -> exists v, alone T mC mD h ua gv = Ok (VV v) /\ denotes s v) /\
  (alone T mC mD h ua gs = Panic -> alone T mC mD h ua gv = Panic).
Proof.
  intros P. rewrite (structured T mC mD h ua gv gs P). split.
  - intros s ->. exists (fst (parse version_zero s)). split; [reflexivity|apply denotes_parse].
  - intros ->. reflexivity.
Qed.

Definition text_check (T : tables) (mC mD : N) (ua s t : bytes) (gv gs : getter) : bool :=
  match alone T mC mD 0 ua gs with
  | Ok (VB x) => beqs x s && beqs (version_string (fst (parse version_zero x))) t
  | _ => false
  end.
Lemma text_case T mC mD ua s t gv gs : version_pair gv gs -> text_check T mC mD ua s t gv gs = true ->
  alone T mC mD 0 ua gs = Ok (VB s) /\ exists v, alone T mC mD 0 ua gv = Ok (VV v) /\ version_string v = t.
Proof.
  intros P C. rewrite (structured T mC mD 0 ua gv gs P). unfold text_check in C.
  destruct (alone T mC mD 0 ua gs) as [[|x|]|]; try discriminate. apply andb_prop in C as [C1 C2].
  apply beqs_eq in C1 as ->. apply beqs_eq in C2. split; [reflexivity|]. eexists. split; [reflexivity|exact C2].
Qed.
Lemma text_differs T mC mD ua s t gv gs : version_pair gv gs -> text_check T mC mD ua s t gv gs = true -> t <> s ->
  exists T mC mD h ua gv gs s v, version_pair gv gs /\
  alone T mC mD h ua gs = Ok (VB s) /\ alone T mC mD h ua gv = Ok (VV v) /\ version_string v <> s.
Proof.
  intros P C N. destruct (text_case T mC mD ua s t gv gs P C) as [A (v & B & E)].
  exists T, mC, mD, 0%N, ua, gv, gs, s, v. rewrite E. repeat split; assumption.
Qed.

(** The fate of every group number. *)
From Verif Require Import Model_Base Model_CacheEntry Model_Ctx Model_Regex Model_Parse Model_Compiler Model_Built Data_Tiny Spec_Version Spec_Getters Spec_Reference Spec_GroupRead Proof_Base Proof_Reference.
From Coq Require Import Lia ZifyBool ZifyNat ZifyN.
Open Scope list_scope.
Open Scope Z_scope.

Lemma fate_total n r : 0 <= r < 256 -> exists f, fate_of n r f.
Proof.
  intros B. destruct (Z_lt_le_dec r 128) as [H1|H1].
  - destruct (Z_lt_le_dec r (2 * n)) as [H2|H2]; [|exists Ignored; apply F_beyond; lia].
    destruct (Z_lt_le_dec r n) as [H3|H3]; [|exists Crashes; apply F_missing; lia].
    destruct (Z_lt_le_dec r 64); [exists (Reads r); apply F_there; lia|exists Crashes; apply F_doubled; lia].
  - destruct (Z_lt_le_dec r 192) as [H2|H2].
    + destruct (Z_lt_le_dec (r - 128) n); [exists (Reads (r - 128)); apply F_other; lia|exists Crashes; apply F_no_other; lia].
    + destruct (Z.eq_dec r 255) as [->|]; [exists Ignored; apply F_none|exists Crashes; apply F_negative; lia].
Qed.
Lemma fate_one n r f g : 0 <= n -> fate_of n r f -> fate_of n r g -> f = g.
Proof. intros N0 H G. destruct H; inversion G; subst; try reflexivity; exfalso; lia. Qed.

Lemma zindex_at {A} (l : list A) i : 0 <= i < Z.of_nat (length l) -> exists a, nth_error l (Z.to_nat i) = Some a /\ zindex l i = Ok a.
Proof.
  intros B. unfold zindex. destruct (Z.ltb_spec i 0); [lia|]. unfold index. replace (N.to_nat (Z.to_N i)) with (Z.to_nat i) by lia.
  destruct (nth_error l (Z.to_nat i)) as [a|] eqn:E; [exists a; auto|]. apply nth_error_None in E. lia.
Qed.
Lemma zindex_out {A} (l : list A) i : i < 0 \/ Z.of_nat (length l) <= i -> zindex l i = Panic.
Proof.
  intros B. unfold zindex. destruct (Z.ltb_spec i 0); [reflexivity|]. unfold index. destruct (nth_error l (N.to_nat (Z.to_N i))) eqn:E; [|reflexivity].
  assert (N.to_nat (Z.to_N i) < length l)%nat by (apply nth_error_Some; congruence). lia.
Qed.
Lemma wrap_is z i k : -128 <= i < 128 -> z = i + 256 * k -> wrap8 z = i.
Proof. intros B ->. unfold wrap8. replace (i + 256 * k + 128) with (i + 128 + k * 256) by lia. rewrite Z.mod_add, Z.mod_small by lia. lia. Qed.

Section Step.
Variables (x : clientTuple) (p : regex) (c : ctx) (n : Z).
Hypothesis V0 : ct_version64 x = 0%N.
Notation m := (re_groups p (c_src c)).
Hypothesis LM : Z.of_nat (length m) = 2 * n.
Lemma step_none : ct_browserVI x = -1 -> client_version x p c = (c, Ok tt).
Proof. intros E. unfold client_version. rewrite V0, E. reflexivity. Qed.
Lemma step_past : ct_browserVI x <> -1 -> 2 * n <= ct_browserVI x -> client_version x p c = (c, Ok tt).
Proof.
  intros E L. unfold client_version. rewrite V0. cbn [N.eqb negb]. destruct (Z.eqb_spec (ct_browserVI x) (-1)); [contradiction|]. cbn [negb]. unfold mbind, mget.
  destruct (Z.ltb_spec (ct_browserVI x) (Z.of_nat (length m))); [lia|reflexivity].
Qed.
Lemma step_in i k : ct_browserVI x <> -1 -> ct_browserVI x < 2 * n -> ct_browserVI x * 2 = i + 256 * k -> -128 <= i < 127 ->
  (i < 0 \/ 2 * n <= i -> client_version x p c = (c, Panic)) /\
  (0 <= i -> i + 1 < 2 * n -> exists lo hi, nth_error m (Z.to_nat i) = Some lo /\ nth_error m (Z.to_nat (i + 1)) = Some hi /\
     client_version x p c = if negb (lo =? -1) && negb (hi =? -1) then (up_clientVersion (encode64 lo hi) c, Ok tt) else (c, Ok tt)).
Proof.
  intros E L W B. assert (W1 : wrap8 (ct_browserVI x * 2) = i) by (apply (wrap_is _ _ k); [lia|exact W]).
  assert (W2 : wrap8 (i + 1) = i + 1) by (apply (wrap_is _ _ 0); lia).
  assert (R : client_version x p c = mbind (mlift (zindex m i)) (fun lo => mbind (mlift (zindex m (i + 1))) (fun hi =>
    if negb (lo =? -1) && negb (hi =? -1) then mmod (up_clientVersion (encode64 lo hi)) else mret tt)) c).
  { unfold client_version. rewrite V0. cbn [N.eqb negb]. destruct (Z.eqb_spec (ct_browserVI x) (-1)); [contradiction|]. cbn [negb]. unfold mbind at 1, mget.
    destruct (Z.ltb_spec (ct_browserVI x) (Z.of_nat (length m))); [|lia]. rewrite W1, W2. reflexivity. }
  rewrite R. split.
  - intros O. unfold mbind, mlift. rewrite zindex_out by lia. reflexivity.
  - intros P Q. destruct (zindex_at m i ltac:(lia)) as (lo & N1 & Z1). destruct (zindex_at m (i + 1) ltac:(lia)) as (hi & N2 & Z2). exists lo, hi. split; [exact N1|]. split; [exact N2|].
    unfold mbind, mlift. rewrite Z1, Z2. destruct (negb (lo =? -1) && negb (hi =? -1)); reflexivity.
Qed.
Lemma read_comes lo hi j : nth_error m (Z.to_nat (2 * j)) = Some lo -> nth_error m (Z.to_nat (2 * j + 1)) = Some hi ->
  comes_to (Reads j) m c (if negb (lo =? -1) && negb (hi =? -1) then (up_clientVersion (encode64 lo hi) c, Ok tt) else (c, Ok tt)).
Proof.
  intros H1 H2. exists lo, hi. split; [exact H1|]. split; [exact H2|].
  destruct (Z.eqb_spec lo (-1)); [right; auto|]. destruct (Z.eqb_spec hi (-1)); [right; auto|]. left. split; [assumption|]. split; [assumption|]. eexists. split; reflexivity.
Qed.
Lemma step_fate z f : low_byte z (ct_browserVI x) -> fate_of n (z mod 256) f -> comes_to f m c (client_version x p c).
Proof.
  intros (B & k & E) F. assert (NN : 0 <= n) by lia.
  assert (R : ct_browserVI x = z mod 256 \/ ct_browserVI x = z mod 256 - 256).
  { subst z. rewrite (Z.mul_comm 256 k), Z.mod_add by lia. destruct (Z_lt_le_dec (ct_browserVI x) 0).
    - right. replace (ct_browserVI x) with (ct_browserVI x + 256 + (-1) * 256) at 2 by lia. rewrite Z.mod_add, Z.mod_small by lia. lia.
    - left. rewrite Z.mod_small; lia. }
  pose proof (Z.mod_pos_bound z 256 ltac:(lia)) as RB. remember (z mod 256) as r eqn:Er. clear Er E k z.
  destruct F as [r H1 H2|r H1 H2|r H1 H2|r H1 H2|r H1 H2|r H1 H2|r H1|]; cbn [comes_to].
  - destruct (step_in (2 * r) 0) as [_ S]; try lia. destruct S as (lo & hi & N1 & N2 & ->); try lia. apply read_comes; assumption.
  - destruct (Z_lt_le_dec r 64).
    + apply (step_in (2 * r) 0); lia.
    + apply (step_in (2 * r - 256) 1); lia.
  - apply (step_in (2 * r - 256) 1); lia.
  - apply step_past; lia.
  - destruct (step_in (2 * (r - 128)) (-1)) as [_ S]; try lia. destruct S as (lo & hi & N1 & N2 & ->); try lia. apply read_comes; assumption.
  - apply (step_in (2 * (r - 128)) (-1)); lia.
  - apply (step_in (2 * (r - 256)) 0); lia.
  - apply step_none. lia.
Qed.
End Step.

(** ** Entries of the database *)
Lemma entry_fate valid repl y k s z p c n f : yc_version y = x24 :: s -> IsInt s z -> Z.of_nat (length (re_groups p (c_src c))) = 2 * n ->
  fate_of n (z mod 256) f -> comes_to f (re_groups p (c_src c)) c (client_version (fst (compile_client1 valid repl y k)) p c).
Proof.
  intros V Is L F. destruct (client_reference valid repl y k s V) as (V0 & H & _). exact (step_fate _ p c n V0 L z f (H z Is) F).
Qed.
From Coq Require Import String.
Open Scope list_scope.
Open Scope Z_scope.
(** The small database with another version for its entry Foo. *)
Definition tiny_with (v : string) : database :=
  mkDatabase
    [[tiny_client "WebKit" "WebKit" "" None]; [tiny_client "Foo/(\d+[.\d]+)" "Foo" v None];
     [tiny_client "Feed" "Feed" "" None]; [tiny_client "Qu[ux]" "Qux" "" None]; [tiny_client "mplayer" "mplayer" "" None];
     [tiny_client "Shop/([.\d]+)" "Shop" "$1" None]; [tiny_client "Mail" "Mail" "" None]]
    (db_os tiny) (db_device tiny) (db_vendor tiny) (db_hint tiny).
Definition foo : bytes := bs "Foo/29.0".
Definition foo_version (v : string) := alone (built tiny_compiler (tiny_with v)) 63 1023 0 foo GBrowserVersionString.
Lemma foo_versions : foo_version "$1" = Ok (VB (bs "29.0")) /\ foo_version "$2" = Panic /\ foo_version "$4" = Ok (VB []) /\ foo_version "$129" = Ok (VB (bs "29.0")) /\
  foo_version "$254" = Panic /\ foo_version "$-2" = Panic /\ foo_version "$255" = Ok (VB []).
Proof. repeat split; vm_compute; reflexivity. Qed.
Lemma group_refuted : exists K D ua ir y s z, nth_error (db_client D) 1 = Some ir /\ In y ir /\ yc_version y = x24 :: s /\ IsInt s z /\ 200 < z /\
  forall h, alone (built K D) 63 1023 h ua GBrowserVersionString = Panic.
Proof.
  exists tiny_compiler, (tiny_with "$254"), foo, [tiny_client "Foo/(\d+[.\d]+)" "Foo" "$254" None], (tiny_client "Foo/(\d+[.\d]+)" "Foo" "$254" None), (bs "254"), 254.
  split; [reflexivity|]. split; [left; reflexivity|]. split; [reflexivity|]. split; [apply parse_false; reflexivity|]. split; [lia|].
  intros h. vm_compute. reflexivity.
Qed.
Lemma fate_cases : fate_of 2 (129 mod 256) (Reads 1) /\ fate_of 2 (-2 mod 256) Crashes /\ fate_of 2 (4 mod 256) Ignored.
Proof.
  change (129 mod 256) with 129. change (-2 mod 256) with 254. change (4 mod 256) with 4.
  split; [apply (F_other 2 129); lia|]. split; [apply F_negative; lia|apply F_beyond; lia].
Qed.

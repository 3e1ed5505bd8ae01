(** The fate of every group number in operating system entries. *)
From Verif Require Import Model_Base Model_CacheEntry Model_Ctx Model_Regex Model_Parse Model_Compiler Model_Built Data_Tiny Spec_Version Spec_Getters Spec_Reference Spec_GroupRead Spec_SystemRead
  Proof_Base Proof_Reference Proof_GroupRead.
From Coq Require Import Lia ZifyBool ZifyNat ZifyN.
Open Scope Z_scope.

(** ** Reading a group *)
Definition pick (upd : N -> ctx -> ctx) (m : list Z) (si : Z) : M unit :=
  if (si <? Z.of_nat (length m)) && negb (si =? -1) then
    mbind (mlift (Model_Parse.group m si)) (fun g => if negb (fst g =? -1) && negb (snd g =? -1) then mmod (upd (encode64 (fst g) (snd g))) else mret tt)
  else mret tt.
Section Pick.
Variables (upd : N -> ctx -> ctx) (m : list Z) (si n : Z) (c : ctx).
Hypothesis LM : Z.of_nat (length m) = 2 * n.
Lemma pick_past : 2 * n <= si \/ si = -1 -> pick upd m si c = (c, Ok tt).
Proof.
  intros H. unfold pick. destruct (Z.ltb_spec si (Z.of_nat (length m))); [|reflexivity]. destruct (Z.eqb_spec si (-1)); [reflexivity|lia].
Qed.
Lemma pick_in i k : si <> -1 -> si < 2 * n -> si * 2 = i + 256 * k -> -128 <= i < 127 ->
  (i < 0 \/ 2 * n <= i -> pick upd m si c = (c, Panic)) /\
  (0 <= i -> i + 1 < 2 * n -> exists lo hi, nth_error m (Z.to_nat i) = Some lo /\ nth_error m (Z.to_nat (i + 1)) = Some hi /\
     pick upd m si c = if negb (lo =? -1) && negb (hi =? -1) then (upd (encode64 lo hi) c, Ok tt) else (c, Ok tt)).
Proof.
  intros E L W B. assert (W1 : wrap8 (si * 2) = i) by (apply (wrap_is _ _ k); [lia|exact W]).
  assert (W2 : wrap8 (i + 1) = i + 1) by (apply (wrap_is _ _ 0); lia).
  unfold pick, Model_Parse.group. destruct (Z.ltb_spec si (Z.of_nat (length m))); [|lia]. destruct (Z.eqb_spec si (-1)); [contradiction|]. cbn [andb negb]. rewrite W1, W2. split.
  - intros O. unfold mbind, mlift. rewrite zindex_out by lia. reflexivity.
  - intros P Q. destruct (zindex_at m i ltac:(lia)) as (lo & N1 & Z1). destruct (zindex_at m (i + 1) ltac:(lia)) as (hi & N2 & Z2). exists lo, hi. split; [exact N1|]. split; [exact N2|].
    unfold mbind, mlift. rewrite Z1, Z2. cbn [Model_Base.rbind fst snd]. destruct (negb (lo =? -1) && negb (hi =? -1)); reflexivity.
Qed.
Lemma pick_reads lo hi j : nth_error m (Z.to_nat (2 * j)) = Some lo -> nth_error m (Z.to_nat (2 * j + 1)) = Some hi ->
  ends_in upd (Reads j) m c (if negb (lo =? -1) && negb (hi =? -1) then (upd (encode64 lo hi) c, Ok tt) else (c, Ok tt)).
Proof.
  intros H1 H2. exists lo, hi. split; [exact H1|]. split; [exact H2|].
  destruct (Z.eqb_spec lo (-1)); [right; auto|]. destruct (Z.eqb_spec hi (-1)); [right; auto|]. left. split; [assumption|]. split; [assumption|]. reflexivity.
Qed.
Lemma pick_fate z f : low_byte z si -> fate_of n (z mod 256) f -> ends_in upd f m c (pick upd m si c).
Proof.
  intros (B & k & E) F. assert (NN : 0 <= n) by lia.
  assert (R : si = z mod 256 \/ si = z mod 256 - 256).
  { subst z. rewrite (Z.mul_comm 256 k), Z.mod_add by lia. destruct (Z_lt_le_dec si 0).
    - right. replace si with (si + 256 + (-1) * 256) at 2 by lia. rewrite Z.mod_add, Z.mod_small by lia. lia.
    - left. rewrite Z.mod_small; lia. }
  pose proof (Z.mod_pos_bound z 256 ltac:(lia)) as RB. remember (z mod 256) as r eqn:Er. clear Er E k z.
  destruct F as [r H1 H2|r H1 H2|r H1 H2|r H1 H2|r H1 H2|r H1 H2|r H1|]; cbn [ends_in].
  - destruct (pick_in (2 * r) 0) as [_ S]; try lia. destruct S as (lo & hi & N1 & N2 & ->); try lia. apply pick_reads; assumption.
  - destruct (Z_lt_le_dec r 64).
    + apply (pick_in (2 * r) 0); lia.
    + apply (pick_in (2 * r - 256) 1); lia.
  - apply (pick_in (2 * r - 256) 1); lia.
  - apply pick_past; lia.
  - destruct (pick_in (2 * (r - 128)) (-1)) as [_ S]; try lia. destruct S as (lo & hi & N1 & N2 & ->); try lia. apply pick_reads; assumption.
  - apply (pick_in (2 * (r - 128)) (-1)); lia.
  - apply (pick_in (2 * (r - 256)) 0); lia.
  - apply pick_past; lia.
Qed.
End Pick.

(** ** Entries *)
Definition name_upd (e : N) (c : ctx) : ctx := set_flag flagOSBufSrc (up_osName e c).
Lemma hit_both T x p c : ot_versions64 x = 0%N ->
  os_hit T x p c = mbind (pick name_upd (re_groups p (c_src c)) (ot_nameSI x)) (fun _ => pick up_osVersion (re_groups p (c_src c)) (ot_versionSI x)) (up_osName (ot_name64 x) c).
Proof.
  intros V. unfold os_hit, pick. rewrite V. change ((0 =? 0)%N) with true. cbn [negb].
  unfold mbind, mget, mmod, mlift, mret. change (c_src (up_osName (ot_name64 x) c)) with (c_src c).
  destruct (ot_nameSI x =? -1); destruct (ot_versionSI x =? -1); cbn [negb orb]; rewrite ?Bool.andb_false_r, ?Bool.andb_true_r; try reflexivity;
    repeat match goal with
    | |- context [if (?a <? ?b) then _ else _] => destruct (a <? b)
    | |- context [Model_Parse.group ?a ?b] => destruct (Model_Parse.group a b) as [[? ?]|]; cbn [fst snd]
    | |- context [if negb (?a =? ?b) && negb (?d =? ?e) then _ else _] => destruct (negb (a =? b) && negb (d =? e))
    end; try reflexivity.
Qed.
Lemma pick_none upd m c : pick upd m (-1) c = (c, Ok tt).
Proof. unfold pick. rewrite Bool.andb_false_r. reflexivity. Qed.
Lemma inx_plain v b : no_dollar v -> fst (fst (parse_inx v b)) = -1.
Proof. intros H. destruct v as [|a v]; [reflexivity|]. destruct a; try (cbn [parse_inx]; destruct (buf_add _ b); reflexivity). contradiction (H v). reflexivity. Qed.
Lemma inx_number s z b : number_meant IsInt s z -> low_byte z (fst (fst (parse_inx (x24 :: s) b))).
Proof.
  destruct (system_means s b) as (i & -> & H1 & H2). cbn [fst]. intros [H|[H ->]]; [exact (H1 z H)|]. rewrite (H2 H). split; [lia|]. exists 0. lia.
Qed.
(** The numbers in a compiled entry without a list of versions. *)
Lemma entry_numbers valid repl y o : yo_versions y = [] ->
  let x := fst (compile_os1 valid repl y o) in ot_versions64 x = 0%N /\ (exists b, ot_nameSI x = fst (fst (parse_inx (yo_name y) b))) /\ (exists b, ot_versionSI x = fst (fst (parse_inx (yo_version y) b))).
Proof.
  intros E. cbv zeta. unfold compile_os1. rewrite E. destruct (parse_inx (yo_name y) (o_buf o)) as [[ni n64] b1] eqn:E1. destruct (add_match _ _ _ _ _) as [[[ri m64] b2] re2].
  destruct (parse_inx (yo_version y) b2) as [[vi v64] b3] eqn:E2. cbn [fst ot_versions64 ot_nameSI ot_versionSI]. split; [reflexivity|]. split; [exists (o_buf o); rewrite E1; reflexivity|exists b2; rewrite E2; reflexivity].
Qed.
Section Entry.
Variables (T : tables) (valid : bytes -> bool) (repl : bytes -> option bytes) (y : yos) (o : otables) (p : regex) (c : ctx) (n : Z).
Hypothesis NV : yo_versions y = [].
Hypothesis LM : Z.of_nat (length (re_groups p (c_src c))) = 2 * n.
Notation x := (fst (compile_os1 valid repl y o)).
Lemma version_fate s z f : no_dollar (yo_name y) -> yo_version y = x24 :: s -> number_meant IsInt s z -> fate_of n (z mod 256) f ->
  ends_in up_osVersion f (re_groups p (c_src c)) (up_osName (ot_name64 x) c) (os_hit T x p c).
Proof.
  intros ND V Z F. destruct (entry_numbers valid repl y o NV) as (V0 & (b1 & N1) & (b2 & N2)). rewrite (hit_both T _ p c V0), N1, (inx_plain _ b1 ND). unfold mbind. rewrite pick_none.
  apply (pick_fate _ _ _ n _ LM z f); [|exact F]. rewrite N2, V. apply inx_number. exact Z.
Qed.
Lemma name_fate s z f : yo_name y = x24 :: s -> no_dollar (yo_version y) -> number_meant IsInt s z -> fate_of n (z mod 256) f ->
  ends_in name_upd f (re_groups p (c_src c)) (up_osName (ot_name64 x) c) (os_hit T x p c).
Proof.
  intros V ND Z F. destruct (entry_numbers valid repl y o NV) as (V0 & (b1 & N1) & (b2 & N2)). rewrite (hit_both T _ p c V0), N2, (inx_plain _ b2 ND).
  assert (Q : mbind (pick name_upd (re_groups p (c_src c)) (ot_nameSI x)) (fun _ => pick up_osVersion (re_groups p (c_src c)) (-1)) (up_osName (ot_name64 x) c) =
    pick name_upd (re_groups p (c_src c)) (ot_nameSI x) (up_osName (ot_name64 x) c)).
  { unfold mbind. destruct (pick name_upd _ _ _) as [c' [[]|]]; [apply pick_none|reflexivity]. }
  rewrite Q. apply (pick_fate _ _ _ n _ LM z f); [|exact F]. rewrite N1, V. apply inx_number. exact Z.
Qed.
End Entry.
(** ** Entries of a list of versions *)
Lemma nested_fate T valid y o p c n v rest s z f : fst (compile_ov1 valid y o) = v -> 0 <= ov_matchRI v -> zindex (or_re T) (ov_matchRI v) = Ok p -> re_match p (c_src c) = true ->
  Z.of_nat (length (re_groups p (c_src c))) = 2 * n -> yv_version y = x24 :: s -> number_meant IsInt s z -> fate_of n (z mod 256) f ->
  (z mod 256 <> 255 -> ends_in up_osVersion f (re_groups p (c_src c)) c (os_ver_loop T (v :: rest) c)) /\
  (z mod 256 = 255 -> os_ver_loop T (v :: rest) c = (set_flag flagOSVerBufSrc (up_osVersion 0 c), Ok tt)).
Proof.
  intros Ev R Zi Mt LM V Zm F.
  assert (NS : ov_version64 v = 0%N /\ low_byte z (ov_versionSI v)).
  { destruct (nested_reference valid y o s V) as (V0 & H1 & H2). rewrite Ev in *. split; [exact V0|]. destruct Zm as [H|[H ->]]; [exact (H1 z H)|]. rewrite (H2 H). split; [lia|]. exists 0. lia. }
  destruct NS as [V0 LB].
  assert (St : os_ver_loop T (v :: rest) c = if ov_versionSI v =? -1 then (set_flag flagOSVerBufSrc (up_osVersion 0 c), Ok tt) else pick up_osVersion (re_groups p (c_src c)) (ov_versionSI v) c).
  { cbn [os_ver_loop]. destruct (Z.leb_spec 0 (ov_matchRI v)); [|lia]. unfold mbind at 1, mlift at 1. rewrite Zi. unfold mbind at 1, mget. rewrite Mt, V0. unfold pick.
    destruct (ov_versionSI v =? -1); cbn [negb]; [reflexivity|]. rewrite Bool.andb_true_r. reflexivity. }
  rewrite St. destruct LB as (B & k & E). split; intros Hz.
  - destruct (Z.eqb_spec (ov_versionSI v) (-1)) as [E1|E1].
    + exfalso. apply Hz. rewrite E, E1, (Z.mul_comm 256 k), Z.mod_add by lia. reflexivity.
    + apply (pick_fate _ _ _ n _ LM z f); [split; [exact B|exists k; exact E]|exact F].
  - destruct (Z.eqb_spec (ov_versionSI v) (-1)) as [E1|E1]; [reflexivity|]. exfalso. rewrite E, (Z.mul_comm 256 k), Z.mod_add in Hz by lia.
    destruct (Z_lt_le_dec (ov_versionSI v) 0).
    + replace (ov_versionSI v) with (ov_versionSI v + 256 + (-1) * 256) in Hz by lia. rewrite Z.mod_add, Z.mod_small in Hz by lia. lia.
    + rewrite Z.mod_small in Hz by lia. lia.
Qed.
From Coq Require Import String.
Open Scope list_scope.
Open Scope Z_scope.
(** The small database with one operating system. *)
Definition zed (name v : string) : yos := mkYO (bs name) (bs "Zed/(\d+[.\d]+)") (bs v) [].
Definition tiny_zed (name v : string) : database := mkDatabase (db_client tiny) [zed name v] (db_device tiny) (db_vendor tiny) (db_hint tiny).
Definition zed_version (v : string) := alone (built tiny_compiler (tiny_zed "Zed" v)) 63 1023 0 (bs "Zed/1.2") GOSVersionString.
Definition zed_name (s : string) := alone (built tiny_compiler (tiny_zed s "")) 63 1023 0 (bs "Zed/1.2") GOS.
Lemma zed_versions : zed_version "$1" = Ok (VB (bs "1.2")) /\ zed_version "$x" = Ok (VB (bs "1.2")) /\ zed_version "$2" = Panic /\ zed_version "$4" = Ok (VB []) /\
  zed_version "$129" = Ok (VB (bs "1.2")) /\ zed_version "$-2" = Panic /\ zed_version "$255" = Ok (VB []) /\ zed_name "$1" = Ok (VB (bs "1.2")) /\ zed_name "$254" = Panic.
Proof. repeat split; vm_compute; reflexivity. Qed.
Lemma system_refuted : exists K D ua y s z, In y (db_os D) /\ yo_version y = x24 :: s /\ IsInt s z /\ 200 < z /\ forall h, alone (built K D) 63 1023 h ua GOSVersionString = Panic.
Proof.
  exists tiny_compiler, (tiny_zed "Zed" "$254"), (bs "Zed/1.2"), (zed "Zed" "$254"), (bs "254"), 254.
  split; [left; reflexivity|]. split; [reflexivity|]. split; [apply parse_false; reflexivity|]. split; [lia|]. intros h. vm_compute. reflexivity.
Qed.
Lemma zed_case : yo_versions (zed "Zed" "$129") = [] /\ no_dollar (yo_name (zed "Zed" "$129")) /\ yo_version (zed "Zed" "$129") = x24 :: bs "129" /\
  number_meant IsInt (bs "129") 129 /\ fate_of 2 (129 mod 256) (Reads 1).
Proof.
  split; [reflexivity|]. split; [intros r; discriminate|]. split; [reflexivity|]. split; [left; apply parse_false; reflexivity|exact (proj1 fate_cases)].
Qed.
(** One operating system with a list of versions. *)
Definition zed_list (v : string) : yos := mkYO (bs "Zed") (bs "Zed[/]") [] [mkYV (bs "Zed/(\d+[.\d]+)") (bs v)].
Definition zed_nested (v : string) :=
  alone (built tiny_compiler (mkDatabase (db_client tiny) [zed_list v] (db_device tiny) (db_vendor tiny) (db_hint tiny))) 63 1023 0 (bs "Zed/1.2") GOSVersionString.
Lemma zed_lists : zed_nested "$1" = Ok (VB (bs "1.2")) /\ zed_nested "$x" = Ok (VB (bs "1.2")) /\ zed_nested "$2" = Panic /\ zed_nested "$4" = Ok (VB []) /\
  zed_nested "$129" = Ok (VB (bs "1.2")) /\ zed_nested "$254" = Panic /\ zed_nested "$255" = Ok (VB []).
Proof. repeat split; vm_compute; reflexivity. Qed.

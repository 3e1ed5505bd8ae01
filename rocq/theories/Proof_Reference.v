(** References to groups: what the compiler makes of the text after the dollar. *)
From Verif Require Import Model_Base Model_Ctx Model_Compiler Spec_Version Spec_Database Spec_Reference Proof_Base Proof_Built.
From Coq Require Import Lia ZifyBool ZifyNat ZifyN.
Open Scope nat_scope.

Lemma digit_of c : ((0 <=? Z.of_N (bn c) - 48) && (Z.of_N (bn c) - 48 <=? 9))%Z = true -> exists k, Digit c k /\ Z.of_nat k = (Z.of_N (bn c) - 48)%Z.
Proof.
  intros H. exists (Z.to_nat (Z.of_N (bn c) - 48)). split; [|lia].
  destruct c; try (exfalso; vm_compute in H; discriminate H); reflexivity.
Qed.
Lemma val_decimal d : forall n, d <> [] -> digits_val d 0 = Some n -> Decimal d n.
Proof.
  induction d as [|c d IH] using rev_ind; intros n NE H; [contradiction|]. rewrite digits_val_app in H.
  destruct (digits_val d 0) as [m|] eqn:E; [|discriminate H]. cbn [digits_val] in H.
  destruct (_ && _)%bool eqn:D in H; [|discriminate H]. injection H as <-. apply digit_of in D as (k & Dk & <-).
  destruct d as [|a d].
  - injection E as <-. replace (10 * 0 + Z.of_nat k)%Z with (Z.of_nat k) by lia. constructor. exact Dk.
  - constructor; [|exact Dk]. apply IH; [discriminate|reflexivity].
Qed.
Lemma decimal_front d n : Decimal d n -> exists c r, d = c :: r /\ c <> x2b /\ c <> x2d.
Proof.
  intros H. pose proof (decimal_val _ _ H) as V. destruct d as [|c r]; [inversion H as [|s ? ? ? ? ? E]; destruct s; discriminate|].
  exists c, r. split; [reflexivity|]. split; intros ->; cbn in V; discriminate V.
Qed.
Lemma too_big_iff s : forall acc, too_big s acc = true <-> exists ds rest n, s = ds ++ rest /\ ds <> [] /\ digits_val ds acc = Some n /\ (2 ^ 64 <= n)%Z.
Proof.
  change (2 ^ 64)%Z with 18446744073709551616%Z. induction s as [|c s IH]; intros acc; cbn [too_big].
  - split; [discriminate|]. intros (ds & rest & n & E & NE & _). symmetry in E. apply app_eq_nil in E as [E _]. contradiction.
  - destruct (_ && _)%bool eqn:D.
    + rewrite Bool.orb_true_iff, IH. split.
      * intros [H|(ds & rest & n & -> & NE & V & L)].
        -- exists [c], s, (10 * acc + (Z.of_N (bn c) - 48))%Z. split; [reflexivity|]. split; [discriminate|]. cbn [digits_val]. rewrite D. split; [reflexivity|lia].
        -- exists (c :: ds), rest, n. split; [reflexivity|]. split; [discriminate|]. cbn [digits_val]. rewrite D. auto.
      * intros (ds & rest & n & E & NE & V & L). destruct ds as [|a ds]; [contradiction|]. injection E as <- ->. cbn [digits_val] in V. rewrite D in V.
        destruct ds as [|b ds]; [left; apply Z.ltb_lt; assert (Vn : (10 * acc + (Z.of_N (bn c) - 48))%Z = n) by (cbn [digits_val] in V; congruence); rewrite Vn; clear - L; lia|]. right. exists (b :: ds), rest, n. split; [reflexivity|]. split; [discriminate|auto].
    + split; [discriminate|]. intros (ds & rest & n & E & NE & V & _). destruct ds as [|a ds]; [contradiction|]. injection E as <- ->. cbn [digits_val] in V. rewrite D in V. discriminate V.
Qed.

(** The part after the sign. *)
Definition magnitude (neg : bool) (d : bytes) : Z * bool :=
  match d with
  | [] => (0, true)%Z
  | _ :: _ =>
      match digits_val d 0 with
      | None => ((if too_big d 0 then (if neg then -9223372036854775808 else 9223372036854775807) else 0), true)%Z
      | Some n =>
          if neg then (if (9223372036854775808 <? n)%Z then (-9223372036854775808, true) else (- n, false))%Z
          else (if (9223372036854775807 <? n)%Z then (9223372036854775807, true) else (n, false))%Z
      end
  end.
Lemma parse_cases (s : bytes) : (exists r, s = x2b :: r /\ parse_int s = magnitude false r) \/ (exists r, s = x2d :: r /\ parse_int s = magnitude true r) \/
  ((forall r, s <> x2b :: r /\ s <> x2d :: r) /\ parse_int s = magnitude false s).
Proof.
  destruct s as [|c r]; [right; right; split; [split; discriminate|reflexivity]|].
  destruct c; try (right; right; split; [split; discriminate|reflexivity]); [left; exists r; auto|right; left; exists r; auto].
Qed.
Lemma magnitude_decimal d n (neg : bool) : Decimal d n -> (if neg then n <= 2 ^ 63 else n < 2 ^ 63)%Z -> magnitude neg d = ((if neg then - n else n)%Z, false).
Proof.
  intros H B. destruct (decimal_front _ _ H) as (c & r & E & _). unfold magnitude. rewrite E at 1. rewrite (decimal_val _ _ H).
  change (2 ^ 63)%Z with 9223372036854775808%Z in B. destruct neg; [destruct (Z.ltb_spec 9223372036854775808 n)|destruct (Z.ltb_spec 9223372036854775807 n)]; try lia; reflexivity.
Qed.
Lemma parse_is_int s z : IsInt s z -> parse_int s = (z, false).
Proof.
  intros (B & ds & n & H & C). destruct (decimal_front _ _ H) as (c & r & E & N1 & N2).
  destruct C as [(-> & ->)|[(-> & ->)|(-> & ->)]].
  - destruct (parse_cases ds) as [(r' & E' & _)|[(r' & E' & _)|(_ & ->)]]; [rewrite E in E'; injection E' as E' _; contradiction|rewrite E in E'; injection E' as E' _; contradiction|].
    apply (magnitude_decimal _ _ false H). lia.
  - change (parse_int (bs "+" ++ ds)) with (magnitude false ds). apply (magnitude_decimal _ _ false H). lia.
  - change (parse_int (bs "-" ++ ds)) with (magnitude true ds). apply (magnitude_decimal _ _ true H). lia.
Qed.
Lemma magnitude_false (neg : bool) d z : magnitude neg d = (z, false) -> exists n, Decimal d n /\ z = (if neg then - n else n)%Z /\ (- 2 ^ 63 <= z < 2 ^ 63)%Z.
Proof.
  change (2 ^ 63)%Z with 9223372036854775808%Z. unfold magnitude. destruct d as [|c r]; [discriminate|]. destruct (digits_val (c :: r) 0) as [n|] eqn:V; [|discriminate].
  pose proof (val_decimal (c :: r) n ltac:(discriminate) V) as D. pose proof (decimal_nonneg _ _ D) as NN. destruct neg.
  - destruct (Z.ltb_spec 9223372036854775808 n); [discriminate|]. intros HH. injection HH as <-. exists n. split; [exact D|]. lia.
  - destruct (Z.ltb_spec 9223372036854775807 n); [discriminate|]. intros HH. injection HH as <-. exists n. split; [exact D|]. lia.
Qed.
Lemma parse_false s z : parse_int s = (z, false) -> IsInt s z.
Proof.
  intros P. destruct (parse_cases s) as [(r & -> & E)|[(r & -> & E)|(_ & E)]]; rewrite E in P; apply magnitude_false in P as (n & D & -> & B).
  - split; [exact B|]. exists r, n. auto.
  - split; [exact B|]. exists r, n. auto.
  - split; [exact B|]. exists s, n. auto.
Qed.
Lemma magnitude_true (neg : bool) d z : magnitude neg d = (z, true) ->
  ((exists ds n rest, Decimal ds n /\ d = ds ++ rest /\ ((rest = [] /\ 2 ^ 63 <= n) \/ 2 ^ 64 <= n)%Z) -> z = if neg then (-9223372036854775808)%Z else 9223372036854775807%Z) /\
  (z <> 0%Z -> z = (if neg then (-9223372036854775808)%Z else 9223372036854775807%Z) /\ exists ds n rest, Decimal ds n /\ d = ds ++ rest /\ ((rest = [] /\ 2 ^ 63 <= n) \/ 2 ^ 64 <= n)%Z).
Proof.
  unfold magnitude. destruct d as [|c r].
  - intros H. injection H as <-. split; [|intros X; contradiction X; reflexivity]. intros (ds & n & rest & D & E & _). destruct (decimal_front _ _ D) as (a & b & -> & _). discriminate E.
  - destruct (digits_val (c :: r) 0) as [n|] eqn:V.
    + pose proof (val_decimal (c :: r) n ltac:(discriminate) V) as D. intros H.
      assert (X : z = (if neg then -9223372036854775808 else 9223372036854775807)%Z /\ (2 ^ 63 <= n)%Z).
      { change (2 ^ 63)%Z with 9223372036854775808%Z. destruct neg; [destruct (Z.ltb_spec 9223372036854775808 n)|destruct (Z.ltb_spec 9223372036854775807 n)]; try discriminate H; injection H as <-; split; try reflexivity; lia. }
      destruct X as [X L]. split; [intros _; exact X|]. intros _. split; [exact X|]. exists (c :: r), n, []. rewrite app_nil_r. split; [exact D|]. split; [reflexivity|auto].
    + destruct (too_big (c :: r) 0) eqn:T; intros H; injection H as <-.
      * split; [reflexivity|]. intros _. split; [reflexivity|]. apply too_big_iff in T as (ds & rest & n & E & NE & W & L). exists ds, n, rest. split; [apply val_decimal; assumption|auto].
      * split; [|intros X; contradiction X; reflexivity]. intros (ds & n & rest & D & E & [(-> & _)|L]).
        -- rewrite app_nil_r in E. subst ds. rewrite (decimal_val _ _ D) in V. discriminate V.
        -- exfalso. assert (Y : too_big (c :: r) 0 = true); [|rewrite T in Y; discriminate Y]. apply too_big_iff. exists ds, rest, n. split; [exact E|].
           split; [destruct (decimal_front _ _ D) as (a & b & -> & _); discriminate|]. split; [apply decimal_val; exact D|exact L].
Qed.

Lemma wrap_low z : low_byte z (wrap_i8 z).
Proof.
  unfold low_byte, wrap_i8. pose proof (Z.mod_pos_bound (z + 128) 256 ltac:(lia)). split; [lia|]. exists ((z + 128) / 256)%Z.
  pose proof (Z.div_mod (z + 128) 256 ltac:(lia)). lia.
Qed.
(** What a reference in the file of a client becomes. *)
Definition client_meaning (s : bytes) (i : Z) : Prop :=
  (forall z, IsInt s z -> low_byte z i) /\ ((forall z, ~ IsInt s z) -> (Huge s -> i = (-1)%Z) /\ (~ Huge s -> i = 0%Z)).
Lemma client_means s : client_meaning s (wrap_i8 (fst (parse_int s))).
Proof.
  split.
  - intros z H. rewrite (parse_is_int _ _ H). apply wrap_low.
  - intros NI. destruct (parse_int s) as [z e] eqn:P. destruct e; [|contradiction (NI z); apply parse_false; exact P]. cbn [fst].
    assert (X : (Huge s -> z = 9223372036854775807%Z) /\ (z = 9223372036854775807%Z -> Huge s) /\ (z = 0 \/ z = -9223372036854775808 \/ z = 9223372036854775807)%Z).
    { destruct (parse_cases s) as [(r & -> & E)|[(r & -> & E)|(NS & E)]]; rewrite E in P; apply magnitude_true in P as [P1 P2].
      - split; [|split].
        + intros (ds & n & rest & D & [Q|Q] & C); [destruct (decimal_front _ _ D) as (a & b & -> & N1 & _); injection Q as Q _; congruence|]. injection Q as ->. apply P1. exists ds, n, rest. auto.
        + intros ->. destruct P2 as (_ & ds & n & rest & D & -> & C); [discriminate|]. exists ds, n, rest. auto.
        + destruct (Z.eq_dec z 0) as [Z0|Z0]; [auto|]. destruct (P2 Z0) as [-> _]. auto.
      - split; [|split].
        + intros (ds & n & rest & D & [Q|Q] & C); [destruct (decimal_front _ _ D) as (a & b & -> & _ & N1); injection Q as Q _; congruence|discriminate Q].
        + intros ->. destruct P2 as (Q & _); [discriminate|discriminate Q].
        + destruct (Z.eq_dec z 0) as [Z0|Z0]; [auto|]. destruct (P2 Z0) as [-> _]. auto.
      - split; [|split].
        + intros (ds & n & rest & D & [Q|Q] & C); [apply P1; exists ds, n, rest; auto|contradiction (proj1 (NS (ds ++ rest))); exact Q].
        + intros ->. destruct P2 as (_ & ds & n & rest & D & -> & C); [discriminate|]. exists ds, n, rest. auto.
        + destruct (Z.eq_dec z 0) as [Z0|Z0]; [auto|]. destruct (P2 Z0) as [-> _]. auto. }
    destruct X as (X1 & X2 & X3). split.
    + intros H. rewrite (X1 H). reflexivity.
    + intros H. destruct X3 as [->|[->|E]]; [reflexivity|reflexivity|contradiction (H (X2 E))].
Qed.
Lemma system_means s b : exists i, parse_inx (x24 :: s) b = (i, 0%N, b) /\ (forall z, IsInt s z -> low_byte z i) /\ ((forall z, ~ IsInt s z) -> i = 1%Z).
Proof.
  cbn [parse_inx]. destruct (parse_int s) as [z e] eqn:P. eexists. split; [reflexivity|]. split.
  - intros z' H. rewrite (parse_is_int _ _ H) in P. injection P as <- <-. apply wrap_low.
  - intros NI. destruct e; [reflexivity|]. contradiction (NI z). apply parse_false. exact P.
Qed.

Section Entries.
Variables (valid : bytes -> bool) (repl : bytes -> option bytes).
Lemma client_reference y k s : yc_version y = x24 :: s ->
  let x := fst (compile_client1 valid repl y k) in ct_version64 x = 0%N /\ (forall z, IsInt s z -> low_byte z (ct_browserVI x)) /\
  ((forall z, ~ IsInt s z) -> (Huge s -> ct_browserVI x = (-1)%Z) /\ (~ Huge s -> ct_browserVI x = 0%Z)).
Proof.
  intros V. cbv zeta. assert (E : ct_version64 (fst (compile_client1 valid repl y k)) = 0%N /\ ct_browserVI (fst (compile_client1 valid repl y k)) = wrap_i8 (fst (parse_int s))).
  { unfold compile_client1. rewrite V. destruct (add_match _ _ _ _ _) as [[[? ?] ?] ?]. destruct (add_opt (yc_name y) _). cbn [client_version64].
    destruct (match yc_engine y with Some _ => _ | None => _ end) as [[[[? ?] ?] ?] ?]. destruct (add_opt (yc_url y) _). destruct (add_opt (yc_type y) _). split; reflexivity. }
  destruct E as [E1 E2]. rewrite E2. split; [exact E1|]. exact (client_means s).
Qed.
Lemma system_reference y o s : yo_versions y = [] -> yo_version y = x24 :: s ->
  let x := fst (compile_os1 valid repl y o) in ot_version64 x = 0%N /\ (forall z, IsInt s z -> low_byte z (ot_versionSI x)) /\ ((forall z, ~ IsInt s z) -> ot_versionSI x = 1%Z).
Proof.
  intros Vs V. cbv zeta. unfold compile_os1. rewrite Vs, V. destruct (parse_inx (yo_name y) _) as [[? ?] ?]. destruct (add_match _ _ _ _ _) as [[[? ?] b2] ?].
  destruct (system_means s b2) as (i & E & H). rewrite E. split; [reflexivity|exact H].
Qed.
Lemma name_reference y o s : yo_name y = x24 :: s ->
  let x := fst (compile_os1 valid repl y o) in ot_name64 x = 0%N /\ (forall z, IsInt s z -> low_byte z (ot_nameSI x)) /\ ((forall z, ~ IsInt s z) -> ot_nameSI x = 1%Z).
Proof.
  intros V. cbv zeta. unfold compile_os1. rewrite V. destruct (system_means s (o_buf o)) as (i & E & H). rewrite E. destruct (add_match _ _ _ _ _) as [[[? ?] b2] ?].
  destruct (match yo_versions y with [] => _ | _ :: _ => _ end) as [[[? ?] ?] ?]. split; [reflexivity|exact H].
Qed.
Lemma nested_reference y o s : yv_version y = x24 :: s ->
  let x := fst (compile_ov1 valid y o) in ov_version64 x = 0%N /\ (forall z, IsInt s z -> low_byte z (ov_versionSI x)) /\ ((forall z, ~ IsInt s z) -> ov_versionSI x = 1%Z).
Proof.
  intros V. cbv zeta. unfold compile_ov1. rewrite V. destruct (add_match _ _ _ _ _) as [[[? ?] b2] ?].
  destruct (system_means s b2) as (i & E & H). rewrite E. split; [reflexivity|exact H].
Qed.
End Entries.
Definition entry_257 : yclient := mkYC (bs "Foo/(\d+)") (bs "Foo") (bs "$257") None [] [].
Lemma reference_wraps : IsInt (bs "257") 257 /\ forall valid repl k, ct_browserVI (fst (compile_client1 valid repl entry_257 k)) = 1%Z.
Proof.
  split.
  - apply parse_false. reflexivity.
  - intros valid repl k. destruct (client_reference valid repl entry_257 k (bs "257") eq_refl) as (_ & H & _). destruct (H 257%Z ltac:(apply parse_false; reflexivity)) as (B & q & E). lia.
Qed.
Lemma reference_refuted : exists y s z, yc_version y = x24 :: s /\ IsInt s z /\ forall valid repl k, ct_browserVI (fst (compile_client1 valid repl y k)) <> z.
Proof.
  exists entry_257, (bs "257"), 257%Z. split; [reflexivity|]. split; [exact (proj1 reference_wraps)|]. intros valid repl k. rewrite (proj2 reference_wraps). discriminate.
Qed.

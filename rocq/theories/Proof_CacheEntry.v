(** Proofs about the cache-entry codec. *)
From Verif Require Import Proof_Base Model_CacheEntry Spec_CacheEntry.

Lemma le_bytes_length k n : length (le_bytes k n) = k.
Proof. revert n; induction k; intros n; cbn; [reflexivity|]. now rewrite IHk. Qed.

Lemma le_value_bound l : (le_value l < 256 ^ N.of_nat (length l))%N.
Proof.
  induction l as [|b l IH]; [cbn; lia|].
  cbn [le_value length]. rewrite Nat2N.inj_succ, N.pow_succ_r'. pose proof (bn_lt b). lia.
Qed.

Lemma le_value_bytes k n : (n < 256 ^ N.of_nat k)%N -> le_value (le_bytes k n) = n.
Proof.
  revert n; induction k as [|k IH]; intros n H.
  - cbn in *. lia.
  - cbn [le_bytes le_value]. rewrite Nat2N.inj_succ, N.pow_succ_r' in H.
    rewrite IH, bn_nb; [lia|]. apply N.div_lt_upper_bound; lia.
Qed.

Lemma le_bytes_value l : le_bytes (length l) (le_value l) = l.
Proof.
  induction l as [|b l IH]; [reflexivity|].
  cbn [le_value length le_bytes]. pose proof (bn_lt b). f_equal.
  - apply bn_inj. rewrite bn_nb. lia.
  - replace ((bn b + 256 * le_value l) / 256)%N with (le_value l); [exact IH|]. lia.
Qed.

Lemma le_bytes_mod k n : le_bytes k (n mod 256 ^ N.of_nat k) = le_bytes k n.
Proof.
  revert n; induction k as [|k IH]; intros n; [reflexivity|].
  cbn [le_bytes]. rewrite Nat2N.inj_succ, N.pow_succ_r'.
  assert (H : (256 ^ N.of_nat k <> 0)%N) by (apply N.pow_nonzero; lia).
  rewrite N.mod_mul_r by lia.
  f_equal.
  - apply bn_inj. rewrite !bn_nb.
    rewrite (N.mul_comm 256), N.mod_add by lia. apply N.mod_mod. lia.
  - rewrite <- (IH (n / 256)%N). f_equal.
    rewrite (N.mul_comm 256), N.div_add by lia.
    rewrite (N.div_small (n mod 256)); [reflexivity|]. apply N.mod_lt. lia.
Qed.

Lemma put_at pre rest src :
  put (pre ++ rest) (length pre) src = (pre ++ src) ++ skipn (length src) rest.
Proof.
  unfold put. rewrite firstn_app, Nat.sub_diag, firstn_all, firstn_O, app_nil_r.
  rewrite skipn_app, skipn_all2 by lia. cbn [app].
  replace (length pre + length src - length pre) with (length src) by lia.
  rewrite app_assoc. reflexivity.
Qed.

(** The serialised form, as one append. *)
Definition header (r : entry) : bytes :=
  le_bytes 8 (e_bits r) ++ le_bytes 1 (e_clientType r) ++ le_bytes 8 (e_clientName r) ++
  le_bytes 8 (e_clientVersion r) ++ le_bytes 8 (e_engineName r) ++ le_bytes 8 (e_engineVersion r) ++
  le_bytes 2 (e_deviceType r) ++ le_bytes 8 (e_brandName r) ++ le_bytes 8 (e_modelName r) ++
  le_bytes 8 (e_osName r) ++ le_bytes 8 (e_osVersion r) ++ le_bytes 8 (e_hkey r) ++
  le_bytes 8 (u64_of_i64 (e_timestamp r)) ++ le_bytes 4 (N.of_nat (length (e_data r))).
Definition wire (r : entry) : bytes := header r ++ e_data r.

Lemma header_length r : length (header r) = 95.
Proof. unfold header. rewrite !app_length, !le_bytes_length. reflexivity. Qed.

Lemma minsz_95 : minsz = 95. Proof. reflexivity. Qed.

Lemma wire_length r : length (wire r) = size r.
Proof. unfold wire, size. rewrite app_length, header_length. reflexivity. Qed.

Fixpoint puts (buf : bytes) (off : nat) (srcs : list bytes) : bytes * nat :=
  match srcs with
  | [] => (buf, off)
  | s :: t => puts (put buf off s) (off + length s) t
  end.

Lemma puts_spec srcs : forall pre rest,
  puts (pre ++ rest) (length pre) srcs
  = (pre ++ concat srcs ++ skipn (length (concat srcs)) rest, length pre + length (concat srcs)).
Proof.
  induction srcs as [|s t IH]; intros pre rest; cbn [puts concat].
  - cbn. rewrite Nat.add_0_r. reflexivity.
  - rewrite put_at. rewrite <- app_length, IH, !app_length.
    rewrite skipn_skipn, <- !app_assoc. apply f_equal2; [reflexivity|lia].
Qed.

Lemma marshal_to_spec r buf :
  size r <= length buf ->
  marshal_to r buf = (wire r ++ skipn (size r) buf, size r, MNil).
Proof.
  intros H. unfold marshal_to.
  destruct (Nat.ltb_spec (length buf) (size r)) as [Hlt|_]; [lia|].
  pose proof (puts_spec
    [le_bytes 8 (e_bits r); le_bytes 1 (e_clientType r); le_bytes 8 (e_clientName r);
     le_bytes 8 (e_clientVersion r); le_bytes 8 (e_engineName r); le_bytes 8 (e_engineVersion r);
     le_bytes 2 (e_deviceType r); le_bytes 8 (e_brandName r); le_bytes 8 (e_modelName r);
     le_bytes 8 (e_osName r); le_bytes 8 (e_osVersion r); le_bytes 8 (e_hkey r);
     le_bytes 8 (u64_of_i64 (e_timestamp r)); le_bytes 4 (N.of_nat (length (e_data r))); e_data r] [] buf) as P.
  set (srcs := [_ ; _ ; _ ; _ ; _ ; _ ; _ ; _ ; _ ; _ ; _ ; _ ; _ ; _ ; _]) in P.
  assert (C : concat srcs = wire r).
  { unfold srcs, wire, header. cbn [concat]. rewrite app_nil_r, <- !app_assoc. reflexivity. }
  rewrite C, wire_length in P. cbn [app length] in P.
  unfold srcs in P. cbn [puts] in P. rewrite !le_bytes_length in P.
  cbv zeta. pose proof (f_equal fst P) as P1. pose proof (f_equal snd P) as P2.
  cbn [fst snd] in P1, P2. rewrite P1. apply f_equal2; [|reflexivity]. apply f_equal2; [reflexivity|exact P2].
Qed.

(** Unmarshal on a decomposed input. *)
Lemma rd_at pre src rest n k :
  n = length pre -> k = length src -> rd (pre ++ src ++ rest) n k = Ok (le_value src).
Proof. intros -> ->. unfold rd. rewrite slice_app. reflexivity. Qed.

Lemma split_at (d : bytes) k : k <= length d -> exists a b, d = a ++ b /\ length a = k.
Proof.
  intros H. exists (firstn k d), (skipn k d).
  rewrite firstn_skipn. split; [reflexivity|]. apply firstn_length_le. exact H.
Qed.

Definition built (p1 p2 p3 p4 p5 p6 p7 p8 p9 p10 p11 p12 p13 : bytes) (d : bytes) : entry :=
  mkEntry (le_value p1) (le_value p2) (le_value p3) (le_value p4) (le_value p5) (le_value p6) (le_value p7)
          (le_value p8) (le_value p9) (le_value p10) (le_value p11) d (le_value p12) (i64_of_u64 (le_value p13)).

Lemma unmarshal_pieces r p1 p2 p3 p4 p5 p6 p7 p8 p9 p10 p11 p12 p13 p14 tail :
  length p1 = 8 -> length p2 = 1 -> length p3 = 8 -> length p4 = 8 -> length p5 = 8 -> length p6 = 8 ->
  length p7 = 2 -> length p8 = 8 -> length p9 = 8 -> length p10 = 8 -> length p11 = 8 -> length p12 = 8 ->
  length p13 = 8 -> length p14 = 4 ->
  unmarshal r (p1 ++ p2 ++ p3 ++ p4 ++ p5 ++ p6 ++ p7 ++ p8 ++ p9 ++ p10 ++ p11 ++ p12 ++ p13 ++ p14 ++ tail) =
  if (N.of_nat (length tail) <? le_value p14)%N
  then Ok (built p1 p2 p3 p4 p5 p6 p7 p8 p9 p10 p11 p12 p13 (e_data r), UUnexpectedEOF)
  else Ok (built p1 p2 p3 p4 p5 p6 p7 p8 p9 p10 p11 p12 p13 (firstn (N.to_nat (le_value p14)) tail), UNil).
Proof.
  intros L1 L2 L3 L4 L5 L6 L7 L8 L9 L10 L11 L12 L13 L14.
  set (data := p1 ++ _).
  assert (Hlen : length data = 95 + length tail).
  { unfold data. rewrite !app_length. lia. }
  unfold unmarshal. rewrite minsz_95.
  destruct (Nat.ltb_spec (length data) 95) as [Hlt|_]; [lia|].
  cbv zeta.
  assert (R1 : rd data 0 8 = Ok (le_value p1)) by (apply (rd_at [] p1); cbn; lia).
  rewrite R1; clear R1; cbn [rbind].
  assert (R : forall pre src rest n k, data = pre ++ src ++ rest -> n = length pre -> k = length src ->
              rd data n k = Ok (le_value src)).
  { intros pre src rest n k E ? ?. rewrite E. apply rd_at; assumption. }
  unfold data in *.
  rewrite (R p1 p2 (p3 ++ p4 ++ p5 ++ p6 ++ p7 ++ p8 ++ p9 ++ p10 ++ p11 ++ p12 ++ p13 ++ p14 ++ tail)); cbn [rbind];
    [|rewrite <- ?app_assoc; reflexivity|rewrite ?app_length; lia|lia].
  rewrite (R (p1++p2) p3 (p4 ++ p5 ++ p6 ++ p7 ++ p8 ++ p9 ++ p10 ++ p11 ++ p12 ++ p13 ++ p14 ++ tail)); cbn [rbind];
    [|rewrite <- ?app_assoc; reflexivity|rewrite ?app_length; lia|lia].
  rewrite (R (p1++p2++p3) p4 (p5 ++ p6 ++ p7 ++ p8 ++ p9 ++ p10 ++ p11 ++ p12 ++ p13 ++ p14 ++ tail)); cbn [rbind];
    [|rewrite <- ?app_assoc; reflexivity|rewrite ?app_length; lia|lia].
  rewrite (R (p1++p2++p3++p4) p5 (p6 ++ p7 ++ p8 ++ p9 ++ p10 ++ p11 ++ p12 ++ p13 ++ p14 ++ tail)); cbn [rbind];
    [|rewrite <- ?app_assoc; reflexivity|rewrite ?app_length; lia|lia].
  rewrite (R (p1++p2++p3++p4++p5) p6 (p7 ++ p8 ++ p9 ++ p10 ++ p11 ++ p12 ++ p13 ++ p14 ++ tail)); cbn [rbind];
    [|rewrite <- ?app_assoc; reflexivity|rewrite ?app_length; lia|lia].
  rewrite (R (p1++p2++p3++p4++p5++p6) p7 (p8 ++ p9 ++ p10 ++ p11 ++ p12 ++ p13 ++ p14 ++ tail)); cbn [rbind];
    [|rewrite <- ?app_assoc; reflexivity|rewrite ?app_length; lia|lia].
  rewrite (R (p1++p2++p3++p4++p5++p6++p7) p8 (p9 ++ p10 ++ p11 ++ p12 ++ p13 ++ p14 ++ tail)); cbn [rbind];
    [|rewrite <- ?app_assoc; reflexivity|rewrite ?app_length; lia|lia].
  rewrite (R (p1++p2++p3++p4++p5++p6++p7++p8) p9 (p10 ++ p11 ++ p12 ++ p13 ++ p14 ++ tail)); cbn [rbind];
    [|rewrite <- ?app_assoc; reflexivity|rewrite ?app_length; lia|lia].
  rewrite (R (p1++p2++p3++p4++p5++p6++p7++p8++p9) p10 (p11 ++ p12 ++ p13 ++ p14 ++ tail)); cbn [rbind];
    [|rewrite <- ?app_assoc; reflexivity|rewrite ?app_length; lia|lia].
  rewrite (R (p1++p2++p3++p4++p5++p6++p7++p8++p9++p10) p11 (p12 ++ p13 ++ p14 ++ tail)); cbn [rbind];
    [|rewrite <- ?app_assoc; reflexivity|rewrite ?app_length; lia|lia].
  rewrite (R (p1++p2++p3++p4++p5++p6++p7++p8++p9++p10++p11) p12 (p13 ++ p14 ++ tail)); cbn [rbind];
    [|rewrite <- ?app_assoc; reflexivity|rewrite ?app_length; lia|lia].
  rewrite (R (p1++p2++p3++p4++p5++p6++p7++p8++p9++p10++p11++p12) p13 (p14 ++ tail)); cbn [rbind];
    [|rewrite <- ?app_assoc; reflexivity|rewrite ?app_length; lia|lia].
  rewrite (R (p1++p2++p3++p4++p5++p6++p7++p8++p9++p10++p11++p12++p13) p14 tail); cbn [rbind];
    [|rewrite <- ?app_assoc; reflexivity|rewrite ?app_length; lia|lia].
  clear R. fold data in Hlen |- *. rewrite Hlen.
  replace (N.of_nat (95 + length tail) <? N.of_nat (0 + 8 + 1 + 8 + 8 + 8 + 8 + 2 + 8 + 8 + 8 + 8 + 8 + 8 + 4) + le_value p14)%N
    with (N.of_nat (length tail) <? le_value p14)%N.
  2:{ destruct (N.ltb_spec (N.of_nat (length tail)) (le_value p14));
      destruct (N.ltb_spec (N.of_nat (95 + length tail)) (N.of_nat (0 + 8 + 1 + 8 + 8 + 8 + 8 + 2 + 8 + 8 + 8 + 8 + 8 + 8 + 4) + le_value p14));
      lia || reflexivity. }
  destruct (N.ltb_spec (N.of_nat (length tail)) (le_value p14)) as [Hs|Hs].
  - reflexivity.
  - set (L := le_value p14) in *.
    rewrite slice_ok by lia. cbn [rbind]. unfold built. do 3 f_equal.
    replace (N.to_nat (N.of_nat (0 + 8 + 1 + 8 + 8 + 8 + 8 + 2 + 8 + 8 + 8 + 8 + 8 + 8 + 4) + L - N.of_nat (0 + 8 + 1 + 8 + 8 + 8 + 8 + 2 + 8 + 8 + 8 + 8 + 8 + 8 + 4)))
      with (N.to_nat L) by lia.
    f_equal.
    assert (E : data = (p1 ++ p2 ++ p3 ++ p4 ++ p5 ++ p6 ++ p7 ++ p8 ++ p9 ++ p10 ++ p11 ++ p12 ++ p13 ++ p14) ++ tail).
    { unfold data. rewrite <- !app_assoc. reflexivity. }
    rewrite E, skipn_app, skipn_all2 by (rewrite !app_length; lia).
    cbn [app]. match goal with |- skipn ?n tail = tail => replace n with 0 end; [reflexivity|].
    rewrite !app_length. lia.
Qed.

Lemma decompose (d : bytes) :
  95 <= length d ->
  exists p1 p2 p3 p4 p5 p6 p7 p8 p9 p10 p11 p12 p13 p14 tail,
    d = p1 ++ p2 ++ p3 ++ p4 ++ p5 ++ p6 ++ p7 ++ p8 ++ p9 ++ p10 ++ p11 ++ p12 ++ p13 ++ p14 ++ tail /\
    (length p1 = 8 /\ length p2 = 1 /\ length p3 = 8 /\ length p4 = 8 /\ length p5 = 8 /\ length p6 = 8 /\
     length p7 = 2) /\ (length p8 = 8 /\ length p9 = 8 /\ length p10 = 8 /\ length p11 = 8 /\ length p12 = 8 /\
     length p13 = 8 /\ length p14 = 4).
Proof.
  intros H.
  destruct (split_at d 8) as (p1 & d1 & -> & L1); [lia|]. rewrite app_length in H.
  destruct (split_at d1 1) as (p2 & d2 & -> & L2); [lia|]. rewrite app_length in H.
  destruct (split_at d2 8) as (p3 & d3 & -> & L3); [lia|]. rewrite app_length in H.
  destruct (split_at d3 8) as (p4 & d4 & -> & L4); [lia|]. rewrite app_length in H.
  destruct (split_at d4 8) as (p5 & d5 & -> & L5); [lia|]. rewrite app_length in H.
  destruct (split_at d5 8) as (p6 & d6 & -> & L6); [lia|]. rewrite app_length in H.
  destruct (split_at d6 2) as (p7 & d7 & -> & L7); [lia|]. rewrite app_length in H.
  destruct (split_at d7 8) as (p8 & d8 & -> & L8); [lia|]. rewrite app_length in H.
  destruct (split_at d8 8) as (p9 & d9 & -> & L9); [lia|]. rewrite app_length in H.
  destruct (split_at d9 8) as (p10 & d10 & -> & L10); [lia|]. rewrite app_length in H.
  destruct (split_at d10 8) as (p11 & d11 & -> & L11); [lia|]. rewrite app_length in H.
  destruct (split_at d11 8) as (p12 & d12 & -> & L12); [lia|]. rewrite app_length in H.
  destruct (split_at d12 8) as (p13 & d13 & -> & L13); [lia|]. rewrite app_length in H.
  destruct (split_at d13 4) as (p14 & d14 & -> & L14); [lia|].
  exists p1, p2, p3, p4, p5, p6, p7, p8, p9, p10, p11, p12, p13, p14, d14. tauto.
Qed.

Lemma announced_pieces p1 p2 p3 p4 p5 p6 p7 p8 p9 p10 p11 p12 p13 p14 tail :
  length p1 = 8 -> length p2 = 1 -> length p3 = 8 -> length p4 = 8 -> length p5 = 8 -> length p6 = 8 ->
  length p7 = 2 -> length p8 = 8 -> length p9 = 8 -> length p10 = 8 -> length p11 = 8 -> length p12 = 8 ->
  length p13 = 8 -> length p14 = 4 ->
  announced (p1 ++ p2 ++ p3 ++ p4 ++ p5 ++ p6 ++ p7 ++ p8 ++ p9 ++ p10 ++ p11 ++ p12 ++ p13 ++ p14 ++ tail) = le_value p14.
Proof.
  intros L1 L2 L3 L4 L5 L6 L7 L8 L9 L10 L11 L12 L13 L14.
  set (pre := p1 ++ p2 ++ p3 ++ p4 ++ p5 ++ p6 ++ p7 ++ p8 ++ p9 ++ p10 ++ p11 ++ p12 ++ p13).
  assert (Lp : length pre = 91) by (unfold pre; rewrite !app_length; lia).
  replace (p1 ++ _) with (pre ++ p14 ++ tail) by (unfold pre; rewrite <- !app_assoc; reflexivity).
  destruct p14 as [|a [|b [|c [|d [|]]]]]; try discriminate.
  unfold announced.
  rewrite !(app_nth2 pre) by (rewrite Lp; lia). rewrite Lp. cbn [Nat.sub nth app le_value]. lia.
Qed.

Lemma header_lt (d : bytes) : (announced d < 2 ^ 32)%N.
Proof.
  unfold announced. pose proof (bn_lt (nth 91 d x00)). pose proof (bn_lt (nth 92 d x00)).
  pose proof (bn_lt (nth 93 d x00)). pose proof (bn_lt (nth 94 d x00)).
  change (2 ^ 32)%N with 4294967296%N. lia.
Qed.

Lemma i64_u64 n : (n < 18446744073709551616)%N -> u64_of_i64 (i64_of_u64 n) = n.
Proof. unfold u64_of_i64, i64_of_u64, wrap64. intros. lia. Qed.
Lemma u64_i64 z : (- 9223372036854775808 <= z < 9223372036854775808)%Z -> i64_of_u64 (u64_of_i64 z) = z.
Proof. unfold u64_of_i64, i64_of_u64, wrap64. intros. lia. Qed.

Ltac wf_nums := change (2 ^ 64)%N with 18446744073709551616%N in *; change (2 ^ 32)%N with 4294967296%N in *;
  change (2 ^ 16)%N with 65536%N in *; change (2 ^ 8)%N with 256%N in *; change (2 ^ 63)%Z with 9223372036854775808%Z in *.

Lemma le8 n : (n < 2 ^ 64)%N -> le_value (le_bytes 8 n) = n.
Proof. intros. apply le_value_bytes. exact H. Qed.

Lemma unmarshal_wire r0 r tail :
  entry_wf r -> unmarshal r0 (wire r ++ tail) = Ok (r, UNil).
Proof.
  intros ((W1 & W2 & W3 & W4 & W5 & W6 & W7 & W8 & W9 & W10 & W11 & W12 & WL) & WT).
  unfold wire, header. rewrite <- !app_assoc.
  rewrite unmarshal_pieces by (apply le_bytes_length).
  assert (EL : le_value (le_bytes 4 (N.of_nat (length (e_data r)))) = N.of_nat (length (e_data r)))
    by (apply le_value_bytes; exact WL).
  rewrite EL. rewrite app_length.
  destruct (N.ltb_spec (N.of_nat (length (e_data r) + length tail)) (N.of_nat (length (e_data r)))); [lia|].
  rewrite Nat2N.id, firstn_app, Nat.sub_diag, firstn_all, firstn_O, app_nil_r.
  unfold built. destruct r as [a1 a2 a3 a4 a5 a6 a7 a8 a9 a10 a11 ad a12 at_]; cbn [e_bits e_clientType e_clientName e_clientVersion e_engineName
    e_engineVersion e_deviceType e_brandName e_modelName e_osName e_osVersion e_data e_hkey e_timestamp] in *.
  rewrite !le8 by assumption.
  rewrite !le_value_bytes by assumption.
  do 3 f_equal.
  rewrite le8.
  - apply u64_i64. wf_nums. lia.
  - wf_nums. unfold u64_of_i64. lia.
Qed.

Lemma le_value_lt8 p : length p = 8 -> (le_value p < 2 ^ 64)%N.
Proof. intros H. pose proof (le_value_bound p). rewrite H in *. exact H0. Qed.

(** Everything about Unmarshal of an arbitrary input. *)
Lemma unmarshal_total r data :
  exists r' err, unmarshal r data = Ok (r', err) /\
    (err = UNil <-> 95 <= length data /\ (95 + announced data <= N.of_nat (length data))%N) /\
    (err = UUnexpectedEOF -> e_data r' = e_data r) /\
    (err = UNil ->
       wire r' = firstn (N.to_nat (95 + announced data)) data /\
       size r' = N.to_nat (95 + announced data) /\ entry_wf r' /\
       forall r2 tail, unmarshal r2 (firstn (N.to_nat (95 + announced data)) data ++ tail) = Ok (r', UNil)).
Proof.
  destruct (Nat.ltb_spec (length data) 95) as [Hs|Hs].
  - exists r, UUnexpectedEOF. unfold unmarshal. rewrite minsz_95.
    apply Nat.ltb_lt in Hs as Hb. rewrite Hb. split; [reflexivity|].
    split; [split; [congruence|]; intros [? _]; lia|]. split; [reflexivity|congruence].
  - destruct (decompose data Hs) as
      (p1 & p2 & p3 & p4 & p5 & p6 & p7 & p8 & p9 & p10 & p11 & p12 & p13 & p14 & tail & E &
       (L1 & L2 & L3 & L4 & L5 & L6 & L7) & (L8 & L9 & L10 & L11 & L12 & L13 & L14)).
    pose proof (unmarshal_pieces r p1 p2 p3 p4 p5 p6 p7 p8 p9 p10 p11 p12 p13 p14 tail
                  L1 L2 L3 L4 L5 L6 L7 L8 L9 L10 L11 L12 L13 L14) as U.
    pose proof (announced_pieces p1 p2 p3 p4 p5 p6 p7 p8 p9 p10 p11 p12 p13 p14 tail
                  L1 L2 L3 L4 L5 L6 L7 L8 L9 L10 L11 L12 L13 L14) as A.
    pose proof (header_lt data) as Hlt.
    rewrite <- E in U, A. rewrite A in *.
    assert (Len : length data = 95 + length tail) by (rewrite E, !app_length; lia).
    destruct (N.ltb_spec (N.of_nat (length tail)) (le_value p14)) as [Hc|Hc].
    + eexists _, UUnexpectedEOF. split; [exact U|].
      split; [split; [congruence|]; intros [_ ?]; lia|]. split; [reflexivity|congruence].
    + set (d := firstn (N.to_nat (le_value p14)) tail) in *.
      set (r' := built p1 p2 p3 p4 p5 p6 p7 p8 p9 p10 p11 p12 p13 d) in *.
      assert (Ld : length d = N.to_nat (le_value p14)) by (unfold d; rewrite firstn_length; lia).
      assert (Wf : entry_wf r').
      { unfold entry_wf, r', built. cbn [e_bits e_clientType e_clientName e_clientVersion e_engineName
          e_engineVersion e_deviceType e_brandName e_modelName e_osName e_osVersion e_data e_hkey e_timestamp].
        pose proof (le_value_bound p2) as B2. rewrite L2 in B2.
        pose proof (le_value_bound p7) as B7. rewrite L7 in B7.
        split.
        - repeat split; try (apply le_value_lt8; assumption); try assumption.
          rewrite Ld, N2Nat.id. exact Hlt.
        - unfold i64_of_u64, wrap64. wf_nums. lia. }
      assert (W : wire r' = firstn (N.to_nat (95 + le_value p14)) data).
      { unfold wire, header, r', built. cbn [e_bits e_clientType e_clientName e_clientVersion e_engineName
          e_engineVersion e_deviceType e_brandName e_modelName e_osName e_osVersion e_data e_hkey e_timestamp].
        rewrite i64_u64 by (pose proof (le_value_lt8 p13 L13); wf_nums; lia).
        rewrite Ld, N2Nat.id.
        assert (K : forall k p, length p = k -> le_bytes k (le_value p) = p)
          by (intros k p <-; apply le_bytes_value).
        rewrite (K 8 p1), (K 1 p2), (K 8 p3), (K 8 p4), (K 8 p5), (K 8 p6), (K 2 p7), (K 8 p8), (K 8 p9),
          (K 8 p10), (K 8 p11), (K 8 p12), (K 8 p13), (K 4 p14) by assumption.
        rewrite E. unfold d.
        replace (p1 ++ p2 ++ p3 ++ p4 ++ p5 ++ p6 ++ p7 ++ p8 ++ p9 ++ p10 ++ p11 ++ p12 ++ p13 ++ p14 ++ tail)
          with ((p1 ++ p2 ++ p3 ++ p4 ++ p5 ++ p6 ++ p7 ++ p8 ++ p9 ++ p10 ++ p11 ++ p12 ++ p13 ++ p14) ++ tail)
          by (rewrite <- !app_assoc; reflexivity).
        rewrite firstn_app. f_equal.
        - rewrite firstn_all2; [reflexivity|]. rewrite !app_length. lia.
        - f_equal. rewrite !app_length. lia. }
      exists r', UNil. split; [exact U|].
      split; [split; [intros _; lia|reflexivity]|]. split; [congruence|].
      intros _. split; [exact W|].
      split; [unfold size; rewrite minsz_95; change (e_data r') with d; rewrite Ld; lia|].
      split; [exact Wf|].
      intros r2 tl. rewrite <- W. apply unmarshal_wire. exact Wf.
Qed.

Lemma marshal_short r buf : length buf < size r -> marshal_to r buf = (buf, 0, MShortBuffer).
Proof. intros H. unfold marshal_to. apply Nat.ltb_lt in H. rewrite H. reflexivity. Qed.

Lemma announced_wire r tail : entry_wf r -> announced (wire r ++ tail) = N.of_nat (length (e_data r)).
Proof.
  intros (W & _). unfold wire, header. rewrite <- !app_assoc.
  rewrite announced_pieces by apply le_bytes_length.
  apply le_value_bytes. tauto.
Qed.

Lemma announced_firstn n d : 95 <= n -> announced (firstn n d) = announced d.
Proof.
  intros H. unfold announced.
  assert (K : forall i, i < n -> nth i (firstn n d) x00 = nth i d x00).
  { clear H. revert d; induction n as [|n IH]; intros d i Hi; [lia|].
    destruct d as [|x d]; [reflexivity|]. destruct i as [|i]; [reflexivity|]. cbn. apply IH. lia. }
  rewrite !K by lia. reflexivity.
Qed.

Lemma truncated_rejected r r0 n :
  entry_wf r -> n < size r ->
  exists r', unmarshal r0 (firstn n (wire r)) = Ok (r', UUnexpectedEOF) /\ e_data r' = e_data r0.
Proof.
  intros W H.
  destruct (unmarshal_total r0 (firstn n (wire r))) as (r' & err & U & Hn & He & _).
  exists r'. destruct err.
  - exfalso. destruct (proj1 Hn eq_refl) as [H1 H2].
    rewrite firstn_length in H1.
    rewrite announced_firstn in H2 by lia.
    rewrite <- (app_nil_r (wire r)) in H2 at 1.
    rewrite announced_wire in H2 by exact W.
    rewrite firstn_length in H2. unfold size in H. rewrite minsz_95 in H. lia.
  - split; [exact U|]. apply He. reflexivity.
Qed.

Lemma round_trip r r0 buf :
  entry_wf r -> size r <= length buf ->
  exists buf', marshal_to r buf = (buf', size r, MNil) /\
               unmarshal r0 buf' = Ok (r, UNil) /\ unmarshal r0 (firstn (size r) buf') = Ok (r, UNil).
Proof.
  intros W H. eexists. split; [apply marshal_to_spec; exact H|].
  split; [apply unmarshal_wire; exact W|].
  rewrite <- wire_length, firstn_app, firstn_all, Nat.sub_diag, firstn_O, app_nil_r.
  rewrite <- (app_nil_r (wire r)). apply unmarshal_wire. exact W.
Qed.

Lemma truncated_marshal_rejected r r0 buf buf' n k err :
  entry_wf r -> marshal_to r buf = (buf', n, err) -> err = MNil -> k < n ->
  exists r', unmarshal r0 (firstn k buf') = Ok (r', UUnexpectedEOF) /\ e_data r' = e_data r0.
Proof.
  intros W M E K.
  destruct (Nat.ltb_spec (length buf) (size r)) as [Hs|Hs].
  - rewrite (marshal_short r buf Hs) in M. congruence.
  - rewrite (marshal_to_spec r buf Hs) in M.
    assert (E1 : buf' = wire r ++ skipn (size r) buf) by congruence.
    assert (E2 : n = size r) by congruence. subst buf' n.
    rewrite firstn_app. replace (k - length (wire r)) with 0 by (rewrite wire_length; lia).
    rewrite firstn_O, app_nil_r. exact (truncated_rejected r r0 k W K).
Qed.

Lemma unmarshal_total_marshal receiver data :
  exists r err, unmarshal receiver data = Ok (r, err) /\
    (err = UNil <-> 95 <= length data /\ (95 + announced data <= N.of_nat (length data))%N) /\
    (err = UUnexpectedEOF -> e_data r = e_data receiver) /\
    (err = UNil ->
       let used := firstn (N.to_nat (95 + announced data)) data in
       (forall buf, length used <= length buf ->
          marshal_to r buf = (used ++ skipn (length used) buf, length used, MNil)) /\
       (forall receiver2 tail, unmarshal receiver2 (used ++ tail) = Ok (r, UNil))).
Proof.
  destruct (unmarshal_total receiver data) as (r & err & U & H1 & H2 & H3).
  exists r, err. split; [exact U|]. split; [exact H1|]. split; [exact H2|].
  intros E. destruct (H3 E) as (W & S & _ & K). split; [|exact K].
  intros buf. rewrite <- W, wire_length. exact (marshal_to_spec r buf).
Qed.

(** Properties C01-C04: the cache-entry codec. *)
From Verif Require Import Model_Base Model_CacheEntry Spec_CacheEntry Spec_Layout Proof_CacheEntry Proof_Layout.

(** A non-trivial entry, used to show the hypotheses below are satisfiable. *)
Definition sample_entry : entry :=
  mkEntry 14 2 4294967301 47244640298 5 6 300 7 8 9 18446744073709551615 (bs "Mozilla/5.0") 12345 (-17).

(** C01 *)
Theorem C01_round_trip : forall (r receiver : entry) (buf : bytes),
  entry_wf r -> size r <= length buf ->
  exists buf', marshal_to r buf = (buf', size r, MNil) /\
               unmarshal receiver buf' = Ok (r, UNil) /\
               unmarshal receiver (firstn (size r) buf') = Ok (r, UNil).
Proof. intros r r0 buf. exact (round_trip r r0 buf). Qed.
Print Assumptions C01_round_trip.

Example C01_nonvacuous : entry_wf sample_entry /\ size sample_entry <= length (repeat xff 200).
Proof. split; [repeat split; vm_compute; congruence | apply Nat.leb_le; reflexivity]. Qed.

(** C02: the short-buffer case is exactly [length buf < 95 + length Data]; otherwise the first [Size()] bytes are
    a word determined by the entry alone and the rest of the buffer is untouched. *)
Theorem C02_marshal_exact : forall r : entry,
  size r = 95 + length (e_data r) /\
  (forall buf, length buf < size r -> marshal_to r buf = (buf, 0, MShortBuffer)) /\
  exists w, length w = size r /\
    forall buf, size r <= length buf -> marshal_to r buf = (w ++ skipn (size r) buf, size r, MNil).
Proof.
  intros r. exact (conj eq_refl (conj (marshal_short r)
    (ex_intro _ (wire r) (conj (wire_length r) (marshal_to_spec r))))).
Qed.
Print Assumptions C02_marshal_exact.

(** C02, the format: every number stands at its place, little-endian, and the data follow. *)
Theorem C02_layout : forall r buf b n, marshal_to r buf = (b, n, MNil) ->
  Forall (stores b) (layout r) /\ firstn (length (e_data r)) (skipn 95 b) = e_data r.
Proof. exact layout_ok. Qed.
Print Assumptions C02_layout.

Example C02_case : (let '(b, n, e) := marshal_to sample_entry (repeat xff 110) in
  (n, e, skipn 106 b, firstn 11 (skipn 95 b))) = (106, MNil, [xff; xff; xff; xff], bs "Mozilla/5.0").
Proof. vm_compute. reflexivity. Qed.

(** C03 *)
Theorem C03_unmarshal_total : forall (receiver : entry) (data : bytes),
  exists r err, unmarshal receiver data = Ok (r, err) /\
    (err = UNil <-> 95 <= length data /\ (95 + announced data <= N.of_nat (length data))%N) /\
    (err = UUnexpectedEOF -> e_data r = e_data receiver) /\
    (err = UNil ->
       let used := firstn (N.to_nat (95 + announced data)) data in
       (forall buf, length used <= length buf ->
          marshal_to r buf = (used ++ skipn (length used) buf, length used, MNil)) /\
       (forall receiver2 tail, unmarshal receiver2 (used ++ tail) = Ok (r, UNil))).
Proof. exact unmarshal_total_marshal. Qed.
Print Assumptions C03_unmarshal_total.

Example C03_both_outcomes :
  (exists r, unmarshal entry_zero (repeat x00 95) = Ok (r, UNil)) /\
  (exists r, unmarshal entry_zero (repeat x01 1000) = Ok (r, UUnexpectedEOF)).
Proof. split; eexists; vm_compute; reflexivity. Qed.

(** C04 *)
Theorem C04_truncation_rejected : forall (r receiver : entry) (buf buf' : bytes) (n k : nat) err,
  entry_wf r -> marshal_to r buf = (buf', n, err) -> err = MNil -> k < n ->
  exists r', unmarshal receiver (firstn k buf') = Ok (r', UUnexpectedEOF) /\ e_data r' = e_data receiver.
Proof. exact truncated_marshal_rejected. Qed.
Print Assumptions C04_truncation_rejected.

Example C04_case :
  (let '(b, n, _) := marshal_to sample_entry (repeat xff 110) in
   match unmarshal entry_zero (firstn (n - 1) b) with Ok (_, e) => Some e | Panic => None end) = Some UUnexpectedEOF.
Proof. vm_compute. reflexivity. Qed.

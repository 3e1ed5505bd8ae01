(** Properties C42-C45: the building blocks of the table compiler cmd/uaxplc. *)
From Verif Require Import Model_Base Model_Ctx Model_Parse Model_Compiler Spec_Select Spec_Compiler Proof_Base Proof_Compiler.
From Coq Require Import Permutation.

(** C42: after any sequence of [add]s of less than 4 GiB in all, every range returned denotes the string passed, equal
    strings have equal ranges, and each different string is stored once, in order of first use. *)
Theorem C42_interning : forall ss es b, compile_entries buf_add ss buf_empty = (es, b) -> (total ss < two32)%N ->
  length es = length ss /\
  (forall i s e, nth_error ss i = Some s -> nth_error es i = Some e -> slice64 (b_buf b) e = Ok s) /\
  (forall i j s, nth_error ss i = Some s -> nth_error ss j = Some s -> nth_error es i = nth_error es j) /\
  b_buf b = concat (firsts [] ss).
Proof. exact interning. Qed.
Print Assumptions C42_interning.
Example C42_case : let r := compile_entries buf_add [bs "Blink"; bs "Gecko"; bs "Blink"; bs ""] buf_empty in
  b_buf (snd r) = bs "BlinkGecko" /\ fst r = [5; 21474836490; 5; 42949672970]%N /\
  (total [bs "Blink"; bs "Gecko"; bs "Blink"; bs ""] < two32)%N.
Proof. vm_compute. auto. Qed.
(** The unbounded claim is false: the bounds of a range are 32-bit numbers. *)
Theorem C42_unbounded_refuted : exists s, slice64 (b_buf (snd (buf_add s buf_empty))) (fst (buf_add s buf_empty)) <> Ok s.
Proof. exact interning_wraps. Qed.
Print Assumptions C42_unbounded_refuted.

(** C43: the normalisation ends without panic on every pattern (in the model, [None] is an endless loop), and never
    lengthens it. *)
Theorem C43_terminates : forall s, exists r, normalize s = Some (Ok r) /\ (length r <= length s)%nat.
Proof. exact normalize_total. Qed.
Print Assumptions C43_terminates.
(** Where only the look-ahead detector matches, no opener of a negative look-ahead is left. *)
Theorem C43_lookahead : forall s r, normalize s = Some (Ok r) ->
  ~ seen_by (bs "(?<!") s -> ~ seen_by (bs "(?!.*") s -> seen_by (bs "(?!") s -> ~ within (bs "(?!") r.
Proof. exact normalize_lookahead. Qed.
Print Assumptions C43_lookahead.
(** Patterns without look-arounds and empty alternatives are left as they are. *)
Theorem C43_plain : forall s,
  ~ within (bs "(?<!") s -> ~ within (bs "(?!") s -> ~ within (bs ")||(") s -> normalize s = Some (Ok s).
Proof. exact normalize_plain. Qed.
Print Assumptions C43_plain.
(** The full claim is false: removing a look-ahead can put a look-behind together again, ... *)
Theorem C43_lookbehind_refuted : exists s r,
  seen_by (bs "(?<!") s /\ normalize s = Some (Ok r) /\ seen_by (bs "(?<!") r.
Proof. exact normalize_recreates. Qed.
Print Assumptions C43_lookbehind_refuted.
(** ... and removing a look-behind can leave a look-ahead whose end the detector of the next step does not see. *)
Theorem C43_lookahead_refuted : exists s r,
  seen_by (bs "(?!") s /\ normalize s = Some (Ok r) /\ within (bs "(?!") r.
Proof. exact normalize_leaves. Qed.
Print Assumptions C43_lookahead_refuted.
Example C43_case :
  normalize (bs "Foo(?!Bar(?:x|y))/(\d+)") = Some (Ok (bs "Foo/(\d+)")) /\
  normalize (bs "(?<!Like )Gecko") = Some (Ok (bs "Gecko")) /\
  normalize (bs "(a)||(b)") = Some (Ok (bs "(a)|(b)")) /\
  (* a bracket in a character class is counted like any other: only the two bytes [(?] are removed *)
  normalize (bs "Foo(?!Bar[(])") = Some (Ok (bs "Foo!Bar[(])")).
Proof. vm_compute. auto. Qed.

(** C44: the literals written for table entries denote the values, ... *)
Theorem C44_uint64 : forall n, (n < two64)%N -> literal (hex_u64 n) = Some (Z.of_N n).
Proof. exact hex_u64_literal. Qed.
Print Assumptions C44_uint64.
Theorem C44_int32 : forall i, (-2147483648 < i <= 2147483647)%Z -> literal (hex_i32 i) = Some i.
Proof. exact hex_i32_literal. Qed.
Print Assumptions C44_int32.
Theorem C44_int8 : forall i, (-128 < i <= 127)%Z -> literal (hex_i8 i) = Some i.
Proof. exact hex_i8_literal. Qed.
Print Assumptions C44_int8.
(** ... also the elements of the byte table, ... *)
Theorem C44_bytes : forall l, map literal (elements (emit_bytes 0 l) []) = map (fun b => Some (Z.of_N (bn b))) l.
Proof. exact emitted_bytes. Qed.
Print Assumptions C44_bytes.
(** ... but not for the least value of the signed types, whose negation is itself. *)
Theorem C44_minimum_refuted : literal (hex_i8 (-128)) = None /\ literal (hex_i32 (-2147483648)) = None.
Proof. exact hex_minimum. Qed.
Print Assumptions C44_minimum_refuted.
Example C44_case : hex_i8 (-1) = bs "-0x1" /\ hex_i32 300 = bs "0x012c" /\ hex_u64 21474836490 = bs "0x50000000a" /\
  hex_i8 (-128) = bs "-0x-80" /\ emit_bytes 0 (bs "A1") = bs "0x41, 0x31, " /\
  literal (bs "-0x1") = Some (-1)%Z /\ literal (bs "0x012C") = Some 300%Z /\ literal (bs "12") = None.
Proof. vm_compute. auto 10. Qed.

(** C45: the generated function returns the engine of the first threshold in text order that is not above its argument,
    else the default. *)
Theorem C45_generated : forall ss b e s w f b', filled ss b -> NoDup (map fst (ye_versions e)) ->
  ef e (fst (buf_add (ye_default e) b)) (snd (buf_add (ye_default e) b)) = (f, b') ->
  (N.of_nat (length (b_buf b')) < two32)%N ->
  first_engine (ye_versions e) (ye_default e) s w -> slice64 (b_buf b') (ef_apply f s) = Ok w.
Proof. exact engine_generated. Qed.
Print Assumptions C45_generated.
(** As the thresholds are tried in ascending order, only the smallest one is ever used. *)
Theorem C45_only_smallest : forall m def s w k, NoDup (map fst m) -> smallest k m ->
  (first_engine m def s w <-> (text_le k s /\ In (k, w) m) \/ (~ text_le k s /\ w = def)).
Proof. exact engine_smallest. Qed.
Print Assumptions C45_only_smallest.
(** The order in which Go walks the map does not matter. *)
Theorem C45_map_order : forall d m m' def b,
  NoDup (map fst m) -> Permutation m m' -> ef (mkYE d m) def b = ef (mkYE d m') def b.
Proof. exact engine_order. Qed.
Print Assumptions C45_map_order.
(** Presto from 7, WebKit from 15, Blink from 28: only "15", the smallest text, counts; 9 and 30 both get WebKit. *)
Example C45_case :
  let e := mkYE (bs "Blink") [(bs "7", bs "Presto"); (bs "15", bs "WebKit"); (bs "28", bs "Blink")] in
  let '(d, b1) := buf_add (ye_default e) buf_empty in
  let '(f, b2) := ef e d b1 in
  filled [] buf_empty /\
  slice64 (b_buf b2) (ef_apply f (bs "9")) = Ok (bs "WebKit") /\
  slice64 (b_buf b2) (ef_apply f (bs "30")) = Ok (bs "WebKit") /\
  slice64 (b_buf b2) (ef_apply f (bs "10")) = Ok (bs "Blink") /\
  first_engine (ye_versions e) (ye_default e) (bs "30") (bs "WebKit") /\ smallest (bs "15") (ye_versions e).
Proof. exact engine_case. Qed.

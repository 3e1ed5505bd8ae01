(** Property C73: batch mode reports what the library says about each row by itself. *)
From Verif Require Import Model_Base Model_Version Model_Ctx Model_Parse Model_Compiler Model_Built Data_Tiny Model_Cli Model_Batch
  Spec_Getters Spec_Cli Spec_Batch Proof_Batch.
From Coq Require Import Permutation.
Open Scope nat_scope.

(** C73: rows about different user agents, analysed by any number of workers over one cache and one pool, in any schedule
    (cleaning passes and dropped contexts included): when the program has ended normally, every row has been counted, and
    the file holds, in some order and each in one piece, the reports of the rows for the answers the library gives for
    their user agents alone. *)
Theorem C73_report : forall T lower threads rows s, 0 < threads -> all_different rows ->
  (forall r, In r rows -> detects T ClientTypeAll DeviceTypeAll (r_ua r) /\ small_row T (r_ua r)) ->
  batch_run T lower threads (batch_start threads rows) s -> batch_finished s ->
  b_count s = length rows /\
  exists ds, Permutation (map (fun d => fst (fst d)) ds) rows /\
    Forall (fun d => answered (library T (r_ua (fst (fst d)))) (snd (fst d)) /\ block lower (fst (fst d)) (snd (fst d)) (snd d)) ds /\
    concat (b_out s) = concat (map snd ds).
Proof. exact batch_report. Qed.
Print Assumptions C73_report.
(** If no question about a row panics, every run can be continued until the program ends normally. *)
Theorem C73_completes : forall T lower threads rows s, 0 < threads -> all_different rows ->
  (forall r, In r rows -> detects T ClientTypeAll DeviceTypeAll (r_ua r) /\ small_row T (r_ua r) /\
     forall g, In g asked_of_row -> library T (r_ua r) g <> Panic) ->
  batch_run T lower threads (batch_start threads rows) s ->
  exists s', batch_run T lower threads s s' /\ batch_finished s'.
Proof. exact batch_completes. Qed.
Print Assumptions C73_completes.
(** One row whose client the library cannot tell without a panic, and no run ends normally. *)
Theorem C73_panic : forall T lower threads rows r, 0 < threads -> all_different rows -> In r rows ->
  library T (r_ua r) GClientType = Panic ->
  forall s, batch_run T lower threads (batch_start threads rows) s -> ~ batch_finished s.
Proof. exact batch_crash. Qed.
Print Assumptions C73_panic.
(** User agents may occur in several rows: then everything reported is right except for the model. *)
Theorem C73_repeated : forall T lower threads rows s, 0 < threads -> collision_free (map r_ua rows) ->
  (forall r, In r rows -> detects T ClientTypeAll DeviceTypeAll (r_ua r)) ->
  batch_run T lower threads (batch_start threads rows) s -> batch_finished s ->
  b_count s = length rows /\
  exists ds, Permutation (map (fun d => fst (fst d)) ds) rows /\
    Forall (fun d => answered_but_model (library T (r_ua (fst (fst d)))) (snd (fst d)) /\ block lower (fst (fst d)) (snd (fst d)) (snd d)) ds /\
    concat (b_out s) = concat (map snd ds).
Proof. exact batch_but_model. Qed.
Print Assumptions C73_repeated.
(** The model need not be: two rows with the same user agent, both wanting what the library answers, and the file is not
    empty. *)
Theorem C73_repeated_refuted : exists T rows s,
  (forall r, In r rows -> detects T ClientTypeAll DeviceTypeAll (r_ua r) /\ small_row T (r_ua r) /\
     exists got, answered (library T (r_ua r)) got /\ block (fun b => b) r got []) /\
  batch_run T (fun b => b) 1 (batch_start 1 rows) s /\ batch_finished s /\ concat (b_out s) <> [].
Proof.
  exact (twice_wrong (built tiny_compiler tiny) batch_ua (bs "Tab X1")
    [bs "browser"; bs "Foo"; bs "29.0"; bs "Blink"; bs "70.2"; bs "tablet"; bs "Beta"; bs "Tab X1"; bs "Debian"; bs "9.1"] 200 ltac:(vm_compute; reflexivity)).
Qed.
Print Assumptions C73_repeated_refuted.
(** Two rows that meet the conditions, a complete run, and its file. *)
Example C73_case : let rows := [wants_model batch_ua (bs "Tab X2"); wants_model batch_other (bs "none")] in
  let s := drive (built tiny_compiler tiny) (fun b => b) 200 (batch_start 1 rows) in
  map (fun r => fnv1 (r_ua r)) rows = [fnv1 batch_ua; fnv1 batch_other] /\ fnv1 batch_ua <> fnv1 batch_other /\
  row_okb (built tiny_compiler tiny) (wants_model batch_ua (bs "Tab X2"))
    [bs "browser"; bs "Foo"; bs "29.0"; bs "Blink"; bs "70.2"; bs "tablet"; bs "Beta"; bs "Tab X1"; bs "Debian"; bs "9.1"] = true /\
  ended s = true /\ concat (b_out s) =
    batch_ua ++ [x0a] ++ bs "* model mismatch: need 'Tab X2' got 'Tab X1'" ++ [x0a; x0a] ++
    batch_other ++ [x0a] ++ bs "* model mismatch: need 'none' got ''" ++ [x0a; x0a].
Proof. cbv zeta. repeat split; try (vm_compute; reflexivity). vm_compute. discriminate. Qed.

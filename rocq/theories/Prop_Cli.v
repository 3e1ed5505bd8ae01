(** Property C46: the batch mode of the command line tool. *)
From Verif Require Import Model_Base Model_Cli Spec_Cli Proof_Cli.
From Coq Require Import Permutation.

(** C46, safety: when the program has ended normally every row has been counted and analysed exactly once, and the file
    holds the reports of the rows, each in one piece, in some order. *)
Theorem C46_every_row_once : forall lower ans threads rows n s, 0 < threads ->
  cli_run lower ans threads n (cli_start threads rows) s -> cli_finished s ->
  cl_count s = length rows /\
  exists ds, Permutation (map (fun d => fst (fst d)) ds) rows /\
    Forall (fun d => ans (fst (fst d)) (Some (snd (fst d))) /\ block lower (fst (fst d)) (snd (fst d)) (snd d)) ds /\
    concat (cl_out s) = concat (map snd ds).
Proof. exact finished_report. Qed.
Print Assumptions C46_every_row_once.

(** C46, termination: with at least one thread, and unless an analysis panics, no schedule takes more than the given
    number of steps, and the program is never stuck before it has ended. *)
Theorem C46_terminates : forall lower ans threads rows, 0 < threads ->
  (forall r, exists got, ans r (Some got)) -> (forall r, ~ ans r None) ->
  forall n s, cli_run lower ans threads n (cli_start threads rows) s ->
  n <= 42 * length rows + threads + 2 /\ (cli_finished s \/ exists s', cli_step lower ans threads s s').
Proof. exact completes. Qed.
Print Assumptions C46_terminates.

Example C46_case : (forall r, exists got, sample_answers r (Some got)) /\ (forall r, ~ sample_answers r None).
Proof. exact sample_total. Qed.
Example C46_run_case : exists n s, cli_run (fun b => b) sample_answers 2 n (cli_start 2 sample_rows) s /\ cli_finished s.
Proof. exact sample_finishes. Qed.
Example C46_block_case :
  block (fun b => b) (mkRow (bs "Ubuntu Firefox/99.0") [bs "browser"; bs "Firefox"; bs "98"; bs ""; bs ""; bs ""; bs ""; bs ""; bs "GNU/Linux"; bs ""])
  [bs "browser"; bs "Firefox"; bs "99.0"; bs ""; bs ""; bs "UNK"; bs "UNK"; bs ""; bs "Ubuntu"; bs ""]
  (bs "Ubuntu Firefox/99.0" ++ [x0a] ++ bs "* browser version mismatch: need '98' got '99.0'" ++ [x0a] ++
   bs "* OS mismatch: need 'GNU/Linux' got 'Ubuntu'" ++ [x0a] ++ [x0a]).
Proof. exact sample_block. Qed.

(** One row whose analysis panics (see C37) and no run ends normally: the whole batch is lost. *)
Theorem C46_panic_loses_batch : forall lower ans threads rows r, 0 < threads -> In r rows -> (forall got, ~ ans r (Some got)) ->
  forall n s, cli_run lower ans threads n (cli_start threads rows) s -> ~ cli_finished s.
Proof. exact crash. Qed.
Print Assumptions C46_panic_loses_batch.

(** The condition on the number of threads is needed: with -threads 0 and at least one row no step is possible. *)
Theorem C46_zero_threads_stuck : forall lower ans rows, rows <> [] ->
  forall n s, cli_run lower ans 0 n (cli_start 0 rows) s ->
  n = 0 /\ s = cli_start 0 rows /\ ~ cli_finished s /\ forall s', ~ cli_step lower ans 0 s s'.
Proof. exact no_workers. Qed.
Print Assumptions C46_zero_threads_stuck.

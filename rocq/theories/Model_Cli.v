(** The batch mode of the command line tool: cmd/uaxpl/main.go:89-189 [passRaw].
    Goroutines are processes, the channel is a queue with a capacity, the mutex a flag; one step is one channel
    operation, one analysis, one mutex operation, one WriteString or one counter increment.
    Simplifications: the rows are given (json.Unmarshal is not modelled); the analysis of a row
    (lines 117-147) is one step whose outcome is any of those allowed by the parameter [ans] ([None]: a panic, which
    ends the whole program); strings.ToLower is the parameter [lower]; progress messages of -verbose are left out; writing to the file
    never fails (the code ignores such errors); fmt.Errorf with %s inserts the text. *)
From Verif Require Import Model_Base.

(** main.go:20-37 [tuple]: the user agent and the ten expected values in the order in which they are compared. *)
Record row := mkRow { r_ua : bytes; r_want : list bytes }.

Section Cli.
Variable lower : bytes -> bytes.
Variable ans : row -> option (list bytes) -> Prop.

(** main.go:222-224. *)
Definition scmp (a b : bytes) : bool := beqs (lower a) (lower b).

(** main.go:119-146: the first words of the ten messages. *)
Definition labels : list bytes :=
  [bs "client type"; bs "browser"; bs "browser version"; bs "engine"; bs "engine version";
   bs "device type"; bs "brand"; bs "model"; bs "OS"; bs "OS version"].
(** main.go:118-147: one message for each expected value that is given and not equal to the answer. *)
Definition message (label want got : bytes) : list bytes :=
  if (0 <? length want) && negb (scmp got want)
  then [label ++ bs " mismatch: need '" ++ want ++ bs "' got '" ++ got ++ bs "'"] else [].
Fixpoint messages (ls ws gs : list bytes) : list bytes :=
  match ls, ws, gs with
  | l :: ls, w :: ws, g :: gs => message l w g ++ messages ls ws gs
  | _, _, _ => []
  end.
Definition errors_of (r : row) (got : list bytes) : list bytes := messages labels (r_want r) got.
(** main.go:150-161: the strings written for a row. *)
Definition nl : bytes := [x0a].
Definition pieces (r : row) (errs : list bytes) : list bytes :=
  r_ua r :: nl :: flat_map (fun e => [bs "* "; e; nl]) errs ++ [nl].

(** Where a worker is (main.go:105-170): waiting for the channel; holding a row; holding messages, before the lock;
    writing, with the strings still to write; after reporting, before the counter; returned. *)
Inductive wstate :=
| WIdle
| WBusy (r : row)
| WReport (r : row) (got : list bytes)
| WWrite (r : row) (got : list bytes) (ps : list bytes)
| WCount (r : row) (got : list bytes)
| WDone.

Record cli := mkCli {
  cl_todo : list row;       (* rows the producer has not sent *)
  cl_closed : bool;         (* close(ch) has run; the producer has returned *)
  cl_chan : list row;       (* contents of the channel *)
  cl_lock : bool;           (* fmux is held *)
  cl_workers : list wstate;
  cl_out : list bytes;      (* strings written to the file *)
  cl_count : nat;           (* c *)
  cl_crashed : bool         (* a goroutine panicked *)
}.

(** main.go:95-103: [threads] workers, channel of capacity threads*8. *)
Definition cli_start (threads : nat) (rows : list row) : cli := mkCli rows false [] false (repeat WIdle threads) [] 0 false.
Definition capacity (threads : nat) : nat := threads * 8.

Inductive cli_step (threads : nat) : cli -> cli -> Prop :=
(** main.go:179 [ch <- stage] *)
| CS_send r t ch lk ws out n : length ch < capacity threads ->
    cli_step threads (mkCli (r :: t) false ch lk ws out n false) (mkCli t false (ch ++ [r]) lk ws out n false)
(** main.go:181 [close(ch)] *)
| CS_close ch lk ws out n :
    cli_step threads (mkCli [] false ch lk ws out n false) (mkCli [] true ch lk ws out n false)
(** main.go:110 [stage, ok := <-ch] with ok *)
| CS_recv t cl r ch lk w1 w2 out n :
    cli_step threads (mkCli t cl (r :: ch) lk (w1 ++ WIdle :: w2) out n false)
                     (mkCli t cl ch lk (w1 ++ WBusy r :: w2) out n false)
(** main.go:111-113: the channel is closed and empty *)
| CS_stop t lk w1 w2 out n :
    cli_step threads (mkCli t true [] lk (w1 ++ WIdle :: w2) out n false)
                     (mkCli t true [] lk (w1 ++ WDone :: w2) out n false)
(** main.go:114-149 *)
| CS_analyse t cl ch lk w1 w2 out n r got : ans r (Some got) ->
    cli_step threads (mkCli t cl ch lk (w1 ++ WBusy r :: w2) out n false)
                     (mkCli t cl ch lk (w1 ++ (match errors_of r got with [] => WCount r got | _ => WReport r got end) :: w2) out n false)
| CS_crash t cl ch lk w1 w2 out n r : ans r None ->
    cli_step threads (mkCli t cl ch lk (w1 ++ WBusy r :: w2) out n false)
                     (mkCli t cl ch lk (w1 ++ WBusy r :: w2) out n true)
(** main.go:151 [fmux.Lock()] *)
| CS_lock t cl ch w1 w2 out n r got :
    cli_step threads (mkCli t cl ch false (w1 ++ WReport r got :: w2) out n false)
                     (mkCli t cl ch true (w1 ++ WWrite r got (pieces r (errors_of r got)) :: w2) out n false)
(** main.go:152-160 [w.WriteString] *)
| CS_write t cl ch lk w1 w2 out n r got p ps :
    cli_step threads (mkCli t cl ch lk (w1 ++ WWrite r got (p :: ps) :: w2) out n false)
                     (mkCli t cl ch lk (w1 ++ WWrite r got ps :: w2) (out ++ [p]) n false)
(** main.go:161 [fmux.Unlock()] *)
| CS_unlock t cl ch w1 w2 out n r got :
    cli_step threads (mkCli t cl ch true (w1 ++ WWrite r got [] :: w2) out n false)
                     (mkCli t cl ch false (w1 ++ WCount r got :: w2) out n false)
(** main.go:164 [atomic.AddUint64(&c, 1)] *)
| CS_count t cl ch lk w1 w2 out n r got :
    cli_step threads (mkCli t cl ch lk (w1 ++ WCount r got :: w2) out n false)
                     (mkCli t cl ch lk (w1 ++ WIdle :: w2) out (S n) false).

(** [n] steps. *)
Inductive cli_run (threads : nat) : nat -> cli -> cli -> Prop :=
| CR_refl s : cli_run threads 0 s s
| CR_step n s1 s2 s3 : cli_run threads n s1 s2 -> cli_step threads s2 s3 -> cli_run threads (S n) s1 s3.

(** main.go:183 [wg.Wait()] returns: producer and workers have returned. *)
Definition cli_finished (s : cli) : Prop :=
  cl_crashed s = false /\ cl_closed s = true /\ Forall (fun w => w = WDone) (cl_workers s).
End Cli.

(** The program [uaxpl] as a whole: which files a run reads and writes (cmd/uaxpl/main.go:39-88 around the modes modelled
    in [Model_Single.v] and [Model_Cli.v]).
    Simplifications: the flags are given by value; two paths name the same file only if they are equal; json.Unmarshal
    is a function; a file that exists can be read; output reaches the file up to the end of the program. *)
From Verif Require Import Model_Base Model_CacheEntry Model_Ctx Model_Parse Model_Single Model_Cli.

(** main.go:39-47. *)
Record options := mkOptions {
  op_ua : bytes; op_file : bytes; op_url : bytes; op_out : bytes; op_threads : Z
}.
(** How the program ends: exit code 0; log.Fatal; a panic, or all goroutines asleep. *)
Inductive verdict := Done | Failed | Crashed.

Section Main.
Variable T : tables.
Variable lower : bytes -> bytes.
Variable ans : row -> option (list bytes) -> Prop.    (* the answers for a row, see [Model_Cli.v] *)
Variable json : bytes -> option (list row).           (* json.Unmarshal *)
Variable net : bytes -> option bytes.                 (* http.Get *)
Variable wr : bool.                                   (* whether the download can be stored *)

(** main.go:90-189 [passRaw] with the contents of the input, the file [out] being open and empty: the text in the file
    in the end. *)
Inductive pass_raw (threads : Z) (contents : bytes) : bytes -> verdict -> Prop :=
| PR_json : json contents = None -> pass_raw threads contents [] Failed
(** main.go:98: make(chan, negative) *)
| PR_negative rows : json contents = Some rows -> (threads < 0)%Z -> pass_raw threads contents [] Crashed
| PR_done rows n s : json contents = Some rows -> (0 <= threads)%Z ->
    cli_run lower ans (Z.to_nat threads) n (cli_start (Z.to_nat threads) rows) s -> cli_finished s ->
    pass_raw threads contents (concat (cl_out s)) Done
| PR_crash rows n s : json contents = Some rows -> (0 <= threads)%Z ->
    cli_run lower ans (Z.to_nat threads) n (cli_start (Z.to_nat threads) rows) s ->
    (cl_crashed s = true \/ (~ cli_finished s /\ forall s', ~ cli_step lower ans (Z.to_nat threads) s s')) ->
    pass_raw threads contents (concat (cl_out s)) Crashed.

(** main.go:191-199 [passFile], 201-220 [passURL]: the input is read after [out] has been truncated. *)
Definition mode_input (o : options) (fs : files) : files * option bytes :=
  match op_file o with
  | _ :: _ => (fs, fs (op_file o))
  | [] => pass_url fs net wr (op_url o)
  end.

(** main.go:49-88; [opens]: whether os.OpenFile succeeds. *)
Inductive uaxpl (o : options) (opens : bool) (fs : files) : files -> verdict -> Prop :=
(** main.go:51-53 *)
| UX_none : op_ua o = [] -> op_file o = [] -> op_url o = [] -> uaxpl o opens fs fs Failed
(** main.go:57-60 *)
| UX_open : op_ua o <> [] \/ op_file o <> [] \/ op_url o <> [] -> opens = false -> uaxpl o opens fs fs Failed
(** main.go:63-76 *)
| UX_single ev out c b : op_ua o <> [] -> opens = true -> single T (op_ua o) ev = (out, c, b) ->
    uaxpl o opens fs (write_file fs (op_out o) out) (if b then Done else Crashed)
(** main.go:77-80 *)
| UX_input fs1 : op_ua o = [] -> op_file o <> [] \/ op_url o <> [] -> opens = true ->
    mode_input o (write_file fs (op_out o) []) = (fs1, None) -> uaxpl o opens fs fs1 Failed
| UX_batch fs1 contents out v : op_ua o = [] -> op_file o <> [] \/ op_url o <> [] -> opens = true ->
    mode_input o (write_file fs (op_out o) []) = (fs1, Some contents) -> pass_raw (op_threads o) contents out v ->
    uaxpl o opens fs (write_file fs1 (op_out o) out) v.
End Main.

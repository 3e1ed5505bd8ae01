(** Batch mode of the command line tool over the library: cmd/uaxpl/main.go:89-189 [passRaw], with the analysis of a row
    (one step in Model_Cli.v) taken apart into the calls of the library: a context from the pool, ten getters, each with
    its calls of the cache shared by all workers, and the release of the context.
    Simplifications: those of Model_Cli.v except the one about the analysis; the ten answers are compared after the last
    getter, not each behind its own (the comparison has no effect on the library, and writes nothing); calls of the
    cache are single steps (justified by C66). *)
From Verif Require Import Model_Base Model_CacheEntry Model_Cache Model_Version Model_Ctx Model_Parse Model_Cli Model_Single Spec_Getters.

(** main.go:117-144: the getters in order. *)
Definition batch_getters : list getter :=
  [GClientType; GBrowser; GBrowserVersionString; GEngine; GEngineVersionString; GDeviceType; GBrand; GModel; GOS; GOSVersionString].
(** main.go:117-144: the texts of the answers, or [None] after a panic; and the context. *)
Fixpoint row_prog (T : tables) (gs : list getter) (c : ctx) : prog (option (list bytes) * ctx) :=
  match gs with
  | [] => Ret (Some [], c)
  | g :: gs' => prog_bind (run_getter T g c) (fun x =>
      match x with
      | (c', Ok v) => prog_bind (row_prog T gs' c') (fun y => Ret (option_map (cons (show g v)) (fst y), snd y))
      | (c', Panic) => Ret (None, c')
      end)
  end.

(** Where a worker is, see [wstate] of Model_Cli.v: [BBusy] has received a row, [BRun] uses a context. *)
Inductive bstate :=
| BIdle
| BBusy (r : row)
| BRun (r : row) (p : prog (option (list bytes) * ctx))
| BReport (r : row) (got : list bytes)
| BWrite (r : row) (got : list bytes) (ps : list bytes)
| BCount (r : row) (got : list bytes)
| BDone.
Record batch := mkBatch {
  b_todo : list row; b_closed : bool; b_chan : list row; b_lock : bool; b_workers : list bstate; b_out : list bytes; b_count : nat; b_crashed : bool;
  b_cache : cstate;         (* the built-in cache *)
  b_pool : pool             (* the pool of contexts *)
}.
(** main.go:95-103; the process has just started: cache and pool are empty. *)
Definition batch_start (threads : nat) (rows : list row) : batch := mkBatch rows false [] false (repeat BIdle threads) [] 0 false cs_empty [].

Section Batch.
Variable T : tables.
Variable lower : bytes -> bytes.

Inductive batch_step (threads : nat) : batch -> batch -> Prop :=
(** main.go:179, 181, 110, 111-113 *)
| BS_send r t ch lk ws out n st pl : length ch < capacity threads ->
    batch_step threads (mkBatch (r :: t) false ch lk ws out n false st pl) (mkBatch t false (ch ++ [r]) lk ws out n false st pl)
| BS_close ch lk ws out n st pl :
    batch_step threads (mkBatch [] false ch lk ws out n false st pl) (mkBatch [] true ch lk ws out n false st pl)
| BS_recv t cl r ch lk w1 w2 out n st pl :
    batch_step threads (mkBatch t cl (r :: ch) lk (w1 ++ BIdle :: w2) out n false st pl)
                       (mkBatch t cl ch lk (w1 ++ BBusy r :: w2) out n false st pl)
| BS_stop t lk w1 w2 out n st pl :
    batch_step threads (mkBatch t true [] lk (w1 ++ BIdle :: w2) out n false st pl)
                       (mkBatch t true [] lk (w1 ++ BDone :: w2) out n false st pl)
(** main.go:116 [uaxpl.AcquireWithSrcStr], alias.go:18-21, pool.go:19-26 *)
| BS_acquire t cl ch lk w1 w2 out n r c st pl pl' : pool_get pl c pl' ->
    batch_step threads (mkBatch t cl ch lk (w1 ++ BBusy r :: w2) out n false st pl)
                       (mkBatch t cl ch lk (w1 ++ BRun r (row_prog T batch_getters (set_user_agent (r_ua r) c)) :: w2) out n false st pl')
(** main.go:117-144: a call of the cache, see [conc_step] *)
| BS_get t cl ch lk w1 w2 out n r key k now st pl :
    batch_step threads (mkBatch t cl ch lk (w1 ++ BRun r (CGet key k) :: w2) out n false st pl)
                       (mkBatch t cl ch lk (w1 ++ BRun r (k (option_map (cs_heap (fst (cache_get st key now))) (snd (cache_get st key now)))) :: w2) out n false
                          (fst (cache_get st key now)) pl)
| BS_set t cl ch lk w1 w2 out n r key e k now st st' pl : cstep st (OSet key e now) = Ok st' ->
    batch_step threads (mkBatch t cl ch lk (w1 ++ BRun r (CSet key e k) :: w2) out n false st pl)
                       (mkBatch t cl ch lk (w1 ++ BRun r k :: w2) out n false st' pl)
(** main.go:145-149: [uaxpl.Release], pool.go:28-33; the messages *)
| BS_done t cl ch lk w1 w2 out n r got c st pl :
    batch_step threads (mkBatch t cl ch lk (w1 ++ BRun r (Ret (Some got, c)) :: w2) out n false st pl)
                       (mkBatch t cl ch lk (w1 ++ (match errors_of lower r got with [] => BCount r got | _ => BReport r got end) :: w2) out n false st (pool_put pl c))
(** a panic in a getter *)
| BS_crash t cl ch lk w1 w2 out n r c st pl :
    batch_step threads (mkBatch t cl ch lk (w1 ++ BRun r (Ret (None, c)) :: w2) out n false st pl)
                       (mkBatch t cl ch lk (w1 ++ BRun r (Ret (None, c)) :: w2) out n true st pl)
(** main.go:151, 152-160, 161, 164 *)
| BS_lock t cl ch w1 w2 out n r got st pl :
    batch_step threads (mkBatch t cl ch false (w1 ++ BReport r got :: w2) out n false st pl)
                       (mkBatch t cl ch true (w1 ++ BWrite r got (pieces r (errors_of lower r got)) :: w2) out n false st pl)
| BS_write t cl ch lk w1 w2 out n r got p ps st pl :
    batch_step threads (mkBatch t cl ch lk (w1 ++ BWrite r got (p :: ps) :: w2) out n false st pl)
                       (mkBatch t cl ch lk (w1 ++ BWrite r got ps :: w2) (out ++ [p]) n false st pl)
| BS_unlock t cl ch w1 w2 out n r got st pl :
    batch_step threads (mkBatch t cl ch true (w1 ++ BWrite r got [] :: w2) out n false st pl)
                       (mkBatch t cl ch false (w1 ++ BCount r got :: w2) out n false st pl)
| BS_count t cl ch lk w1 w2 out n r got st pl :
    batch_step threads (mkBatch t cl ch lk (w1 ++ BCount r got :: w2) out n false st pl)
                       (mkBatch t cl ch lk (w1 ++ BIdle :: w2) out (S n) false st pl)
(** cache_builtin.go: the cleaner, at any clock reading *)
| BS_clean t cl ch lk ws out n now st pl :
    batch_step threads (mkBatch t cl ch lk ws out n false st pl) (mkBatch t cl ch lk ws out n false (cache_clean st now) pl)
(** sync.Pool drops a context *)
| BS_drop t cl ch lk ws out n st pl pl' : pool_drop pl pl' ->
    batch_step threads (mkBatch t cl ch lk ws out n false st pl) (mkBatch t cl ch lk ws out n false st pl').

Inductive batch_run (threads : nat) : batch -> batch -> Prop :=
| BR_refl s : batch_run threads s s
| BR_step s1 s2 s3 : batch_run threads s1 s2 -> batch_step threads s2 s3 -> batch_run threads s1 s3.

(** main.go:183 [wg.Wait()] returns. *)
Definition batch_finished (s : batch) : Prop :=
  b_crashed s = false /\ b_closed s = true /\ Forall (fun w => w = BDone) (b_workers s).
End Batch.

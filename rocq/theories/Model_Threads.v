(** Goroutines over the built-in cache, one memory access at a time.

    cache.go as code over shared memory: a mutex, a sync.Once, the two fields of the cache and the rows.  In contrast to
    Model_Cache.v nothing is atomic except single accesses.  Simplifications: the fields of a row other than Hkey and
    Timestamp are one location ([m_body]), [c.idx] with the map behind it is one location and so is [c.buf] with the array
    behind it (coarser locations can only add conflicts); memory is sequentially consistent (what Go promises to programs
    without data races); [time.Now] returns anything. *)
From Verif Require Import Model_Base Model_CacheEntry Model_Ctx Model_Parse Model_Cache.

(** The code of a goroutine: one access, then the rest. *)
Inductive code :=
| Done (rs : list (res value))
| Crash                                             (* a run-time panic that nobody recovers *)
| Lock (k : code)                                   (* c.mux.Lock() *)
| Unlock (k : code)                                 (* c.mux.Unlock() *)
| Once (k : code)                                   (* c.o.Do(c.init) *)
| OnceEnd (k : code)                                (* the end of the function called by Do *)
| Spawn (k : code)                                  (* the go statement of init *)
| LdIdx (k : option (N -> option nat) -> code)      (* read c.idx; None is the nil map *)
| StIdx (v : N -> option nat) (k : code)
| LdBuf (k : list ptr -> code)
| StBuf (v : list ptr) (k : code)
| LdKey (p : ptr) (k : N -> code)                   (* row.Hkey *)
| StKey (p : ptr) (v : N) (k : code)
| LdStamp (p : ptr) (k : Z -> code)                 (* row.Timestamp *)
| StStamp (p : ptr) (v : Z) (k : code)
| LdBody (p : ptr) (k : entry -> code)              (* the other fields *)
| StBody (p : ptr) (v : entry) (k : code)
| New (k : ptr -> code)                             (* var e CacheEntry, moved to the heap *)
| Now (k : Z -> code).                              (* time.Now().UnixNano() *)

(** [m[k]] on a map that may be nil. *)
Definition map_find (m : option (N -> option nat)) (k : N) : option nat := match m with Some f => f k | None => None end.

(** cache.go:25-38 [init], and what follows the call of Do. *)
Definition init_code (k : code) : code :=
  Lock (StIdx (fun _ => None) (Spawn (Unlock (OnceEnd k)))).

(** cache.go:46-54, the critical section of [Set]; deferred Unlock. *)
Definition set_section (row : ptr) (k : code) : code :=
  LdKey row (fun hk => LdIdx (fun m =>
  match map_find m hk with
  | Some i => LdBuf (fun b => if i <? length b then StBuf (store b i row) (Unlock k) else Unlock Crash)
  | None =>
      LdBuf (fun b => StBuf (b ++ [row]) (
      LdKey row (fun hk => LdBuf (fun b => LdIdx (fun m =>
      match m with
      | Some f => StIdx (map_set f hk (length b - 1)) (Unlock k)
      | None => Unlock Crash
      end)))))
  end)).

(** cache.go:43-45, the stamps, before the lock. *)
Definition stamp_code (key : bytes) (row : ptr) (k : code) : code :=
  StKey row (fnv1 key) (Now (fun now => StStamp row now (Lock (set_section row k)))).

(** cache.go:40-55 [Set]. *)
Definition set_code (key : bytes) (row : ptr) (k : code) : code := Once (stamp_code key row k).

(** cache.go:61-67, the critical section of [Get]; [None] is errCache404. *)
Definition get_section (hk : N) (k : option ptr -> code) : code :=
  LdIdx (fun m =>
  match map_find m hk with
  | Some i =>
      LdBuf (fun b => if i <? length b
        then Now (fun now => LdBuf (fun b =>
          match nth_error b i with
          | Some p => StStamp p now (LdBuf (fun b =>
              match nth_error b i with Some p => Unlock (k (Some p)) | None => Unlock Crash end))
          | None => Unlock Crash
          end))
        else Unlock (k None))
  | None => Unlock (k None)
  end).

(** cache.go:57-68 [Get]. *)
Definition get_code (key : bytes) (k : option ptr -> code) : code := Once (Lock (get_section (fnv1 key) k)).

(** cache.go:75-87, the loop of [clean] ([fuel] as in [clean_loop]). *)
Fixpoint clean_section (fuel : nat) (now : Z) (i : nat) : code :=
  match fuel with
  | 0 => Unlock (Done [])
  | S fuel' =>
      LdBuf (fun b =>
      match nth_error b i with
      | None => Unlock (Done [])
      | Some p =>
          LdStamp p (fun ts =>
          if (cacheTTL <? wrap64 (now - ts))%Z then
            LdBuf (fun b => LdKey p (fun old =>
            StBuf (store b i (nth (length b - 1) b 0)) (
            LdBuf (fun b' => StBuf (firstn (length b - 1) b') (
            LdBuf (fun b'' =>
            let rest := LdIdx (fun m => match m with
                                        | Some f => StIdx (map_del f old) (clean_section fuel' now (S i))
                                        | None => clean_section fuel' now (S i)
                                        end) in
            match nth_error b'' i with
            | Some q => LdKey q (fun hk => LdIdx (fun m =>
                match m with Some f => StIdx (map_set f hk i) rest | None => Unlock Crash end))
            | None => rest
            end))))))
          else clean_section fuel' now (S i))
      end)
  end.

(** cache.go:70-88 [clean]. *)
Definition clean_code : code :=
  Now (fun now => Once (Lock (LdBuf (fun b => clean_section (length b) now 0)))).

(** The library in a goroutine: the cache calls of the getters (client_parser.go:17-30, os.go:46-57,
    device_parser.go:45-58); the row found is read after the lock has been released, the row stored is allocated and
    filled (FromCtx) before. *)
Fixpoint compile_prog (p : prog (list (res value))) : code :=
  match p with
  | Ret rs => Done rs
  | CGet key k =>
      get_code key (fun o =>
      match o with
      | Some q => LdBody q (fun e => compile_prog (k (Some e)))
      | None => compile_prog (k None)
      end)
  | CSet key e k => New (fun q => StBody q e (set_code key q (compile_prog k)))
  end.

(** Shared memory. *)
Inductive once := Fresh | Running | Finished.
Record mem := mkMem {
  m_lock : option nat;          (* the goroutine that holds the mutex *)
  m_once : once;
  m_tick : bool;                (* the goroutine of init exists *)
  m_idx : option (N -> option nat);
  m_buf : list ptr;
  m_key : ptr -> N;
  m_stamp : ptr -> Z;
  m_body : ptr -> entry;
  m_next : nat
}.
Definition mem_empty : mem :=
  mkMem None Fresh false None [] (fun _ => 0%N) (fun _ => 0%Z) (fun _ => entry_zero) 0.

Definition upd_at {A} (f : ptr -> A) (p : ptr) (v : A) : ptr -> A := fun q => if q =? p then v else f q.
Definition w_lock v m := mkMem v (m_once m) (m_tick m) (m_idx m) (m_buf m) (m_key m) (m_stamp m) (m_body m) (m_next m).
Definition w_once v m := mkMem (m_lock m) v (m_tick m) (m_idx m) (m_buf m) (m_key m) (m_stamp m) (m_body m) (m_next m).
Definition w_tick v m := mkMem (m_lock m) (m_once m) v (m_idx m) (m_buf m) (m_key m) (m_stamp m) (m_body m) (m_next m).
Definition w_idx v m := mkMem (m_lock m) (m_once m) (m_tick m) (Some v) (m_buf m) (m_key m) (m_stamp m) (m_body m) (m_next m).
Definition w_buf v m := mkMem (m_lock m) (m_once m) (m_tick m) (m_idx m) v (m_key m) (m_stamp m) (m_body m) (m_next m).
Definition w_key p v m := mkMem (m_lock m) (m_once m) (m_tick m) (m_idx m) (m_buf m) (upd_at (m_key m) p v) (m_stamp m) (m_body m) (m_next m).
Definition w_stamp p v m := mkMem (m_lock m) (m_once m) (m_tick m) (m_idx m) (m_buf m) (m_key m) (upd_at (m_stamp m) p v) (m_body m) (m_next m).
Definition w_body p v m := mkMem (m_lock m) (m_once m) (m_tick m) (m_idx m) (m_buf m) (m_key m) (m_stamp m) (upd_at (m_body m) p v) (m_next m).
Definition w_next v m := mkMem (m_lock m) (m_once m) (m_tick m) (m_idx m) (m_buf m) (m_key m) (m_stamp m) (m_body m) v.

(** What a step does to memory, as recorded in the trace. *)
Inductive loc := LIdx | LBuf | LKey (p : ptr) | LStamp (p : ptr) | LBody (p : ptr).
Inductive event :=
| ERead (l : loc) | EWrite (l : loc)
| ELock | EUnlock | EOnceEnd | EOncePass | ESpawn.

(** One step of goroutine [t].  Lock waits while the mutex is taken; Do waits while another goroutine runs init. *)
Inductive act_step (t : nat) : code -> mem -> code -> mem -> list event -> Prop :=
| A_lock k m : m_lock m = None -> act_step t (Lock k) m k (w_lock (Some t) m) [ELock]
| A_unlock k m : m_lock m = Some t -> act_step t (Unlock k) m k (w_lock None m) [EUnlock]
| A_once_run k m : m_once m = Fresh -> act_step t (Once k) m (init_code k) (w_once Running m) []
| A_once_pass k m : m_once m = Finished -> act_step t (Once k) m k m [EOncePass]
| A_once_end k m : act_step t (OnceEnd k) m k (w_once Finished m) [EOnceEnd]
| A_spawn k m : act_step t (Spawn k) m k (w_tick true m) [ESpawn]
| A_ldidx k m : act_step t (LdIdx k) m (k (m_idx m)) m [ERead LIdx]
| A_stidx v k m : act_step t (StIdx v k) m k (w_idx v m) [EWrite LIdx]
| A_ldbuf k m : act_step t (LdBuf k) m (k (m_buf m)) m [ERead LBuf]
| A_stbuf v k m : act_step t (StBuf v k) m k (w_buf v m) [EWrite LBuf]
| A_ldkey p k m : act_step t (LdKey p k) m (k (m_key m p)) m [ERead (LKey p)]
| A_stkey p v k m : act_step t (StKey p v k) m k (w_key p v m) [EWrite (LKey p)]
| A_ldstamp p k m : act_step t (LdStamp p k) m (k (m_stamp m p)) m [ERead (LStamp p)]
| A_ststamp p v k m : act_step t (StStamp p v k) m k (w_stamp p v m) [EWrite (LStamp p)]
| A_ldbody p k m : act_step t (LdBody p k) m (k (m_body m p)) m [ERead (LBody p)]
| A_stbody p v k m : act_step t (StBody p v k) m k (w_body p v m) [EWrite (LBody p)]
| A_new k m : act_step t (New k) m (k (m_next m)) (w_next (S (m_next m)) m) []
| A_now z k m : act_step t (Now k) m (k z) m [].

(** The machine: memory, the goroutines (number 0 is the one started by init, cache.go:30-37) and the trace. *)
Record mach := mkMach { k_mem : mem; k_threads : list code; k_trace : list (nat * event) }.

Inductive mach_step : mach -> mach -> Prop :=
| M_act t c c' m m' ts evs tr : nth_error ts t = Some c -> act_step t c m c' m' evs ->
    mach_step (mkMach m ts tr) (mkMach m' (store ts t c') (tr ++ map (fun e => (t, e)) evs))
| M_tick rs m ts tr : nth_error ts 0 = Some (Done rs) -> m_tick m = true ->
    mach_step (mkMach m ts tr) (mkMach m (store ts 0 clean_code) tr).

Inductive mach_run : mach -> mach -> Prop :=
| MRun_refl s : mach_run s s
| MRun_step a b c : mach_run a b -> mach_step b c -> mach_run a c.

Definition mach_start (ps : list (prog (list (res value)))) : mach :=
  mkMach mem_empty (Done [] :: map compile_prog ps) [].

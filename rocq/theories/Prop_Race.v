(** C66, C67: the built-in cache under the Go memory model. *)
From Verif Require Import Model_Base Model_CacheEntry Model_Version Model_Ctx Model_Parse Model_Cache Model_Threads Model_Compiler Model_Built
  Data_Tiny Spec_Cache Spec_Getters Spec_Race Proof_Race Proof_Atomic Proof_Finish Prop_Database.
Open Scope nat_scope.

(** C66: whatever cache calls the goroutines make, and however their steps, those of init and those of the cleaner are
    interleaved, every two conflicting accesses are ordered by happens-before. *)
Theorem C66_no_race : forall ps s, mach_run (mach_start ps) s -> ~ race (k_trace s).
Proof. exact no_race. Qed.
Print Assumptions C66_no_race.

(** The getters never deadlock on the mutex or on sync.Once: every execution can be continued until every goroutine,
    the cleaner included, has nothing left to do. *)
Theorem C66_no_deadlock : forall T mC mD scripts s, mach_run (mach_start (cf_threads (start T mC mD scripts))) s ->
  exists s', mach_run s s' /\ Forall idle (k_threads s').
Proof. exact library_finish. Qed.
Print Assumptions C66_no_deadlock.

(** The getters always store a row they have just made.  This matters: a caller that stores a row returned by Get under
    a second key races with another goroutine that looks the first key up. *)
Definition row_reuser : code :=
  New (fun q => StBody q entry_zero (set_code (bs "a") q (get_code (bs "a") (fun o =>
    match o with Some p => set_code (bs "b") p (Done []) | None => Done [] end)))).
Definition row_reader : code := get_code (bs "a") (fun _ => Done []).
Definition reuse_schedule : list nat := repeat 1 30 ++ repeat 2 7 ++ repeat 1 4.
Definition reuse_end : mach := sched reuse_schedule (mkMach mem_empty [Done []; row_reuser; row_reader] []).
Theorem C66_reused_row_races : exists s, mach_run (mkMach mem_empty [Done []; row_reuser; row_reader] []) s /\ race (k_trace s).
Proof.
  exact (ex_intro _ reuse_end
    (conj (sched_run reuse_schedule _ _ (MRun_refl _)) (race_of (k_trace reuse_end) 31 34 1 2 (EWrite (LStamp 0)) (EWrite (LStamp 0)) (LStamp 0) ltac:(repeat constructor) ltac:(vm_compute; reflexivity)
      ltac:(vm_compute; reflexivity) ltac:(discriminate) eq_refl eq_refl ltac:(vm_compute; reflexivity)))).
Qed.
Print Assumptions C66_reused_row_races.

(** C67: the calls of the cache are atomic.  Whatever an execution of the machine, whose steps are single reads and writes
    of memory, returns is also returned when the goroutines and the cleaner take turns with whole calls of Get, Set and
    clean; and no goroutine ever panics inside the cache. *)
Theorem C67_atomic : forall T mC mD scripts s, mach_run (mach_start (cf_threads (start T mC mD scripts))) s ->
  exists cf, conc_run (start T mC mD scripts) cf /\
    (forall i rs, nth_error (k_threads s) (S i) = Some (Done rs) -> nth_error (cf_threads cf) i = Some (Ret rs)) /\
    (forall t, nth_error (k_threads s) t <> Some Crash).
Proof. exact library_atomic. Qed.
Print Assumptions C67_atomic.

(** C22 for the machine: a goroutine that has finished got from every getter what that getter returns by itself. *)
Theorem C67_isolation : forall T mC mD scripts s i l rs, mach_run (mach_start (cf_threads (start T mC mD scripts))) s ->
  collision_free (concat (map (fun l => asked l []) scripts)) ->
  nth_error scripts i = Some l -> nth_error (k_threads s) (S i) = Some (Done rs) ->
  Forall2 (fun x r => detects T mC mD (fst (fst x)) -> snd x <> GModel -> as_alone T mC mD x r) (calls l [] 0) rs.
Proof. exact library_isolated. Qed.
Print Assumptions C67_isolation.

(** Two goroutines and the cleaner, interleaved step by step; the second reads the buffer after the first has written it;
    both get their answers. *)
Definition two_scripts : list (list act) :=
  [[ASetUA sample_ua; AGet GBrowser; AGet GOS]; [ASetUA sample_ua; AGet GBrowserVersionString; AGet GOSVersionString]].
Definition round_robin : list nat := concat (repeat [1; 2; 1; 0; 2; 2; 1] 40).
Example C66_C67_case : exists s, mach_run (mach_start (cf_threads (start (built tiny_compiler tiny) 63 1023 two_scripts))) s /\
  40 < 50 /\ nth_error (k_trace s) 40 = Some (1, EWrite LBuf) /\ nth_error (k_trace s) 50 = Some (2, ERead LBuf) /\
  nth_error (k_threads s) 1 = Some (Done (map (fun b => Ok (VB b)) [bs "Foo"; bs "Debian"])) /\
  nth_error (k_threads s) 2 = Some (Done (map (fun b => Ok (VB b)) [bs "29.0"; bs "9.1"])).
Proof.
  exact (execution (built tiny_compiler tiny) 63 1023 two_scripts round_robin 40 50 [bs "Foo"; bs "Debian"] [bs "29.0"; bs "9.1"]
    ltac:(vm_compute; reflexivity)).
Qed.

(** Data races, after the Go memory model: an execution is a sequence of events of goroutines; two accesses to the same
    location by different goroutines, one of them a write, have to be ordered by "happens before". *)
From Verif Require Import Model_Base Model_Threads.

(** Happens-before over the positions of a trace: the order within a goroutine; a call of Unlock before every later call
    of Lock; the end of the function of sync.Once before every return of Do; the go statement before everything
    the new goroutine does (goroutine 0 is the only one started by the library); and what follows by transitivity. *)
Inductive hb (tr : list (nat * event)) : nat -> nat -> Prop :=
| HB_program i j t e e' : i < j -> nth_error tr i = Some (t, e) -> nth_error tr j = Some (t, e') -> hb tr i j
| HB_mutex i j t u : i < j -> nth_error tr i = Some (t, EUnlock) -> nth_error tr j = Some (u, ELock) -> hb tr i j
| HB_once i j t u : i < j -> nth_error tr i = Some (t, EOnceEnd) -> nth_error tr j = Some (u, EOncePass) -> hb tr i j
| HB_go i j t e : i < j -> nth_error tr i = Some (t, ESpawn) -> nth_error tr j = Some (0, e) -> hb tr i j
| HB_trans i j k : hb tr i j -> hb tr j k -> hb tr i k.

Definition touches (e : event) (l : loc) : Prop := e = ERead l \/ e = EWrite l.
Definition conflict (e e' : event) : Prop :=
  exists l, touches e l /\ touches e' l /\ (e = EWrite l \/ e' = EWrite l).

(** A data race. *)
Definition race (tr : list (nat * event)) : Prop :=
  exists i j t u e e', i < j /\ nth_error tr i = Some (t, e) /\ nth_error tr j = Some (u, e') /\
    t <> u /\ conflict e e' /\ ~ hb tr i j.

(** A goroutine that has nothing left to do. *)
Definition idle (c : code) : Prop := exists rs, c = Done rs.

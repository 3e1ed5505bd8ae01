(** How many rows the built-in cache holds, in terms of the traffic. *)
From Verif Require Import Model_Base Model_CacheEntry Model_Cache Spec_Cache.

(** Thirty seconds, the period of the ticker, in nanoseconds. *)
Definition half_minute : Z := (30 * 1000 * 1000 * 1000)%Z.

Definition moment (o : cop) : Z :=
  match o with OSet _ _ t => t | OSetPtr _ _ t => t | OGet _ t => t | OClean t => t end.
Definition is_use (o : cop) : bool := match o with OClean _ => false | _ => true end.

(** Calls of Get and Set of the history from moment [a] to moment [b]. *)
Definition uses (h : list cop) (a b : Z) : nat :=
  length (filter (fun o => is_use o && (a <=? moment o)%Z && (moment o <=? b)%Z) h).

(** At most [n] calls in every half minute. *)
Definition at_most (n : nat) (h : list cop) : Prop := forall a, uses h a (a + half_minute) <= n.

(** The clock does not go back ([prev] is the reading before the history), stays below 2^62 ns (the year 2116), and
    never runs on for more than half a minute without a pass; [last] is the moment of the last pass, or of the start. *)
Inductive regular : Z -> Z -> list cop -> Prop :=
| Regular_end : forall last prev, regular last prev []
| Regular_use : forall last prev o h, is_use o = true -> (prev <= moment o)%Z -> (moment o <= last + half_minute)%Z ->
    (moment o < 2 ^ 62)%Z -> regular last (moment o) h -> regular last prev (o :: h)
| Regular_pass : forall last prev t h, (prev <= t)%Z -> (t <= last + half_minute)%Z -> (t < 2 ^ 62)%Z ->
    regular t t h -> regular last prev (OClean t :: h).

(** The hashes of the keys set in a history. *)
Definition set_hashes (h : list cop) : list N :=
  flat_map (fun o => match o with OSet k _ _ | OSetPtr k _ _ => [fnv1 k] | _ => [] end) h.

(** No pass comes more than an hour after a call before it. *)
Definition within_the_hour (h : list cop) : Prop :=
  forall h1 t h2 o, h = h1 ++ OClean t :: h2 -> In o h1 -> is_use o = true -> ~ idle_too_long t (moment o).

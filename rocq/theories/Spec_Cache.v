(** What the cache promises, in terms of the history of calls. *)
From Verif Require Import Model_Base Model_CacheEntry Model_Cache.

(** Every Set of the history stores a fresh row. *)
Definition fresh_op (o : cop) : Prop := match o with OSetPtr _ _ _ => False | _ => True end.
Definition fresh_history (h : list cop) : Prop := Forall fresh_op h.

(** One hour in nanoseconds, computed in Go's int64. *)
Definition hour : Z := (60 * 60 * 1000 * 1000 * 1000)%Z.
Definition idle_too_long (now last : Z) : Prop := (hour < wrap64 (now - last))%Z.

(** [Kept hk t h]: the history [h] neither sets a key of hash [hk] nor runs a cleaning pass at a moment when more
    than one hour has passed since the last use of [hk], the last use before [h] being at time [t]. *)
Inductive Kept (hk : N) : Z -> list cop -> Prop :=
| Kept_nil : forall t, Kept hk t []
| Kept_set : forall t k e now h, fnv1 k <> hk -> Kept hk t h -> Kept hk t (OSet k e now :: h)
| Kept_get_other : forall t k now h, fnv1 k <> hk -> Kept hk t h -> Kept hk t (OGet k now :: h)
| Kept_get_same : forall t k now h, fnv1 k = hk -> Kept hk now h -> Kept hk t (OGet k now :: h)
| Kept_clean : forall t now h, ~ idle_too_long now t -> Kept hk t h -> Kept hk t (OClean now :: h).

(** No key of hash [hk] is ever set. *)
Definition never_set (hk : N) (h : list cop) : Prop :=
  Forall (fun o => match o with OSet k _ _ | OSetPtr k _ _ => fnv1 k <> hk | _ => True end) h.

(** What Get returns, as a value: the contents of the row, apart from the bookkeeping fields Hkey and Timestamp. *)
Definition same_contents (a b : entry) : Prop := with_stamp a 0 0 = with_stamp b 0 0.

(** Look-up of a hash without touching the timestamp (observation of a state). *)
Definition lookup (st : cstate) (hk : N) : option entry :=
  match cs_idx st hk with
  | Some i => match nth_error (cs_buf st) i with Some p => Some (cs_heap st p) | None => None end
  | None => None
  end.

Definition expired_row (now : Z) (e : entry) : Prop := idle_too_long now (e_timestamp e).

(** Number of expired rows of a state. *)
Definition n_expired (st : cstate) (now : Z) : nat :=
  length (filter (fun p => (hour <? wrap64 (now - e_timestamp (cs_heap st p)))%Z) (cs_buf st)).

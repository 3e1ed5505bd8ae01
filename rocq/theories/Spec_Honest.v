(** Caches of any kind that only answer with rows stored before under the same key: they may forget rows, answer with
    an older row, keep rows in serialised form, and be replaced by another such cache at any moment (SetCache). *)
From Verif Require Import Model_Base Model_CacheEntry Model_Ctx Model_Parse Model_Cache Spec_CacheEntry Spec_Getters.

(** [answers stored key o]: after the rows [stored] have been stored, a look-up of [key] may answer [o].  The hash and
    the time stamp of a row belong to the cache. *)
Inductive answers (stored : list (bytes * entry)) (key : bytes) : option entry -> Prop :=
| A_miss : answers stored key None
| A_row e hk ts : In (key, e) stored -> answers stored key (Some (with_stamp e hk ts))
| A_wire e hk ts buf buf' n receiver r : In (key, e) stored -> entry_wf (with_stamp e hk ts) ->
    marshal_to (with_stamp e hk ts) buf = (buf', n, MNil) -> unmarshal receiver buf' = Ok (r, UNil) ->
    answers stored key (Some r).

Definition world := (list (bytes * entry) * list (prog (list (res value))))%type.
Inductive honest_step : world -> world -> Prop :=
| H_get stored ts1 ts2 key k o : answers stored key o ->
    honest_step (stored, ts1 ++ CGet key k :: ts2) (stored, ts1 ++ k o :: ts2)
| H_set stored ts1 ts2 key e p :
    honest_step (stored, ts1 ++ CSet key e p :: ts2) ((key, e) :: stored, ts1 ++ p :: ts2).
Inductive honest_run : world -> world -> Prop :=
| HR_refl w : honest_run w w
| HR_step w1 w2 w3 : honest_run w1 w2 -> honest_step w2 w3 -> honest_run w1 w3.

(** Goroutines with new contexts and the same filters. *)
Definition begin (T : tables) (mC mD : N) (scripts : list (list act)) : world :=
  ([], map (fun l => script T mC mD l (recycle mC mD new_ctx)) scripts).

(** Rows stored several times, but always under their own key. *)
From Verif Require Import Model_Base Model_CacheEntry Model_Cache.

(** [rows]: key and contents of the rows allocated so far.  A row is stored again only under a key of the same hash. *)
Fixpoint one_key (rows : list (bytes * entry)) (h : list cop) : Prop :=
  match h with
  | [] => True
  | OSet k e _ :: h' => one_key (rows ++ [(k, e)]) h'
  | OSetPtr k p _ :: h' => (exists k' e, nth_error rows p = Some (k', e) /\ fnv1 k' = fnv1 k) /\ one_key rows h'
  | _ :: h' => one_key rows h'
  end.
(** The same history with a copy of the row in each case. *)
Fixpoint copies (rows : list (bytes * entry)) (h : list cop) : list cop :=
  match h with
  | [] => []
  | OSet k e now :: h' => OSet k e now :: copies (rows ++ [(k, e)]) h'
  | OSetPtr k p now :: h' => (match nth_error rows p with Some (_, e) => OSet k e now | None => OSetPtr k p now end) :: copies rows h'
  | o :: h' => o :: copies rows h'
  end.

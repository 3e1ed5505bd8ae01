(** A getter called again on the same context. *)
From Verif Require Import Model_Base Model_CacheEntry Model_Version Model_Ctx Model_Parse Spec_Getters.

(** [leaf p x]: the program [p] can end with [x], whatever the cache answers. *)
Inductive leaf {A} : prog A -> A -> Prop :=
| Leaf_ret a : leaf (Ret a) a
| Leaf_get key k o a : leaf (k o) a -> leaf (CGet key k) a
| Leaf_set key e p a : leaf p a -> leaf (CSet key e p) a.

(** The context after [n] calls of a getter, nothing cached. *)
Fixpoint again (T : tables) (g : getter) (n : nat) (c : ctx) : ctx :=
  match n with
  | 0 => c
  | S n' => fst (run_cold (run_getter T g (again T g n' c)))
  end.

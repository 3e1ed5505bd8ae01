(** Vocabulary for C18. *)
From Verif Require Import Model_Base.

(** Two user agents that are the same outside of a window of at most four adjacent bytes (for instance another
    version number of the same browser). *)
Definition near (a b : bytes) : Prop :=
  exists p v w s, a = p ++ v ++ s /\ b = p ++ w ++ s /\ length v = length w /\ (length v <= 4)%nat.

(** References to groups in the files of the database. *)
From Verif Require Import Model_Base Spec_Version.
Open Scope Z_scope.

(** The text is, possibly after a plus sign, a number beyond 63 bits, or it starts with a number beyond 64 bits. *)
Definition Huge (s : bytes) : Prop :=
  exists ds n rest, Decimal ds n /\ (s = ds ++ rest \/ s = bs "+" ++ ds ++ rest) /\ ((rest = [] /\ 2 ^ 63 <= n) \/ 2 ^ 64 <= n).
(** [i] is the signed byte made of the last eight bits of [z]. *)
Definition low_byte (z i : Z) : Prop := -128 <= i < 128 /\ exists k, z = i + 256 * k.

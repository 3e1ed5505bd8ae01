(** What a stored group number does when its entry applies. *)
From Verif Require Import Model_Base Model_Ctx Model_Parse.
Open Scope Z_scope.

(** A group is read, nothing happens, or the library panics. *)
Inductive fate : Type := Reads (j : Z) | Ignored | Crashes.
(** [fate_of n r f]: for a pattern with [n] groups (counting the whole match) and a number with remainder [r] modulo 256. *)
Inductive fate_of (n : Z) : Z -> fate -> Prop :=
| F_there r : 0 <= r < 64 -> r < n -> fate_of n r (Reads r)
| F_missing r : 0 <= r < 128 -> n <= r < 2 * n -> fate_of n r Crashes
| F_doubled r : 64 <= r < 128 -> r < 2 * n -> fate_of n r Crashes
| F_beyond r : 0 <= r < 128 -> 2 * n <= r -> fate_of n r Ignored
| F_other r : 128 <= r < 192 -> r - 128 < n -> fate_of n r (Reads (r - 128))
| F_no_other r : 128 <= r < 192 -> n <= r - 128 -> fate_of n r Crashes
| F_negative r : 192 <= r < 255 -> fate_of n r Crashes
| F_none : fate_of n 255 Ignored.
(** The outcome on a context, for the ends [m] of all groups; a group that took no part in the match has ends -1. *)
Definition comes_to (f : fate) (m : list Z) (c : ctx) (o : ctx * res unit) : Prop :=
  match f with
  | Ignored => o = (c, Ok tt)
  | Crashes => o = (c, Panic)
  | Reads j => exists lo hi, nth_error m (Z.to_nat (2 * j)) = Some lo /\ nth_error m (Z.to_nat (2 * j + 1)) = Some hi /\
      ((lo <> -1 /\ hi <> -1 /\ exists e, o = (up_clientVersion e c, Ok tt) /\ e = encode64 lo hi) \/ ((lo = -1 \/ hi = -1) /\ o = (c, Ok tt)))
  end.

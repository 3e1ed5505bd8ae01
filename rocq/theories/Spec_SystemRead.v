(** What a group number in an operating system entry does when the entry applies. *)
From Verif Require Import Model_Base Model_Ctx Model_Parse Spec_GroupRead.
Open Scope Z_scope.

(** The outcome on a context, for the ends [m] of all groups; [upd] stores the position of the group. *)
Definition ends_in (upd : N -> ctx -> ctx) (f : fate) (m : list Z) (c : ctx) (o : ctx * res unit) : Prop :=
  match f with
  | Ignored => o = (c, Ok tt)
  | Crashes => o = (c, Panic)
  | Reads j => exists lo hi, nth_error m (Z.to_nat (2 * j)) = Some lo /\ nth_error m (Z.to_nat (2 * j + 1)) = Some hi /\
      ((lo <> -1 /\ hi <> -1 /\ o = (upd (encode64 lo hi) c, Ok tt)) \/ ((lo = -1 \/ hi = -1) /\ o = (c, Ok tt)))
  end.
(** The number meant by the text after the dollar: 1 if it is none. *)
Definition number_meant (is_int : bytes -> Z -> Prop) (s : bytes) (z : Z) : Prop := is_int s z \/ ((forall y, ~ is_int s y) /\ z = 1).
(** No reference. *)
Definition no_dollar (s : bytes) : Prop := forall r, s <> x24 :: r.

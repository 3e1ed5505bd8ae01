(** Whose context it is. *)
From Verif Require Import Model_Base Model_Ctx Model_Parse Model_Share.

(** [u] has acquired [p] and not released it since. *)
Fixpoint owns (tr : list event) (u p : nat) : Prop :=
  match tr with
  | [] => False
  | EAcquire u' p' :: tr' => (u' = u /\ p' = p) \/ owns tr' u p
  | ERelease u' p' :: tr' => ~ (u' = u /\ p' = p) /\ owns tr' u p
  | _ :: tr' => owns tr' u p
  end.

(** Everyone uses, and releases, only contexts they own. *)
Fixpoint disciplined (tr : list event) : Prop :=
  match tr with
  | [] => True
  | EDo u p _ _ :: tr' | ERelease u p :: tr' => owns tr' u p /\ disciplined tr'
  | _ :: tr' => disciplined tr'
  end.

(** What [u] has done with [p] since acquiring it, the last call first, with the results. *)
Fixpoint done (tr : list event) (u p : nat) : list (op * option (res value)) :=
  match tr with
  | [] => []
  | EAcquire u' p' :: tr' => if (u' =? u) && (p' =? p) then [] else done tr' u p
  | EDo u' p' o r :: tr' => if (u' =? u) && (p' =? p) then (o, r) :: done tr' u p else done tr' u p
  | _ :: tr' => done tr' u p
  end.

(** The same calls with the same results on a new context nobody else has. *)
Inductive lone (T : tables) : list (op * option (res value)) -> ctx -> Prop :=
| Lo_new : lone T [] new_ctx
| Lo_do l c o c' r : lone T l c -> does T c o c' r -> lone T ((o, r) :: l) c'.

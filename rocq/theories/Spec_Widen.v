(** Patterns with negative look-arounds, and the patterns without them. *)
From Verif Require Import Model_Base Model_Regex Spec_Regex Spec_Syntax.

(** The pattern with its look-arounds left out. *)
Fixpoint drop_alts (a : alts) : alts := match a with One s => One (drop_sequ s) | Or s a => Or (drop_sequ s) (drop_alts a) end
with drop_sequ (s : sequ) : sequ :=
  match s with
  | Empty => Empty
  | Then (ALook _ _) _ _ s => drop_sequ s
  | Then x c z s => Then (drop_atom x) c z (drop_sequ s)
  end
with drop_atom (x : atom) : atom := match x with AGroup cap a => AGroup cap (drop_alts a) | _ => x end.

(** Inside a look-around: brackets are groups only, no escaped backslash, no further look-around. *)
Fixpoint calm_alts (a : alts) : Prop := match a with One s => calm_sequ s | Or s a => calm_sequ s /\ calm_alts a end
with calm_sequ (s : sequ) : Prop := match s with Empty => True | Then x _ _ s => calm_atom x /\ calm_sequ s end
with calm_atom (x : atom) : Prop :=
  match x with
  | AEsc x => ~ In x [40; 41; 92]%N
  | ASet _ l => ~ In 40%N (w_items l) /\ ~ In 41%N (w_items l)
  | AGroup _ a => calm_alts a
  | ALook _ _ => False
  | _ => True
  end.
(** Every look-around has a body of this kind, which is not empty, and is not repeated. *)
Fixpoint tidy_alts (a : alts) : Prop := match a with One s => tidy_sequ s | Or s a => tidy_sequ s /\ tidy_alts a end
with tidy_sequ (s : sequ) : Prop :=
  match s with
  | Empty => True
  | Then x c _ s => tidy_atom x /\ match x with ALook _ _ => c = Once | _ => True end /\ tidy_sequ s
  end
with tidy_atom (x : atom) : Prop :=
  match x with AGroup _ a => tidy_alts a | ALook _ a => calm_alts a /\ w_alts a <> [] | _ => True end.
(** No group inside a look-around captures. *)
Fixpoint quiet_alts (a : alts) : Prop := match a with One s => quiet_sequ s | Or s a => quiet_sequ s /\ quiet_alts a end
with quiet_sequ (s : sequ) : Prop := match s with Empty => True | Then x _ _ s => quiet_atom x /\ quiet_sequ s end
with quiet_atom (x : atom) : Prop := match x with AGroup _ a => quiet_alts a | ALook _ a => n_alts a = 0 | _ => True end.

(** [w] is a part of [l]. *)
Definition part (w l : list N) : Prop := exists x y, l = x ++ w ++ y.
(** What is written for the remaining pattern: none of (?< and (?! and )||( *)
Definition plain_rest (fold : bool) (a : alts) : Prop :=
  ~ part [40; 63; 60]%N (written fold (drop_alts a)) /\ ~ part [40; 63; 33]%N (written fold (drop_alts a)).
Definition no_empty_choice (fold : bool) (a : alts) : Prop := ~ part [41; 124; 124; 40]%N (written fold (drop_alts a)).

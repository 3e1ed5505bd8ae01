(** Which match a written pattern finds: the ways to match in the order in which Perl tries them. *)
From Verif Require Import Model_Base Model_Ctx Model_Regex Spec_Regex Spec_Syntax.

(** While matching: the position, the text that follows, and the groups captured so far, the last one first. *)
Definition state : Type := Z * text * list (nat * (Z * Z)).
Definition rest_of (s : state) : text := snd (fst s).
Definition moved (s s' : state) : bool := length (rest_of s') <? length (rest_of s).
(** [R s l]: from [s] the ways to go on are [l], the preferred one first.  Going on from every state of a list, in order. *)
Inductive each (R : state -> list state -> Prop) : list state -> list state -> Prop :=
| E_nil : each R [] []
| E_cons s ss l l' : R s l -> each R ss l' -> each R (s :: ss) (l ++ l').
(** Exactly [n] times; at most [n] times more, the more the better (the fewer, if lazy). *)
Fixpoint exactly (n : nat) (R : state -> list state -> Prop) (s : state) (l : list state) : Prop :=
  match n with 0 => l = [s] | S n' => exists l1, R s l1 /\ each (exactly n' R) l1 l end.
Definition choose (lazy : bool) (s : state) (more : list state) : list state := if lazy then s :: more else more ++ [s].
Fixpoint at_most (n : nat) (lazy : bool) (R : state -> list state -> Prop) (s : state) (l : list state) : Prop :=
  match n with 0 => l = [s] | S n' => exists l1 more, R s l1 /\ each (at_most n' lazy R) l1 more /\ l = choose lazy s more end.
(** Any number of times, each time going on only where something has been consumed. *)
Inductive unbounded (lazy : bool) (R : state -> list state -> Prop) : state -> list state -> Prop :=
| U_intro s l1 more : R s l1 -> each (unbounded lazy R) (filter (moved s) l1) more -> unbounded lazy R s (choose lazy s more).
Definition counted (c : count) (lazy : bool) (R : state -> list state -> Prop) (s : state) (l : list state) : Prop :=
  let then_ n (X : state -> list state -> Prop) := exists l1, exactly n R s l1 /\ each X l1 l in
  match c with
  | Once => R s l
  | ZeroMore => unbounded lazy R s l
  | OneMore => then_ 1 (unbounded lazy R)
  | ZeroOne => at_most 1 lazy R s l
  | Exactly d => exactly (value d) R s l
  | AtLeast d => then_ (value d) (unbounded lazy R)
  | Between d e => then_ (value d) (at_most (value e - value d) lazy R)
  end.
(** One rune with a property. *)
Definition rune_ways (P : N -> Prop) (s : state) (l : list state) : Prop :=
  let '(p, w, c) := s in
  match w with [] => l = [] | (y, wd) :: w' => P y /\ l = [((p + Z.of_nat wd)%Z, w', c)] \/ ~ P y /\ l = [] end.
Definition test_ways (P : Prop) (s : state) (l : list state) : Prop := P /\ l = [s] \/ ~ P /\ l = [].
(** Alternatives from left to right; [n] groups have been opened before. *)
Fixpoint o_alts (fold : bool) (n : nat) (a : alts) (s : state) (l : list state) : Prop :=
  match a with
  | One q => o_sequ fold n q s l
  | Or q a => exists l1 l2, o_sequ fold n q s l1 /\ o_alts fold (n + n_sequ q) a s l2 /\ l = l1 ++ l2
  end
with o_sequ (fold : bool) (n : nat) (q : sequ) (s : state) (l : list state) : Prop :=
  match q with
  | Empty => l = [s]
  | Then x c lazy q => exists l1, counted c lazy (o_atom fold n x) s l1 /\ each (o_sequ fold (n + n_atom x) q) l1 l
  end
with o_atom (fold : bool) (n : nat) (x : atom) (s : state) (l : list state) : Prop :=
  match x with
  | AChar x | AEsc x => rune_ways (variant fold x) s l
  | APerl c => rune_ways (fun y => exists z, in_perl c z /\ variant fold z y) s l
  | AAny => rune_ways (fun y => y <> 10%N) s l
  | ABegin => test_ways (fst (fst s) = 0%Z) s l
  | AEnd => test_ways (rest_of s = []) s l
  | ASet false i => rune_ways (fun y => exists x, In x i /\ in_item fold x y) s l
  | ASet true i => rune_ways (fun y => ~ exists x, In x i /\ in_item fold x y) s l
  | AGroup false a => o_alts fold n a s l
  | AGroup true a => exists l1, o_alts fold (S n) a s l1 /\ l = map (fun s' : state => let '(p', w', c') := s' in (p', w', (S n, (fst (fst s), p')) :: c')) l1
  | ALook _ _ => False
  end.

(** The first of the ways at the first position where there is one; a group reports what it captured last. *)
Definition span_of (n : nat) (c : list (nat * (Z * Z))) : list Z :=
  match find (fun x => fst x =? n) c with Some (_, (lo, hi)) => [lo; hi] | None => [-1; -1]%Z end.
Definition finds_first (fold : bool) (a : alts) (s : text) (m : list Z) : Prop :=
  exists u w p w' c l, s = u ++ w /\ o_alts fold 0 a (width u, w, []) ((p, w', c) :: l) /\
    (forall u' w', s = u' ++ w' -> length u' < length u -> o_alts fold 0 a (width u', w', []) []) /\
    m = width u :: p :: flat_map (fun n => span_of n c) (seq 1 (n_alts a)).

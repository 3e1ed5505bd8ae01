(** How patterns are written and what they mean, independently of the parser: the syntax Go and PCRE share as far as the
    databases use it, and PCRE's negative look-arounds, which Go does not know.  A pattern is written in runes. *)
From Verif Require Import Model_Base Model_Ctx Model_Regex Spec_Regex.

(** A character inside a class, as it is or after a backslash; the contents of a class; how often something is repeated
    (numbers are lists of decimal digits). *)
Inductive cchar := Bare (x : N) | Escaped (x : N).
Inductive item := IChar (c : cchar) | IRange (a b : cchar) | IPerl (c : N).
Inductive count := Once | ZeroMore | OneMore | ZeroOne | Exactly (d : list N) | AtLeast (d : list N) | Between (d e : list N).
(** Alternatives; a sequence of atoms, each with a count and a mark for laziness. *)
Inductive alts := One (s : sequ) | Or (s : sequ) (a : alts)
with sequ := Empty | Then (x : atom) (c : count) (lazy : bool) (s : sequ)
with atom := AChar (x : N) | AEsc (x : N) | APerl (c : N) | AAny | ABegin | AEnd | ASet (neg : bool) (l : list item)
  | AGroup (capture : bool) (a : alts)   (* (...) or (?:...) *)
  | ALook (ahead : bool) (a : alts).     (* (?!...) or (?<!...) *)

(** ** Writing *)
Definition w_cchar (c : cchar) : list N := match c with Bare x => [x] | Escaped x => [92; x] end%N.
Definition w_item (i : item) : list N :=
  match i with IChar c => w_cchar c | IRange a b => w_cchar a ++ 45 :: w_cchar b | IPerl c => [92; c] end%N.
Definition w_items (l : list item) : list N := flat_map w_item l.
Definition w_digits (d : list N) : list N := map (fun x => 48 + x)%N d.
Definition w_count (c : count) : list N :=
  match c with
  | Once => [] | ZeroMore => [42] | OneMore => [43] | ZeroOne => [63]
  | Exactly d => 123 :: w_digits d ++ [125]
  | AtLeast d => 123 :: w_digits d ++ [44; 125]
  | Between d e => 123 :: w_digits d ++ 44 :: w_digits e ++ [125]
  end%N.
Definition w_lazy (c : count) (lazy : bool) : list N := match c with Once => [] | _ => if lazy then [63]%N else [] end.
Fixpoint w_alts (a : alts) : list N := match a with One s => w_sequ s | Or s a => w_sequ s ++ 124%N :: w_alts a end
with w_sequ (s : sequ) : list N := match s with Empty => [] | Then x c z s => w_atom x ++ w_count c ++ w_lazy c z ++ w_sequ s end
with w_atom (x : atom) : list N :=
  match x with
  | AChar x => [x] | AEsc x => [92; x] | APerl c => [92; c] | AAny => [46] | ABegin => [94] | AEnd => [36]
  | ASet neg l => 91 :: (if neg then [94] else []) ++ w_items l ++ [93]
  | AGroup true a => 40 :: w_alts a ++ [41]
  | AGroup false a => 40 :: 63 :: 58 :: w_alts a ++ [41]
  | ALook true a => 40 :: 63 :: 33 :: w_alts a ++ [41]
  | ALook false a => 40 :: 63 :: 60 :: 33 :: w_alts a ++ [41]
  end%N.

(** ** What can be written this way *)
Definition meta : list N := [92; 46; 43; 42; 63; 40; 41; 124; 91; 123; 94; 36]%N.
Definition punct (x : N) : Prop := (33 <= x <= 47 \/ 58 <= x <= 64 \/ 91 <= x <= 96 \/ 123 <= x <= 127)%N.
Definition perl (c : N) : Prop := (c = 100 \/ c = 119 \/ c = 115)%N.
Definition ok_cchar (c : cchar) : Prop := match c with Bare x => ~ In x [91; 92; 93]%N | Escaped x => punct x end.
Definition char_of (c : cchar) : N := match c with Bare x | Escaped x => x end.
(** A closing bracket may stand first, a hyphen first, last or after a range or a shorthand; folding is for ASCII ranges. *)
Fixpoint ok_items (fold first : bool) (l : list item) : Prop :=
  match l with
  | [] => True
  | i :: l' =>
      match i with
      | IChar c => (ok_cchar c \/ first = true /\ c = Bare 93%N) /\ (l' = [IChar (Bare 45%N)] \/ hd 0%N (w_items l') <> 45%N)
      | IRange a b => ok_cchar a /\ ok_cchar b /\ (char_of a <= char_of b)%N /\ (fold = true -> (char_of b < 128)%N)
      | IPerl c => perl c
      end /\ ok_items fold false l'
  end.
Definition value (d : list N) : nat := fold_left (fun n x => n * 10 + N.to_nat x) d 0.
Definition ok_number (d : list N) : Prop :=
  d <> [] /\ Forall (fun x => (x < 10)%N) d /\ (hd 0%N d = 0%N -> length d = 1) /\ value d <= 1000.
Definition ok_count (c : count) : Prop :=
  match c with
  | Once | ZeroMore | OneMore | ZeroOne => True
  | Exactly d | AtLeast d => ok_number d
  | Between d e => ok_number d /\ ok_number e /\ value d <= value e
  end.
Fixpoint ok_alts (fold : bool) (a : alts) : Prop := match a with One s => ok_sequ fold s | Or s a => ok_sequ fold s /\ ok_alts fold a end
with ok_sequ (fold : bool) (s : sequ) : Prop := match s with Empty => True | Then x c _ s => ok_atom fold x /\ ok_count c /\ ok_sequ fold s end
with ok_atom (fold : bool) (x : atom) : Prop :=
  match x with
  | AChar x => ~ In x meta | AEsc x => punct x | APerl c => perl c
  | AAny | ABegin | AEnd => True
  | ASet neg l => l <> [] /\ ok_items fold true l /\ (neg = false -> hd 0%N (w_items l) <> 94%N)
  | AGroup _ a | ALook _ a => ok_alts fold a
  end.
(** Without look-arounds: what Go can compile. *)
Fixpoint go_alts (a : alts) : Prop := match a with One s => go_sequ s | Or s a => go_sequ s /\ go_alts a end
with go_sequ (s : sequ) : Prop := match s with Empty => True | Then x _ _ s => go_atom x /\ go_sequ s end
with go_atom (x : atom) : Prop := match x with AGroup _ a => go_alts a | ALook _ _ => False | _ => True end.

(** ** Meaning: [u] before, [v] matched, [w] after, as in [lang] *)
(** Case variants. *)
Definition variant (fold : bool) (x y : N) : Prop := if fold then In y (orbit x) else y = x.
Definition in_perl (c z : N) : Prop :=
  (c = 100 /\ 48 <= z <= 57 \/
   c = 119 /\ (48 <= z <= 57 \/ 65 <= z <= 90 \/ z = 95 \/ 97 <= z <= 122) \/
   c = 115 /\ (z = 9 \/ z = 10 \/ z = 12 \/ z = 13 \/ z = 32))%N.
Definition in_item (fold : bool) (i : item) (y : N) : Prop :=
  match i with
  | IChar c => variant fold (char_of c) y
  | IRange a b => exists z, (char_of a <= z <= char_of b)%N /\ variant fold z y
  | IPerl c => exists z, in_perl c z /\ variant fold z y
  end.
Definition one_rune (P : N -> Prop) (v : text) : Prop := exists y wd, v = [(y, wd)] /\ P y.
Fixpoint times (M : text -> text -> text -> Prop) (n : nat) (u v w : text) : Prop :=
  match n with
  | 0 => v = []
  | S n' => exists v1 v2, v = v1 ++ v2 /\ M u v1 (v2 ++ w) /\ times M n' (u ++ v1) v2 w
  end.
Definition allowed (c : count) (n : nat) : Prop :=
  match c with
  | Once => n = 1 | ZeroMore => True | OneMore => 1 <= n | ZeroOne => n <= 1
  | Exactly d => n = value d | AtLeast d => value d <= n | Between d e => value d <= n <= value e
  end.
Fixpoint m_alts (fold : bool) (a : alts) (u v w : text) : Prop :=
  match a with One s => m_sequ fold s u v w | Or s a => m_sequ fold s u v w \/ m_alts fold a u v w end
with m_sequ (fold : bool) (s : sequ) (u v w : text) : Prop :=
  match s with
  | Empty => v = []
  | Then x c _ s => exists v1 v2 n, v = v1 ++ v2 /\ allowed c n /\ times (m_atom fold x) n u v1 (v2 ++ w) /\ m_sequ fold s (u ++ v1) v2 w
  end
with m_atom (fold : bool) (x : atom) (u v w : text) : Prop :=
  match x with
  | AChar x | AEsc x => one_rune (variant fold x) v
  | APerl c => one_rune (fun y => exists z, in_perl c z /\ variant fold z y) v
  | AAny => one_rune (fun y => y <> 10%N) v
  | ABegin => u = [] /\ v = []
  | AEnd => v = [] /\ w = []
  | ASet false l => one_rune (fun y => exists i, In i l /\ in_item fold i y) v
  | ASet true l => one_rune (fun y => ~ exists i, In i l /\ in_item fold i y) v
  | AGroup _ a => m_alts fold a u v w
  | ALook true a => v = [] /\ ~ exists v' w', w = v' ++ w' /\ m_alts fold a u v' w'
  | ALook false a => v = [] /\ ~ exists u' v', u = u' ++ v' /\ m_alts fold a u' v' w
  end.
(** The number of groups that capture. *)
Fixpoint n_alts (a : alts) : nat := match a with One s => n_sequ s | Or s a => n_sequ s + n_alts a end
with n_sequ (s : sequ) : nat := match s with Empty => 0 | Then x _ _ s => n_atom x + n_sequ s end
with n_atom (x : atom) : nat :=
  match x with AGroup true a => S (n_alts a) | AGroup false a | ALook _ a => n_alts a | _ => 0 end.

(** ** A pattern: folding the case or not *)
Definition written (fold : bool) (a : alts) : list N := (if fold then [40; 63; 105; 41]%N else []) ++ w_alts a.
(** [src] is that pattern, in UTF-8. *)
Definition encodes (src : bytes) (l : list N) : Prop := Forall scalar l /\ map bn src = flat_map utf8 l.
Definition occurs (fold : bool) (a : alts) (s : text) : Prop := exists u v w, s = u ++ v ++ w /\ m_alts fold a u v w.

(** All patterns of the tables. *)
Definition patterns_of (T : tables) : list regex :=
  re_tablet T :: re_mobile T :: re_blink T :: cr_re T ++ cr_evre T ++ or_re T ++ vr_re T ++ dr_re T.

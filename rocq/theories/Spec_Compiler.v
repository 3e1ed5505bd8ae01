(** Vocabulary for the properties of the table compiler (C42-C45). *)
From Verif Require Import Model_Base Model_Ctx Model_Compiler Spec_Select.

(** The strings of a list, each at its first occurrence only. *)
Fixpoint firsts (seen l : list bytes) : list bytes :=
  match l with
  | [] => []
  | s :: l' => if existsb (beqs s) seen then firsts seen l' else s :: firsts (s :: seen) l'
  end.
Definition total (l : list bytes) : N := N.of_nat (length (concat l)).

(** [w] occurs in [s]. *)
Definition within (w s : bytes) : Prop := exists a b, s = a ++ w ++ b.
(** A negative look-around that the detectors of regex.go:13-15 see: the opener, at least one byte other than ')',
    and ')'. *)
Definition seen_by (opener s : bytes) : Prop :=
  exists a body b, s = a ++ opener ++ body ++ x29 :: b /\ body <> [] /\ ~ In x29 body.

(** The value of a Go integer literal in base 16, possibly negated: [0x1f], [-0x1f]. *)
Definition hex_value (c : byte) : option N :=
  let n := bn c in
  if ((48 <=? n) && (n <=? 57))%N then Some (n - 48)%N
  else if ((97 <=? n) && (n <=? 102))%N then Some (n - 87)%N
  else if ((65 <=? n) && (n <=? 70))%N then Some (n - 55)%N
  else None.
Fixpoint hex_digits_value (s : bytes) (acc : N) : option N :=
  match s with
  | [] => Some acc
  | c :: r => match hex_value c with Some d => hex_digits_value r (16 * acc + d)%N | None => None end
  end.
Definition nat_literal (s : bytes) : option N :=
  match s with
  | x30 :: x78 :: c :: r => hex_digits_value (c :: r) 0
  | _ => None
  end.
Definition literal (s : bytes) : option Z :=
  match s with
  | x2d :: r => match nat_literal r with Some n => Some (- Z.of_N n)%Z | None => None end
  | _ => match nat_literal s with Some n => Some (Z.of_N n) | None => None end
  end.
(** The elements of a list of literals separated by commas, white space ignored. *)
Definition blank (c : byte) : bool := beq c x20 || beq c x0a.
Fixpoint elements (s cur : bytes) : list bytes :=
  match s with
  | [] => []
  | c :: r => if beq c x2c then cur :: elements r []
              else if blank c then elements r cur else elements r (cur ++ [c])
  end.

(** The strings added to a compiler buffer so far. *)
Definition filled (ss : list bytes) (b : cbuf) : Prop := exists es, compile_entries buf_add ss buf_empty = (es, b).

(** The engine of the first threshold of the map [m], in text order, that is not above [s]; the default otherwise. *)
Definition first_engine (m : list (bytes * bytes)) (def s w : bytes) : Prop :=
  (exists k, In (k, w) m /\ text_le k s /\ forall k', In k' (map fst m) -> text_le k' s -> text_le k k') \/
  ((forall k, In k (map fst m) -> ~ text_le k s) /\ w = def).
(** [k] is the smallest key of the map, as text. *)
Definition smallest (k : bytes) (m : list (bytes * bytes)) : Prop :=
  In k (map fst m) /\ forall k', In k' (map fst m) -> text_le k k'.

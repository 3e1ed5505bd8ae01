(** What a dotted version text means, independently of version.go. *)
From Verif Require Import Model_Base Model_Version.

(** [Digit c k]: [c] is the decimal digit of value [k]. *)
Definition Digit (c : byte) (k : nat) : Prop := nth_error (bs "0123456789") k = Some c.

(** [Decimal s n]: [s] is a non-empty run of decimal digits denoting [n]. *)
Inductive Decimal : bytes -> Z -> Prop :=
| Decimal_one : forall c k, Digit c k -> Decimal [c] (Z.of_nat k)
| Decimal_snoc : forall s n c k, Decimal s n -> Digit c k -> Decimal (s ++ [c]) (10 * n + Z.of_nat k).

(** [IsInt s z]: [s] is a decimal integer literal with optional sign, in the int64 range. *)
Definition IsInt (s : bytes) (z : Z) : Prop :=
  (- 2 ^ 63 <= z < 2 ^ 63)%Z /\
  exists ds n, Decimal ds n /\
    ((s = ds /\ z = n) \/ (s = bs "+" ++ ds /\ z = n) \/ (s = bs "-" ++ ds /\ z = (- n)%Z)).

(** [Peel n s cs rest]: [cs] are the at most [n] leading dot-separated components of [s], [rest] the text after
    the [n]-th dot (empty when there are fewer dots). *)
Inductive Peel : nat -> bytes -> list bytes -> bytes -> Prop :=
| Peel_done : forall s, Peel 0 s [] s
| Peel_empty : forall n, Peel (S n) [] [] []
| Peel_last : forall n s, s <> [] -> ~ In x2e s -> Peel (S n) s [s] []
| Peel_dot : forall n c s cs rest, ~ In x2e c -> Peel n s cs rest -> Peel (S n) (c ++ x2e :: s) (c :: cs) rest.

(** The int32 value of an integer: the representative modulo 2^32 in the int32 range. *)
Definition Int32Of (z w : Z) : Prop := (- 2 ^ 31 <= w < 2 ^ 31)%Z /\ exists k, (w = z + k * 2 ^ 32)%Z.

Definition fields (v : version) : list Z := [v_major v; v_minor v; v_patch v; v_revision v].

(** [v'] has the components [zs] (as int32) where [zs] has an element and those of [v] elsewhere. *)
Definition FieldsFrom (v : version) (zs : list Z) (v' : version) : Prop :=
  forall i, i < 4 ->
    match nth_error zs i with
    | Some z => Int32Of z (nth i (fields v') 0%Z)
    | None => nth i (fields v') 0%Z = nth i (fields v) 0%Z
    end.

Definition is_sep (c : byte) : Prop := c = x20 \/ c = x2d.

(** The suffix of a remainder: the text after its first space or hyphen, [old] when there is none. *)
Definition SuffixFrom (old rest suf : bytes) : Prop :=
  (exists a c, rest = a ++ c :: suf /\ is_sep c /\ (forall x, In x a -> ~ is_sep x)) \/
  ((forall x, In x rest -> ~ is_sep x) /\ suf = old).

(** All components are non-negative int32 values. *)
Definition nonneg32 (v : version) : Prop :=
  (0 <= v_major v < 2147483648 /\ 0 <= v_minor v < 2147483648 /\
   0 <= v_patch v < 2147483648 /\ 0 <= v_revision v < 2147483648)%Z.

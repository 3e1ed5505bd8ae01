(** What the command line of [uaxpl] means. *)
From Verif Require Import Model_Base Model_Command Model_Main Spec_Uaxplc.
From Coq Require Import Strings.Byte Permutation.

(** ** Numbers, as Go writes them *)
Definition numeral (base : N) (c : byte) (d : N) : Prop :=
  (d < base)%N /\ (((d < 10)%N /\ bn c = (48 + d)%N) \/ ((10 <= d < 36)%N /\ (bn c = (87 + d)%N \/ bn c = (55 + d)%N))).
(** Digits in a base, behind digits of value [a]; single underscores may stand between them. *)
Inductive digits_from (base : N) : N -> bytes -> N -> Prop :=
| D_last a c d : numeral base c d -> digits_from base a [c] (a * base + d)
| D_next a c d s v : numeral base c d -> digits_from base (a * base + d) s v -> digits_from base a (c :: s) v
| D_gap a c d s v : numeral base c d -> digits_from base (a * base + d) s v -> digits_from base a (c :: x5f :: s) v.
Definition digits (base : N) (s : bytes) (v : N) : Prop := digits_from base 0 s v.
Definition prefixes : list (bytes * N) := [(bs "0b", 2); (bs "0B", 2); (bs "0o", 8); (bs "0O", 8); (bs "0x", 16); (bs "0X", 16)]%N.
Inductive unsigned : bytes -> N -> Prop :=
| U_decimal c s v : c <> x30 -> digits 10 (c :: s) v -> unsigned (c :: s) v
| U_octal s v : digits 8 (x30 :: s) v -> unsigned (x30 :: s) v
| U_prefix p base s v : In (p, base) prefixes -> digits base s v -> unsigned (p ++ s) v
| U_prefix_gap p base s v : In (p, base) prefixes -> digits base s v -> unsigned (p ++ x5f :: s) v.
Inductive number : bytes -> Z -> Prop :=
| N_plain s v : unsigned s v -> (Z.of_N v < 2 ^ 63)%Z -> number s (Z.of_N v)
| N_plus s v : unsigned s v -> (Z.of_N v < 2 ^ 63)%Z -> number (x2b :: s) (Z.of_N v)
| N_minus s v : unsigned s v -> (Z.of_N v <= 2 ^ 63)%Z -> number (x2d :: s) (- Z.of_N v)%Z.

(** ** Flags *)
Inductive reads : kind -> bytes -> value -> Prop :=
| R_text v : reads KText v (VText v)
| R_number s z : number s z -> reads KNumber s (VNumber z)
| R_on s : In s [bs "1"; bs "t"; bs "T"; bs "true"; bs "TRUE"; bs "True"] -> reads KSwitch s (VSwitch true)
| R_off s : In s [bs "0"; bs "f"; bs "F"; bs "false"; bs "FALSE"; bs "False"] -> reads KSwitch s (VSwitch false).
(** One flag: in one of the four ways of [setting]; a switch is one argument, with its value or for [true]. *)
Inductive sets_flag : bytes -> kind -> value -> list bytes -> Prop :=
| F_value n k s v a : k <> KSwitch -> reads k s v -> setting n s a -> sets_flag n k v a
| F_switch n s v : reads KSwitch s v -> sets_flag n KSwitch v [bs "-" ++ n ++ bs "=" ++ s]
| F_switch_long n s v : reads KSwitch s v -> sets_flag n KSwitch v [bs "--" ++ n ++ bs "=" ++ s]
| F_bare n : sets_flag n KSwitch (VSwitch true) [bs "-" ++ n]
| F_bare_long n : sets_flag n KSwitch (VSwitch true) [bs "--" ++ n].
Inductive spells (known : list (bytes * kind)) : list bytes -> list (bytes * value) -> Prop :=
| Sp_end args : flags_end args -> spells known args []
| Sp_set n k v a args l : In (n, k) known -> sets_flag n k v a -> spells known args l -> spells known (a ++ args) ((n, v) :: l).

(** The flags of uaxpl. *)
Definition flags : list (bytes * kind) :=
  [(bs "ua", KText); (bs "file", KText); (bs "url", KText); (bs "out", KText); (bs "threads", KNumber); (bs "format", KText); (bs "verbose", KSwitch)].
(** The last setting of a flag, or its default. *)
Definition last_set (n : bytes) (def : value) (l : list (bytes * value)) (v : value) : Prop :=
  (exists l1 l2, l = l1 ++ (n, v) :: l2 /\ ~ In n (map fst l2)) \/ (v = def /\ ~ In n (map fst l)).
Definition options_are (l : list (bytes * value)) (o : options) : Prop :=
  last_set (bs "ua") (VText []) l (VText (op_ua o)) /\ last_set (bs "file") (VText []) l (VText (op_file o)) /\
  last_set (bs "url") (VText []) l (VText (op_url o)) /\ last_set (bs "out") (VText (bs "out.diff.txt")) l (VText (op_out o)) /\
  last_set (bs "threads") (VNumber 1) l (VNumber (op_threads o)).
(** Settings of the five flags a run depends on. *)
Definition matters (s : bytes * value) : bool := negb (beqs (fst s) (bs "format") || beqs (fst s) (bs "verbose")).

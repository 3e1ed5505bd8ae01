(** Names inside words. *)
From Verif Require Import Model_Base Model_Ctx Spec_Select.

(** [w] is the word [s] (in small letters), each letter small or capital. *)
Definition spelled (w s : bytes) : Prop :=
  Forall2 (fun x c => x = c \/ ((65 <= bn x <= 90)%N /\ (bn x + 32 = bn c)%N)) w s.
(** [s] stands somewhere in the user agent, perhaps inside a longer word. *)
Definition says (s ua : bytes) : Prop := exists a w b, ua = a ++ w ++ b /\ spelled w s.

(** Words, and the number of the entry of the phones that has them. *)
Definition names_inside : list (bytes * nat) :=
  [(bs "quest", 250); (bs "lg", 862); (bs "mot", 1029); (bs "eko", 426); (bs "eze", 502); (bs "goa", 1794); (bs "acer", 58); (bs "falcon", 78);
   (bs "fly", 543); (bs "onda", 1161); (bs "glass", 626); (bs "shield", 1128)]%nat.

(** The one device pattern that looks at what precedes: number 1103 of the phones, "^NEXT |...". *)
Definition next_box : nat * nat := (3, 1103)%nat.
Definition requests : bytes := bs "python-requests/2.25.1".
(** [s] stands where a word starts: at the very beginning, or behind something that is neither a letter nor a digit. *)
Definition in_word (c : byte) : Prop := (48 <= bn c <= 57 \/ 65 <= bn c <= 90 \/ 97 <= bn c <= 122)%N.
Definition starts_word (s ua : bytes) : Prop :=
  exists a w b, ua = a ++ w ++ b /\ spelled w s /\ (a = [] \/ exists a' c, a = a' ++ [c] /\ ~ in_word c).

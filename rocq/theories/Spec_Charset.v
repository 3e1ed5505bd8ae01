(** Which characters a version string may contain. *)
From Verif Require Import Model_Base.
Open Scope N_scope.

Definition byte_in (lo hi : N) (b : byte) : Prop := lo <= bn b <= hi.
Definition ascii_digit : byte -> Prop := byte_in 48 57.
Definition ascii_letter (b : byte) : Prop := byte_in 65 90 b \/ byte_in 97 122 b.

(** A letter, a digit, one of the bytes listed, or a byte of a character outside ASCII. *)
Definition plain (also : bytes) (b : byte) : Prop :=
  ascii_digit b \/ ascii_letter b \/ In b also \/ 128 <= bn b.

(** Neither a control character nor one of the characters that end a string or start markup: quote, back-quote, angle
    brackets, backslash. *)
Definition calm (b : byte) : Prop :=
  32 <= bn b /\ bn b <> 127 /\ ~ In b [x22; x60; x3c; x3e; x5c].

(** User agents without words. *)
From Verif Require Import Model_Base.

(** A letter or digit, or part of a character beyond ASCII. *)
Definition wordy (c : byte) : bool :=
  ((48 <=? bn c) && (bn c <=? 57) || (65 <=? bn c) && (bn c <=? 90) || (97 <=? bn c) && (bn c <=? 122) || (128 <=? bn c))%N.
(** How many of them a text has. *)
Definition weight (s : bytes) : nat := length (filter wordy s).

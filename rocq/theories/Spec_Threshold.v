(** What the text order of Go says about numbers written in decimal (C39). *)
From Coq Require Import ZArith List.
Import ListNotations.
From Verif Require Import Model_Base.

(** The first digit is not 0. *)
Definition plain (s : bytes) : Prop := exists c r, s = c :: r /\ c <> x30.

(** [reaches l k j n]: the number [n], written with [j] digits, is at or after the number [k], written with [l] digits,
    in the order of texts.  The shorter number is compared with the leading digits of the longer one. *)
Definition reaches (l : nat) (k : Z) (j : nat) (n : Z) : Prop :=
  if j <? l then (k / 10 ^ Z.of_nat (l - j) < n)%Z else (k <= n / 10 ^ Z.of_nat (j - l))%Z.

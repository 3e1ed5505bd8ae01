(** The user agents of HTTP libraries. *)
From Verif Require Import Model_Base Model_CacheEntry Model_Ctx Model_Parse Model_Shipped Spec_Getters Spec_Family.

(** The word a library begins its user agent with, and the name the library goes by. *)
Definition library_ua (word v : bytes) : bytes := word ++ bs "/" ++ v.
Definition libraries : list (bytes * bytes) := [(bs "curl", bs "curl"); (bs "Wget", bs "Wget"); (bs "python-requests", bs "Python Requests")].
(** A release: two numerals and a digit. *)
Inductive patch_release : bytes -> Prop :=
| PR n m d : numeral n -> numeral m -> digit d -> patch_release (n ++ bs "." ++ m ++ bs "." ++ [d]).

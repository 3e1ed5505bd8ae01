(** The user agents of browsers that add their own name and version to the one of Chrome. *)
From Verif Require Import Model_Base Model_CacheEntry Model_Ctx Model_Parse Model_Shipped Spec_Getters Spec_Family Spec_Phone.

Definition added (ua word v : bytes) : bytes := ua ++ x20 :: word ++ x2f :: v.
(** The names added on desktops, with the names reported. *)
Definition derived : list (bytes * bytes) := [(bs "Vivaldi", bs "Vivaldi"); (bs "OPR", bs "Opera")].

(** The user agents of Chrome on Android phones. *)
From Verif Require Import Model_Base Model_CacheEntry Model_Ctx Model_Parse Model_Shipped Spec_Getters Spec_Family.

(** Chrome names no model ("K") and any release of Android. *)
Definition android_ua (release v : bytes) : bytes :=
  bs "Mozilla/5.0 (Linux; Android " ++ release ++ bs "; K) AppleWebKit/537.36 (KHTML, like Gecko) Chrome/" ++ v ++ bs " Mobile Safari/537.36".
(** A release: a digit, or a version number. *)
Inductive release_number : bytes -> Prop :=
| RN_digit d : digit d -> release_number [d]
| RN_version v : version_number v -> release_number v.

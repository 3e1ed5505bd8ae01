(** The user agents of Chrome, Firefox and Edge on an iPhone. *)
From Verif Require Import Model_Base Model_CacheEntry Model_Ctx Model_Parse Model_Shipped Spec_Getters Spec_Family Spec_Iphone.

Definition iphone_other (word rest a v : bytes) : bytes :=
  bs "Mozilla/5.0 (iPhone; CPU iPhone OS " ++ a ++ bs " like Mac OS X) AppleWebKit/605.1.15 (KHTML, like Gecko) " ++ word ++ x2f :: v ++ rest.
(** What they write before and after the version, and the name reported. *)
Definition iphone_browsers : list (bytes * bytes * bytes) :=
  [(bs "CriOS", bs " Mobile/15E148 Safari/604.1", bs "Chrome Mobile iOS");
   (bs "FxiOS", bs " Mobile/15E148 Safari/605.1.15", bs "Firefox Mobile iOS");
   (bs "Version/17.0 EdgiOS", bs " Mobile/15E148 Safari/604.1", bs "Microsoft Edge")].
(** A release with at least two numbers, as these browsers give it. *)
Definition full_release (ns : list bytes) : Prop := ios_release ns /\ (2 <= length ns)%nat.
(** The version does not start with 19. *)
Definition not_19 (v : bytes) : Prop := forall r, v <> bs "19" ++ r.

(** The user agents of Safari on an iPhone. *)
From Verif Require Import Model_Base Model_CacheEntry Model_Ctx Model_Parse Model_Shipped Spec_Getters Spec_Family.

Definition iphone_safari (a v : bytes) : bytes :=
  bs "Mozilla/5.0 (iPhone; CPU iPhone OS " ++ a ++ bs " like Mac OS X) AppleWebKit/605.1.15 (KHTML, like Gecko) Version/" ++ v ++ bs " Mobile/15E148 Safari/604.1".
(** Numerals with a separator between them. *)
Definition joined (sep : byte) (ns : list bytes) : bytes :=
  match ns with [] => [] | n :: r => n ++ flat_map (fun m => sep :: m) r end.
(** The numbers of a release of iOS: the first has one or two digits and is not 19. *)
Definition ios_release (ns : list bytes) : Prop :=
  exists n r, ns = n :: r /\ numeral n /\ (length n <= 2)%nat /\ n <> bs "19" /\ Forall numeral r.

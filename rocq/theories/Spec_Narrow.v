(** Filters compared by the types they switch on. *)
From Verif Require Import Model_Base Model_Ctx Model_Parse Spec_Getters Spec_Select.

(** Every client type switched on in [m'] is switched on in [m]. *)
Definition within (m' m : N) : Prop := forall t, In t [1; 2; 4; 8; 16; 32]%N -> on m' t -> on m t.
(** The same for the eight device types that have a file of their own. *)
Definition device_bits : list N := [128; 256; 16; 512; 64; 32; 2; 1]%N.
Definition within_devices (m' m : N) : Prop := forall t, In t device_bits -> on m' t -> on m t.

(** All filters of a list together. *)
Definition together (ms : list N) : N := fold_right N.lor 0%N ms.

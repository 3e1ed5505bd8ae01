(** Databases that say the same about one user agent. *)
From Verif Require Import Model_Base Model_Ctx Model_Regex Model_Compiler Model_Built Spec_Select Spec_Database.

(** The same element is the first (last) with the property, or none has it in either list. *)
Definition same_first {A} (P : A -> Prop) (l l' : list A) : Prop :=
  (forall y, first P l y <-> first P l' y) /\ (none P l <-> none P l').
(** [l'] is [l] with further elements put in anywhere, none of which has the property. *)
Inductive padded {A} (P : A -> Prop) : list A -> list A -> Prop :=
| PA_end : padded P [] []
| PA_keep x l l' : padded P l l' -> padded P (x :: l) (x :: l')
| PA_more x l l' : ~ P x -> padded P l l' -> padded P l (x :: l').
(** The same elements have the property, whatever the order of the lists. *)
Definition same_hits {A} (P : A -> Prop) (l l' : list A) : Prop := forall x, P x -> (In x l <-> In x l').
Definition differ {A B} (l : list (A * B)) : Prop := NoDup (map fst l).

Section Agree.
Variable K : compiler.
Variable ua : bytes.
Variables D D' : database.

Definition clients_agree : Prop := forall i, i < 7 -> same_first (client_hit K ua) (class D i) (class D' i).
Definition os_agree : Prop := same_first (os_hit K ua) (db_os D) (db_os D').
Definition engines_agree : Prop := forall en, known_engine D en <-> known_engine D' en.
(** Devices: in every file the same brands apply. *)
Definition devices_agree : Prop := forall i f f', nth_error (db_device D) i = Some f -> nth_error (db_device D') i = Some f' ->
  differ f /\ differ f' /\ same_hits (brand_hit K ua) f f'.
(** Vendors: the same ones have a fragment that is found. *)
Definition vendor_hit (v : bytes * list bytes) : Prop :=
  exists r, In r (snd v) /\ re_find (compile (r ++ bs "[^a-z0-9]+")) ua <> None.
Definition vendors_agree : Prop := differ (db_vendor D) /\ differ (db_vendor D') /\ same_hits vendor_hit (db_vendor D) (db_vendor D').

(** Databases the theorems of C53-C56 speak about. *)
Definition proper (D : database) : Prop :=
  length (db_client D) = 7 /\ Forall (Forall client_proper) (db_client D) /\ Forall os_proper (db_os D) /\
  length (db_device D) = 8 /\ Forall (Forall brand_proper) (db_device D) /\ Forall (fun v => fst v <> []) (db_vendor D) /\
  built_small (built K D).
End Agree.

(** Entries of the shipped database that can never answer. *)
From Verif Require Import Model_Base Model_Ctx Model_Parse Model_Shipped Spec_Select Spec_Getters Spec_Dead
  Proof_Choice Proof_Dead Proof_Live.
Open Scope nat_scope.

(** C87: an entry is dead when there is no user agent for which it is the first of its list to apply.  Of the operating
    systems exactly three are. *)
Theorem C87_os : forall i, i < length (or_os shipped) -> (dead (os_applies shipped) (or_os shipped) i <-> In i dead_os).
Proof. exact os_exact. Qed.
Print Assumptions C87_os.
(** The system "Gentoo" (number 201) applies to this user agent, and yet the entry "Debian|...|Gentoo" is taken: *)
Example C87_os_case : exists x, nth_error (or_os shipped) 201 = Some x /\ os_applies shipped (bs "my gentoo") x.
Proof. exact (os_case shipped 201 (bs "my gentoo") ltac:(vm_compute; reflexivity)). Qed.
Example C87_os_live : 0 < length (or_os shipped) /\ ~ dead (os_applies shipped) (or_os shipped) 0.
Proof. exact os_live_case. Qed.

(** C87: of the engines (class 0) none, of the clients (classes 1 to 6) exactly nine. *)
Theorem C87_clients : forall k l i, nth_error (cr_idx shipped) k = Some l -> i < length l ->
  (dead (client_applies shipped) l i <-> In (k, i) dead_clients).
Proof. exact client_exact. Qed.
Print Assumptions C87_clients.
(** The mobile app "Podimo" (number 459) applies to this user agent; entry 167 is taken. *)
Example C87_clients_case : exists l x, nth_error (cr_idx shipped) 5 = Some l /\ nth_error l 459 = Some x /\ client_applies shipped (bs "Podimo/1.2.3") x.
Proof. exact (client_case shipped 5 459 (bs "Podimo/1.2.3") ltac:(vm_compute; reflexivity)). Qed.

(** C87: of the devices exactly forty-three. *)
Theorem C87_devices : forall k l i, nth_error (dr_idx shipped) k = Some l -> i < length l ->
  (dead (device_applies shipped) l i <-> In (k, i) dead_devices).
Proof. exact device_exact. Qed.
Print Assumptions C87_devices.
(** The phone "TiPhone" (number 1591) applies to this user agent; an earlier entry (Apple) is taken. *)
Example C87_devices_case : exists l x, nth_error (dr_idx shipped) 3 = Some l /\ nth_error l 1591 = Some x /\ device_applies shipped (bs "TiPhone A808") x.
Proof. exact (device_case shipped 3 1591 (bs "TiPhone A808") ltac:(vm_compute; reflexivity)). Qed.

(** So the claim that every entry answers to some user agent is false, for each of the three tables. *)
Theorem C87_every_entry_refuted :
  (exists i, i < length (or_os shipped) /\ dead (os_applies shipped) (or_os shipped) i) /\
  (exists k l i, nth_error (cr_idx shipped) k = Some l /\ i < length l /\ dead (client_applies shipped) l i) /\
  (exists k l i, nth_error (dr_idx shipped) k = Some l /\ i < length l /\ dead (device_applies shipped) l i).
Proof. exact some_dead. Qed.
Print Assumptions C87_every_entry_refuted.

(** C87: without the dead entries every getter answers the same, alone and, whatever the cache holds, step by step: the
    same questions to the cache, the same rows stored, the same context in the end. *)
Theorem C87_removed :
  let T := with_lists shipped (without dead_os (or_os shipped)) (without_each dead_clients (cr_idx shipped)) (without_each dead_devices (dr_idx shipped)) in
  (forall mC mD h ua g, alone T mC mD h ua g = alone shipped mC mD h ua g) /\
  (forall g c, alike (run_getter T g c) (run_getter shipped g c)).
Proof. exact thinned_same. Qed.
Print Assumptions C87_removed.
Example C87_removed_case : length (or_os shipped) = 330 /\ length (without dead_os (or_os shipped)) = 327.
Proof. vm_compute. auto. Qed.

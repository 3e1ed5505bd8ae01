(** Properties C27, C33: operating system detection. *)
From Verif Require Import Model_Base Model_CacheEntry Model_Ctx Model_Parse Model_Shipped Spec_Getters Spec_Select
  Proof_OS Proof_Choice Proof_Reports Proof_Tables.

(** C27: the operating system reported is the first entry that applies (the skip rules are part of [os_is]); there is at
    most one such entry, and without one the name is UNK and the version empty. *)
Theorem C27_os_first : forall T mC mD h ua, os_sane T -> small ua ->
  (forall s, alone T mC mD h ua GOS = Ok (VB s) ->
     (no_os T ua -> s = bs "UNK") /\ (forall x, os_is T ua x -> os_name_is T ua x s) /\
     (no_os T ua \/ exists x, os_is T ua x)) /\
  (forall s, alone T mC mD h ua GOSVersionString = Ok (VB s) ->
     (no_os T ua -> s = []) /\ (forall x, os_is T ua x -> exists v, os_version_is T ua x v /\ dotted v s)).
Proof. exact os_reports. Qed.
Print Assumptions C27_os_first.

Example C27_tables : os_sane shipped.
Proof. exact shipped_os_sane. Qed.
Example C27_case :
  alone shipped 63 1023 0 (bs "Akregator/1.2.3 (NuttX/10.1; EK-GC120)") GOS = Ok (VB (bs "NuttX")) /\
  alone shipped 63 1023 0 (bs "Akregator/1.2.3 (NuttX/10.1; EK-GC120)") GOSVersionString = Ok (VB (bs "10.1")).
Proof. exact (conj (bytes_case shipped 63 1023 0 (bs "Akregator/1.2.3 (NuttX/10.1; EK-GC120)") GOS (bs "NuttX") ltac:(vm_compute; reflexivity)) (bytes_case shipped 63 1023 0 (bs "Akregator/1.2.3 (NuttX/10.1; EK-GC120)") GOSVersionString (bs "10.1") ltac:(vm_compute; reflexivity))). Qed.

(** C33: the version string is the version text of the entry with dots for underscores. *)
Theorem C33_os_version_dotted : forall T mC mD h ua s,
  os_sane T -> small ua -> alone T mC mD h ua GOSVersionString = Ok (VB s) ->
  ~ In x5f s /\
  exists v, (no_os T ua /\ v = [] \/ exists x, os_is T ua x /\ os_version_is T ua x v) /\ dotted v s.
Proof. exact os_version_clean. Qed.
Print Assumptions C33_os_version_dotted.

Example C33_case : alone shipped 63 1023 0 (bs "CPU OS 12_1 like") GOSVersionString = Ok (VB (bs "12.1")).
Proof. exact (bytes_case shipped 63 1023 0 (bs "CPU OS 12_1 like") GOSVersionString (bs "12.1") ltac:(vm_compute; reflexivity)). Qed.

(** Properties C35-C37: which user agents make the shipped detections panic. *)
From Verif Require Import Model_Base Model_CacheEntry Model_Version Model_Ctx Model_Parse Model_Shipped
  Spec_Getters Spec_Select Spec_Panic Proof_Choice Proof_Reports Proof_Fine.

(** C35: the getters of the operating system never panic, for any user agent shorter than 4 GiB. *)
Theorem C35_os_no_panic : forall mC mD h ua g, small ua -> In g [GOS; GOSVersion; GOSVersionString] ->
  alone shipped mC mD h ua g <> Panic.
Proof. exact shipped_os_no_panic. Qed.
Print Assumptions C35_os_no_panic.

(** C36: the getters of the device never panic, for any user agent shorter than 16 MiB. *)
Theorem C36_device_no_panic : forall mC mD h ua g, short ua -> In g [GDeviceType; GBrand; GModel] ->
  alone shipped mC mD h ua g <> Panic.
Proof. exact shipped_device_no_panic. Qed.
Print Assumptions C36_device_no_panic.

(** C37 is false: "Symfony HttpClient/" makes the getters of the client panic. *)
Theorem C37_client_panics_refuted : exists mC mD h ua g, small ua /\ In g client_getters /\ alone shipped mC mD h ua g = Panic.
Proof. exact (ex_intro _ 4%N (ex_intro _ 0%N (ex_intro _ 0%N (ex_intro _ (bs "Symfony HttpClient/") (ex_intro _ GBrowser
  (client_panic_witness (bs "Symfony HttpClient/") 4 0 0 GBrowser eq_refl ltac:(cbn; auto))))))). Qed.
Print Assumptions C37_client_panics_refuted.

(** ... and this is the whole extent of it: a getter of the client panics if and only if the entry the detection
    chooses is one of eight entries of the table, each of which names a group its pattern does not have. *)
Theorem C37_exactly_eight_entries : forall mC mD h ua g, small ua -> In g client_getters ->
  (alone shipped mC mD h ua g = Panic <-> exists t idx x, client_is shipped mC ua t idx x /\ broken shipped idx x).
Proof. exact shipped_client_panics. Qed.
Print Assumptions C37_exactly_eight_entries.

(** Each of the eight is reached by some user agent. *)
Theorem C37_each_reached : forall idx k, In (idx, k) broken_places ->
  exists t ua x ir, client_is shipped t ua t idx x /\ nth_error (cr_idx shipped) idx = Some ir /\ nth_error ir k = Some x /\
    forall mD h g, In g client_getters -> alone shipped t mD h ua g = Panic.
Proof. exact broken_reached. Qed.
Print Assumptions C37_each_reached.

(** The hypothesis [detects] of C19-C22, for the shipped tables: no entry chosen is one of the eight. *)
Theorem C37_detects_shipped : forall mC mD ua, short ua ->
  (detects shipped mC mD ua <-> forall t idx x, client_is shipped mC ua t idx x -> ~ broken shipped idx x).
Proof. exact shipped_detects. Qed.
Print Assumptions C37_detects_shipped.

(** User agents for which the getters do answer, and one for which they do not. *)
Example C35_C36_case :
  alone shipped 0 0 0 (bs "NuttX/10.1") GOSVersionString = Ok (VB (bs "10.1")) /\
  alone shipped 0 128 0 (bs "EK-GC120") GModel = Ok (VB (bs "Galaxy Camera 120")).
Proof. split; [exact (bytes_case shipped 0 0 0 (bs "NuttX/10.1") GOSVersionString (bs "10.1") ltac:(vm_compute; reflexivity))|
  exact (bytes_case shipped 0 128 0 (bs "EK-GC120") GModel (bs "Galaxy Camera 120") ltac:(vm_compute; reflexivity))]. Qed.

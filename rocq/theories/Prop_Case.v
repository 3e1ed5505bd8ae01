(** Property C59. *)
From Verif Require Import Model_Base Model_Ctx Model_Parse Model_Regex Model_Shipped Spec_Getters Spec_Select Spec_Case
  Proof_Case Proof_Spelling.

(** C59: a pattern with the prefix (?i) finds the same groups in texts that differ only in the case of ASCII letters. *)
Theorem C59_pattern : forall src s t, has_prefix src (bs "(?i)") = true -> same_letters s t ->
  re_find (compile src) s = re_find (compile src) t.
Proof. intros src s t H. exact (ci_ignores src H s t). Qed.
Print Assumptions C59_pattern.

(** If no fixed text of the client tables is in one user agent only, the client, its type and the engine are the same
    and the versions are the same up to case. *)
Theorem C59_client : forall ua ua' mC mD h, same_letters ua ua' -> (forall t, client_text shipped t -> (occurs t ua <-> occurs t ua')) ->
  (forall g, g = GClientType \/ g = GBrowser \/ g = GEngine -> alone shipped mC mD h ua g = alone shipped mC mD h ua' g) /\
  (forall g, g = GBrowserVersionString \/ g = GEngineVersionString \/ g = GBrowserVersion \/ g = GEngineVersion ->
     same_value (alone shipped mC mD h ua g) (alone shipped mC mD h ua' g)).
Proof. exact shipped_client_case. Qed.
Print Assumptions C59_client.

Theorem C59_os : forall ua ua' mC mD h, same_letters ua ua' -> (forall t, os_text shipped t -> (occurs t ua <-> occurs t ua')) ->
  forall g, g = GOS \/ g = GOSVersionString \/ g = GOSVersion -> same_value (alone shipped mC mD h ua g) (alone shipped mC mD h ua' g).
Proof. exact shipped_os_case. Qed.
Print Assumptions C59_os.

(** For the brand no vendor pattern may tell the two apart; for the type desktops must be filtered out. *)
Theorem C59_device : forall ua ua' mC mD h, same_letters ua ua' -> (forall t, os_text shipped t -> (occurs t ua <-> occurs t ua')) ->
  (forall t, device_text shipped t -> (occurs t ua <-> occurs t ua')) -> (forall r, In r (vr_re shipped) -> re_match r ua = re_match r ua') ->
  alone shipped mC mD h ua GBrand = alone shipped mC mD h ua' GBrand /\
  same_value (alone shipped mC mD h ua GModel) (alone shipped mC mD h ua' GModel) /\
  (N.land mD DeviceTypeNotebook = 0%N -> alone shipped mC mD h ua GDeviceType = alone shipped mC mD h ua' GDeviceType).
Proof. exact shipped_device_case. Qed.
Print Assumptions C59_device.

(** A fixed text is matched with its case. *)
Theorem C59_literal_refuted :
  exists ua ua', same_letters ua ua' /\ alone shipped ClientTypeAll DeviceTypeAll 0 ua GOS = Ok (VB (bs "LeafOS")) /\
    alone shipped ClientTypeAll DeviceTypeAll 0 ua' GOS = Ok (VB (bs "UNK")).
Proof. exact literal_shipped. Qed.
Print Assumptions C59_literal_refuted.

(** A captured name of the operating system keeps its case, and then is not recognised as that of a desktop. *)
Theorem C59_desktop_refuted :
  exists ua ua', same_letters ua ua' /\ (forall t, os_text shipped t -> (occurs t ua <-> occurs t ua')) /\
    alone shipped ClientTypeAll DeviceTypeNotebook 0 ua GDeviceType = Ok (VN 1) /\
    alone shipped ClientTypeAll DeviceTypeNotebook 0 ua' GDeviceType = Ok (VN 0).
Proof. exact desktop_shipped. Qed.
Print Assumptions C59_desktop_refuted.

(** User agents that meet the hypotheses. *)
Example C59_pattern_case : re_find (compile (bs "(?i)nuttx/(\d+)")) (bs "xNuttX/10.1") = Some [1; 9; 7; 9]%Z.
Proof. reflexivity. Qed.
Example C59_client_case : same_letters agent1 agent2 /\ (forall t, client_text shipped t -> (occurs t agent1 <-> occurs t agent2)) /\
  (forall t, os_text shipped t -> (occurs t agent1 <-> occurs t agent2)).
Proof. exact client_checked_case. Qed.
Example C59_device_case : same_letters agent3 agent4 /\ (forall t, os_text shipped t -> (occurs t agent3 <-> occurs t agent4)) /\
  (forall t, device_text shipped t -> (occurs t agent3 <-> occurs t agent4)) /\ (forall r, In r (vr_re shipped) -> re_match r agent3 = re_match r agent4).
Proof. exact device_checked_case. Qed.

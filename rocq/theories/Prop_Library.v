(** C102: HTTP libraries are reported as libraries with every version; one of them is reported as a phone. *)
From Verif Require Import Model_Base Model_CacheEntry Model_Ctx Model_Parse Model_Shipped Spec_Getters Spec_Select Spec_Family Spec_Library Proof_DesktopShipped Proof_Library.

Theorem C102_library word name v mC mD : In (word, name) libraries -> version_number v -> short (library_ua word v) -> on mC 4 ->
  (forall h, alone shipped mC mD h (library_ua word v) GClientType = Ok (VN 4)) /\ alone shipped mC mD 0 (library_ua word v) GBrowser = Ok (VB name) /\
  (forall h, alone shipped mC mD h (library_ua word v) GBrowserVersionString = Ok (VB v)) /\
  (forall h, alone shipped mC mD h (library_ua word v) GOS = Ok (VB (bs "UNK"))) /\ (forall h, alone shipped mC mD h (library_ua word v) GOSVersionString = Ok (VB [])).
Proof. exact (shipped_library word name v mC mD). Qed.
Print Assumptions C102_library.

Theorem C102_device word v mC mD h : In word [bs "curl"; bs "Wget"] -> patch_release v -> short (library_ua word v) -> on mC 4 ->
  alone shipped mC mD h (library_ua word v) GDeviceType = Ok (VN 0) /\ alone shipped mC mD h (library_ua word v) GBrand = Ok (VB (bs "UNK")) /\
  alone shipped mC mD h (library_ua word v) GModel = Ok (VB []).
Proof. exact (quiet_device word v mC mD h). Qed.
Print Assumptions C102_device.

Theorem C102_requests v mC mD h : patch_release v -> short (library_ua (bs "python-requests") v) -> on mD 2 ->
  alone shipped mC mD h (library_ua (bs "python-requests") v) GDeviceType = Ok (VN 2) /\
  alone shipped mC mD h (library_ua (bs "python-requests") v) GBrand = Ok (VB (bs "CUBOT")) /\
  alone shipped mC mD h (library_ua (bs "python-requests") v) GModel = Ok (VB []).
Proof. exact (requests_phone v mC mD h). Qed.
Print Assumptions C102_requests.

Theorem C102_phone_refuted : exists v mC mD, patch_release v /\ short (library_ua (bs "python-requests") v) /\ on mC 4 /\ on mD 2 /\
  alone shipped mC mD 0 (library_ua (bs "python-requests") v) GClientType = Ok (VN 4) /\
  alone shipped mC mD 0 (library_ua (bs "python-requests") v) GDeviceType = Ok (VN 2) /\
  alone shipped mC mD 0 (library_ua (bs "python-requests") v) GBrand = Ok (VB (bs "CUBOT")).
Proof. exact library_is_phone. Qed.
Print Assumptions C102_phone_refuted.

(** curl/8.10.1 satisfies the hypotheses of both theorems about it. *)
Example C102_curl_case : In (bs "curl", bs "curl") libraries /\ version_number (bs "8.10.1") /\ patch_release (bs "8.10.1") /\
  short (library_ua (bs "curl") (bs "8.10.1")) /\ library_ua (bs "curl") (bs "8.10.1") = bs "curl/8.10.1" /\ on 63 4 /\ on 1023 2.
Proof.
  assert (P : patch_release (bs "8.10.1")) by (apply (PR (bs "8") (bs "10") x31); try (apply Proof_DesktopDevice.is_numeral_ok; reflexivity); unfold digit; vm_compute; split; discriminate).
  split; [left; reflexivity|]. split; [apply release_version; exact P|]. split; [exact P|]. split; [apply short_200; reflexivity|].
  split; [reflexivity|]. split; discriminate.
Qed.

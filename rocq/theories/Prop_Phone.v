(** Property C101: Chrome on Android phones is recognised with every version number and every release of Android. *)
From Verif Require Import Model_Base Model_CacheEntry Model_Ctx Model_Parse Model_Shipped Spec_Getters Spec_Select Spec_Family Spec_Phone Proof_DesktopShipped Proof_Phone.

Theorem C101_chrome_mobile : forall a v mC mD, release_number a -> version_number v -> short (android_ua a v) -> on mC 1 ->
  recognised (android_ua a v) (bs "Chrome Mobile") v (bs "Android") mC mD.
Proof. exact phone_recognised. Qed.
Print Assumptions C101_chrome_mobile.

(** The release is reported as it stands in the user agent. *)
Theorem C101_release : forall a v mC mD h, release_number a -> version_number v -> short (android_ua a v) -> on mC 1 ->
  alone shipped mC mD h (android_ua a v) GOSVersionString = Ok (VB a).
Proof. exact phone_release. Qed.
Print Assumptions C101_release.

Example C101_case : release_number (bs "10") /\ version_number (bs "123.0.0.0") /\ short (android_ua (bs "10") (bs "123.0.0.0")) /\ on 127 1 /\
  android_ua (bs "10") (bs "123.0.0.0") =
    bs "Mozilla/5.0 (Linux; Android 10; K) AppleWebKit/537.36 (KHTML, like Gecko) Chrome/123.0.0.0 Mobile Safari/537.36".
Proof.
  exact (conj (RN_version (bs "10") (is_version_ok (bs "10") eq_refl)) (conj (is_version_ok (bs "123.0.0.0") eq_refl)
    (conj (short_200 (android_ua (bs "10") (bs "123.0.0.0")) eq_refl) (conj (fun H : 1%N = 0%N => N.neq_succ_0 0 H) eq_refl)))).
Qed.

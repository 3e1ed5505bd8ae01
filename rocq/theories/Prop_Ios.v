(** Property C100: iPads and iPhones. *)
From Verif Require Import Model_Base Model_CacheEntry Model_Ctx Model_Parse Model_Shipped Spec_Getters Spec_Select Spec_Family Spec_Ios Proof_DesktopShipped Proof_Ios.

(** C100 is false: an iPad is not reported as a tablet ... *)
Theorem C100_tablet_refuted : exists ua mC mD, ipad_ua ua /\ short ua /\ on mD 2 /\ on mD 1 /\
  alone shipped mC mD 0 ua GDeviceType <> Ok (VN 8) /\ alone shipped mC mD 0 ua GModel = Ok (VB (bs "iPhone X")).
Proof. exact ipad_not_tablet. Qed.
Print Assumptions C100_tablet_refuted.

(** ... all iPads and all iPhones are reported as the phablet iPhone X, whatever the versions. *)
Theorem C100_ipad : forall ua mC mD h, ipad_ua ua -> short ua -> on mD 2 ->
  alone shipped mC mD h ua GDeviceType = Ok (VN 4) /\ alone shipped mC mD h ua GBrand = Ok (VB (bs "Apple")) /\ alone shipped mC mD h ua GModel = Ok (VB (bs "iPhone X")).
Proof. exact ipad_device. Qed.
Print Assumptions C100_ipad.

Theorem C100_iphone : forall ua mC mD h, iphone_ua ua -> short ua -> on mD 2 ->
  alone shipped mC mD h ua GDeviceType = Ok (VN 4) /\ alone shipped mC mD h ua GBrand = Ok (VB (bs "Apple")) /\ alone shipped mC mD h ua GModel = Ok (VB (bs "iPhone X")).
Proof. exact iphone_device. Qed.
Print Assumptions C100_iphone.

Example C100_case : ipad_ua (bs "Mozilla/5.0 (iPad; CPU OS 17_4 like Mac OS X) AppleWebKit/605.1.15 (KHTML, like Gecko) Version/17.4 Mobile/15E148 Safari/604.1") /\
  short (bs "Mozilla/5.0 (iPad; CPU OS 17_4 like Mac OS X) AppleWebKit/605.1.15 (KHTML, like Gecko) Version/17.4 Mobile/15E148 Safari/604.1") /\ on 1023 2.
Proof.
  exact (conj ipad_17 (conj (short_200 (bs "Mozilla/5.0 (iPad; CPU OS 17_4 like Mac OS X) AppleWebKit/605.1.15 (KHTML, like Gecko) Version/17.4 Mobile/15E148 Safari/604.1") eq_refl)
    (fun H : 2%N = 0%N => N.neq_succ_0 1 H))).
Qed.

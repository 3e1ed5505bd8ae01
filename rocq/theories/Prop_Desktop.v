(** Property C98: desktop browsers run on desktop computers. *)
From Verif Require Import Model_Base Model_CacheEntry Model_Ctx Model_Parse Model_Shipped Spec_Getters Spec_Select Spec_Family
  Proof_Choice Proof_Reports Proof_DesktopShipped Proof_DesktopDevice.

(** C98: with the versions that browsers send nowadays, everything but the major version frozen, Chrome, Edge and Firefox
    on Windows, Mac and Linux are reported as desktop computers without brand and model, whatever the major version ... *)
Theorem C98_frozen : forall sys name ua mC mD, In (sys, name) systems -> frozen_ua sys ua -> short ua -> on mD 1 -> plain_desktop ua mC mD.
Proof. exact shipped_plain. Qed.
Print Assumptions C98_frozen.

(** ... but with other versions Chrome on Windows is reported as a tablet. *)
Theorem C98_desktop_refuted : exists sys name v mC mD, In (sys, name) systems /\ version_number v /\ short (chrome_ua sys v) /\ on mD 1 /\
  alone shipped mC mD 0 (chrome_ua sys v) GDeviceType = Ok (VN 8).
Proof.
  exact (ex_intro _ (bs "Windows NT 10.0; Win64; x64") (ex_intro _ (bs "Windows") (ex_intro _ (bs "120.0.6099.8063") (ex_intro _ 1%N (ex_intro _ 3%N
    (conj (or_introl eq_refl) (conj (is_version_ok (bs "120.0.6099.8063") eq_refl)
    (conj (short_200 (chrome_ua (bs "Windows NT 10.0; Win64; x64") (bs "120.0.6099.8063")) eq_refl)
    (conj (fun H : 1%N = 0%N => N.neq_succ_0 0 H)
    (number_case shipped 1 3 0 (chrome_ua (bs "Windows NT 10.0; Win64; x64") (bs "120.0.6099.8063")) GDeviceType 8 ltac:(vm_compute; reflexivity))))))))))).
Qed.
Print Assumptions C98_desktop_refuted.

Example C98_case : In (bs "X11; Linux x86_64", bs "GNU/Linux") systems /\ frozen_ua (bs "X11; Linux x86_64") (chrome_ua (bs "X11; Linux x86_64") (bs "123.0.0.0")) /\
  short (chrome_ua (bs "X11; Linux x86_64") (bs "123.0.0.0")) /\ on 1023 1.
Proof.
  exact (conj (or_intror (or_intror (or_introl eq_refl))) (conj (FU_chrome (bs "X11; Linux x86_64") (bs "123") (is_numeral_ok (bs "123") eq_refl))
    (conj (short_200 (chrome_ua (bs "X11; Linux x86_64") (bs "123.0.0.0")) eq_refl) (fun H : 1%N = 0%N => N.neq_succ_0 0 H)))).
Qed.

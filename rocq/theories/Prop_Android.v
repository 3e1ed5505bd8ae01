(** User agents that name Android are taken for Motorola phones. *)
From Verif Require Import Model_Base Model_Ctx Model_Parse Model_Shipped Spec_Select Spec_Getters Spec_Dead Spec_Android Proof_AndroidDb.
Open Scope nat_scope.

(** C88: the Motorola entry of the shipped list of phones (number 1029 of it) applies to every user agent that has
    "Android " followed by a letter or a digit.  So the phone that is chosen for it is never one behind that entry. *)
Theorem C88_android : forall ua, names_android ua ->
  exists l i, nth_error (dr_idx shipped) phones = Some l /\ i <= motorola /\ picked (device_applies shipped ua) l i.
Proof. exact shipped_android. Qed.
Print Assumptions C88_android.
Example C88_android_case : names_android galaxy.
Proof. exact galaxy_android. Qed.

(** C88: the brand reported is that of an entry of the tables; if it is one of the phones, it is not behind the Motorola
    entry; and it is never one of the notebooks (class 4). *)
Theorem C88_brand : forall mC mD h ua s, short ua -> names_android ua -> on mD 2 -> alone shipped mC mD h ua GBrand = Ok (VB s) ->
  exists k l i x, nth_error (dr_idx shipped) k = Some l /\ nth_error l i = Some x /\ brand_is shipped x s /\ (k = phones -> i <= motorola) /\ k <> 4.
Proof. exact shipped_brands. Qed.
Print Assumptions C88_brand.

(** C88: so these brands are never reported for such a user agent, whatever else it says. *)
Theorem C88_lost : forall mC mD h ua s, short ua -> names_android ua -> on mD 2 -> In s lost_brands ->
  alone shipped mC mD h ua GBrand <> Ok (VB s).
Proof. exact shipped_lost. Qed.
Print Assumptions C88_lost.
(** ... although the tables have them: number 1164 of the phones is a OnePlus. *)
Example C88_lost_case : exists l x, nth_error (dr_idx shipped) phones = Some l /\ nth_error l 1164 = Some x /\ brand_is shipped x (bs "OnePlus") /\
  device_applies shipped (bs "Linux; Android 11; OnePlus 8") x.
Proof. exact oneplus_case. Qed.

(** C88 is false: the project's own test data says "Samsung" for this user agent, and the Samsung entry of the tables
    (number 1411 of the phones) applies to it; "Motorola" is reported. *)
Theorem C88_samsung_refuted : exists ua, names_android ua /\ short ua /\
  (exists l y, nth_error (dr_idx shipped) phones = Some l /\ nth_error l 1411 = Some y /\ device_applies shipped ua y /\ brand_is shipped y (bs "Samsung")) /\
  forall mC mD h, on mD 2 -> alone shipped mC mD h ua GBrand = Ok (VB (bs "Motorola")).
Proof. exact (ex_intro _ galaxy (conj galaxy_android (conj galaxy_short galaxy_wrong))). Qed.
Print Assumptions C88_samsung_refuted.

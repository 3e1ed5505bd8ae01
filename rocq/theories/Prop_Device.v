(** Properties C25, C26, C34: device detection. *)
From Verif Require Import Model_Base Model_CacheEntry Model_Ctx Model_Parse Model_Shipped Spec_Getters Spec_Select
  Proof_Device Proof_Choice Proof_Reports Proof_Tables.

(** C25 is false: with every device type switched off the word Tablet still gives a tablet. *)
Theorem C25_filter_refuted : exists T mC mD ua t,
  alone T mC mD 0 ua GDeviceType = Ok (VN t) /\ t <> 0%N /\ ~ on mD t.
Proof. exact (tablet_unmasked shipped (bs "Tablet") ltac:(vm_compute; reflexivity)). Qed.
Print Assumptions C25_filter_refuted.

(** C25, what does hold: a type outside the mask comes from the words Tablet or Mobile when no entry applies, from the
    default of the portable media players, or is a type named by the entry found. *)
Theorem C25_type_origin : forall T mC mD h ua t,
  device_sane T -> short ua -> alone T mC mD h ua GDeviceType = Ok (VN t) ->
  t = 0%N \/ on mD t \/
  (t = 8%N /\ re_find (re_tablet T) ua <> None /\ no_device T mD ua) \/
  (t = 2%N /\ re_find (re_mobile T) ua <> None /\ no_device T mD ua) \/
  (t = 1%N /\ on mD 512) \/
  (In t [2; 4; 8; 16; 32; 512]%N /\ exists b idx def x, device_is T mD ua b idx def x).
Proof. exact device_type_origin. Qed.
Print Assumptions C25_type_origin.

Example C25_case : alone shipped 63 128 0 (bs "EK-GC120") GDeviceType = Ok (VN 128).
Proof. exact (number_case shipped 63 128 0 (bs "EK-GC120") GDeviceType 128 ltac:(vm_compute; reflexivity)). Qed.

(** C26: type and brand come from the entry determined by the documented order; without one, a desktop system forces
    "desktop", then the words Tablet and Mobile decide, and the brand comes from the vendor fragments. *)
Theorem C26_device_priority : forall T mC mD h ua, device_sane T -> short ua ->
  (forall t, alone T mC mD h ua GDeviceType = Ok (VN t) ->
     (forall b idx def x, device_is T mD ua b idx def x -> device_type_is T ua x def t) /\
     (no_device T mD ua -> exists os, (on mD 1 -> alone T mC mD h ua GOS = Ok (VB os)) /\ fallback_type T mD ua os t) /\
     (no_device T mD ua \/ exists b idx def x, device_is T mD ua b idx def x)) /\
  (forall s, alone T mC mD h ua GBrand = Ok (VB s) ->
     (forall b idx def x, device_is T mD ua b idx def x -> brand_is T x s) /\
     (no_device T mD ua -> fallback_brand T ua s)).
Proof. exact device_reports. Qed.
Print Assumptions C26_device_priority.

Example C26_tables : device_sane shipped.
Proof. exact shipped_device_sane. Qed.
Example C26_case_entry : alone shipped 63 128 0 (bs "EK-GC120") GBrand = Ok (VB (bs "Samsung")).
Proof. exact (bytes_case shipped 63 128 0 (bs "EK-GC120") GBrand (bs "Samsung") ltac:(vm_compute; reflexivity)). Qed.
Example C26_case_word : alone shipped 63 0 0 (bs "Tablet") GDeviceType = Ok (VN 8).
Proof. exact (number_case shipped 63 0 0 (bs "Tablet") GDeviceType 8 ltac:(vm_compute; reflexivity)). Qed.
Example C26_case_desktop : alone shipped 63 1 0 (bs "Tablet Fedora") GDeviceType = Ok (VN 1).
Proof. exact (number_case shipped 63 1 0 (bs "Tablet Fedora") GDeviceType 1 ltac:(vm_compute; reflexivity)). Qed.

(** C34: the model is the template of the entry expanded ([model_text]) and trimmed; without an entry it is empty. *)
Theorem C34_model_expanded : forall T mC mD h ua s,
  device_sane T -> short ua -> alone T mC mD h ua GModel = Ok (VB s) ->
  (forall b idx def x, device_is T mD ua b idx def x -> exists w, model_text T ua x w /\ trimmed w s) /\
  (no_device T mD ua -> s = []).
Proof. exact model_reports. Qed.
Print Assumptions C34_model_expanded.

Example C34_case : alone shipped 63 128 0 (bs "EK-GC120") GModel = Ok (VB (bs "Galaxy Camera 120")).
Proof. exact (bytes_case shipped 63 128 0 (bs "EK-GC120") GModel (bs "Galaxy Camera 120") ltac:(vm_compute; reflexivity)). Qed.

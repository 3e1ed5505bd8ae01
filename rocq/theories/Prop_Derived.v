(** Property C106: Vivaldi and Opera on desktop systems are recognised with every version number. *)
From Verif Require Import Model_Base Model_CacheEntry Model_Ctx Model_Parse Model_Shipped Spec_Getters Spec_Select Spec_Family Spec_Derived
  Proof_Choice Proof_Charset Proof_DesktopShipped Proof_Derived.

(** C106: Vivaldi and Opera name Chrome first and themselves last. They are reported under their own names with exactly
    their own versions, whatever the version of Chrome, and with the name of the system - as long as browsers are asked for. *)
Theorem C106_browser : forall mC mD sys name word br c v, on mC 1 -> In (sys, name) systems -> In (word, br) derived -> version_number c -> version_number v ->
  short (added (chrome_ua sys c) word v) -> recognised (added (chrome_ua sys c) word v) br v name mC mD.
Proof. exact derived_recognised. Qed.
Print Assumptions C106_browser.

(** The version of Windows is 10, that of Linux is unknown. *)
Theorem C106_release : forall mC mD sys rel word br c v, on mC 1 -> In (sys, rel) releases -> In (word, br) derived -> version_number c -> version_number v ->
  short (added (chrome_ua sys c) word v) -> forall h, alone shipped mC mD h (added (chrome_ua sys c) word v) GOSVersionString = Ok (VB rel).
Proof. exact derived_release. Qed.
Print Assumptions C106_release.

Example C106_case : on 127 1 /\ In (bs "X11; Linux x86_64", bs "GNU/Linux") systems /\ In (bs "OPR", bs "Opera") derived /\
  version_number (bs "123.0.6312.86") /\ version_number (bs "9.80.1") /\
  short (added (chrome_ua (bs "X11; Linux x86_64") (bs "123.0.6312.86")) (bs "OPR") (bs "9.80.1")) /\ In (bs "X11; Linux x86_64", []) releases.
Proof.
  exact (conj (fun H : 1%N = 0%N => N.neq_succ_0 0 H) (conj (or_intror (or_intror (or_introl eq_refl))) (conj (or_intror (or_introl eq_refl))
    (conj (is_version_ok (bs "123.0.6312.86") eq_refl) (conj (is_version_ok (bs "9.80.1") eq_refl)
    (conj (short_200 (added (chrome_ua (bs "X11; Linux x86_64") (bs "123.0.6312.86")) (bs "OPR") (bs "9.80.1")) eq_refl) (or_intror (or_introl eq_refl)))))))).
Qed.

(** Without its own name at the end the same text is Chrome. *)
Example C106_chrome : alone shipped 1 0 0 (chrome_ua (bs "X11; Linux x86_64") (bs "123.0.6312.86")) GBrowser = Ok (VB (bs "Chrome")).
Proof. exact (bytes_case shipped 1 0 0 (chrome_ua (bs "X11; Linux x86_64") (bs "123.0.6312.86")) GBrowser (bs "Chrome") ltac:(vm_compute; reflexivity)). Qed.

(** Property C97: Chrome, Edge and Firefox on desktop systems are recognised with every version number. *)
From Verif Require Import Model_Base Model_CacheEntry Model_Ctx Model_Parse Model_Shipped Spec_Getters Spec_Select Spec_Family
  Proof_Choice Proof_Charset Proof_DesktopShipped.

(** C97: whatever the version number, Chrome, Edge and Firefox on Windows, Mac and Linux are reported as browsers, under
    their names, with exactly that version and with the name of the system - as long as browsers are asked for. *)
Theorem C97_chrome : forall sys name v mC mD, In (sys, name) systems -> version_number v -> short (chrome_ua sys v) -> on mC 1 ->
  recognised (chrome_ua sys v) (bs "Chrome") v name mC mD.
Proof. exact shipped_chrome. Qed.
Print Assumptions C97_chrome.

Theorem C97_edge : forall sys name c v mC mD, In (sys, name) systems -> version_number c -> version_number v -> short (edge_ua sys c v) -> on mC 1 ->
  recognised (edge_ua sys c v) (bs "Microsoft Edge") v name mC mD.
Proof. exact shipped_edge. Qed.
Print Assumptions C97_edge.

Theorem C97_firefox : forall sys name r v mC mD, In (sys, name) systems -> version_number r -> version_number v -> short (firefox_ua sys r v) -> on mC 1 ->
  recognised (firefox_ua sys r v) (bs "Firefox") v name mC mD.
Proof. exact shipped_firefox. Qed.
Print Assumptions C97_firefox.

(** The version of Windows is 10, that of Linux is unknown. *)
Theorem C97_release : forall sys o c v mC mD h ua, In (sys, o) releases -> version_number c -> version_number v -> short ua -> on mC 1 ->
  In ua [chrome_ua sys v; edge_ua sys c v; firefox_ua sys c v] -> alone shipped mC mD h ua GOSVersionString = Ok (VB o).
Proof. exact shipped_release. Qed.
Print Assumptions C97_release.

Example C97_case : In (bs "X11; Linux x86_64", bs "GNU/Linux") systems /\ version_number (bs "123.0.6312.86") /\
  short (chrome_ua (bs "X11; Linux x86_64") (bs "123.0.6312.86")) /\ on 127 1 /\ In (bs "X11; Linux x86_64", []) releases.
Proof.
  exact (conj (or_intror (or_intror (or_introl eq_refl))) (conj (is_version_ok (bs "123.0.6312.86") eq_refl)
    (conj (short_200 (chrome_ua (bs "X11; Linux x86_64") (bs "123.0.6312.86")) eq_refl)
    (conj (fun H : 1%N = 0%N => N.neq_succ_0 0 H) (or_intror (or_introl eq_refl)))))).
Qed.

(** A version of one character is not reported. *)
Example C97_short : alone shipped 1 0 0 (chrome_ua (bs "X11; Linux x86_64") (bs "9")) GBrowserVersionString = Ok (VB []).
Proof. exact (bytes_case shipped 1 0 0 (chrome_ua (bs "X11; Linux x86_64") (bs "9")) GBrowserVersionString [] ltac:(vm_compute; reflexivity)). Qed.

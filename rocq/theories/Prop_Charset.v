(** Properties C94, C95: the characters of version strings. *)
From Verif Require Import Model_Base Model_CacheEntry Model_Ctx Model_Parse Model_Shipped Spec_Getters Spec_Select Spec_Charset
  Proof_Choice Proof_Charset.

(** C94: whatever the user agent says, a browser version consists of letters, digits, plus signs, hyphens, dots and
    underscores (and characters outside ASCII), unless the browser is entry 411 of browser.yml (Yandex Browser) ... *)
Theorem C94_browser_version : forall mC mD h ua s, small ua -> alone shipped mC mD h ua GBrowserVersionString = Ok (VB s) ->
  Forall (plain [x2b; x2d; x2e; x5f]) s \/
  exists ir x, client_is shipped mC ua 1 1 x /\ nth_error (cr_idx shipped) 1 = Some ir /\ nth_error ir 411 = Some x.
Proof. exact shipped_browser_clean. Qed.
Print Assumptions C94_browser_version.

Example C94_browser_case : small (bs "Akregator/1.2.3-rc1 <b>") /\
  alone shipped 63 1023 0 (bs "Akregator/1.2.3-rc1 <b>") GBrowserVersionString = Ok (VB (bs "1.2.3")).
Proof.
  exact (conj (small_100 (bs "Akregator/1.2.3-rc1 <b>") eq_refl) (bytes_case shipped 63 1023 0 (bs "Akregator/1.2.3-rc1 <b>") GBrowserVersionString (bs "1.2.3") ltac:(vm_compute; reflexivity))).
Qed.

(** ... whose version is the rest of the whole match and has spaces and parentheses. *)
Theorem C94_browser_version_refuted : exists ua s, small ua /\ alone shipped 1 1023 0 ua GBrowserVersionString = Ok (VB s) /\
  ~ Forall (plain [x2b; x2d; x2e; x5f]) s.
Proof.
  exact (ex_intro _ (bs "YaBrowser/20.1 (beta)") (ex_intro _ (bs "20.1 (beta)") (conj (small_100 (bs "YaBrowser/20.1 (beta)") eq_refl)
    (conj (bytes_case shipped 1 1023 0 (bs "YaBrowser/20.1 (beta)") GBrowserVersionString (bs "20.1 (beta)") ltac:(vm_compute; reflexivity))
      (not_plain [x2b; x2d; x2e; x5f] (bs "20.1 (beta)") x20 (member x20 (bs "20.1 (beta)") eq_refl) ltac:(vm_compute; reflexivity)))))).
Qed.
Print Assumptions C94_browser_version_refuted.

(** An operating system version consists of letters, digits, spaces and dots, or is one of eleven constants. *)
Theorem C94_os_version : forall mC mD h ua s, small ua -> alone shipped mC mD h ua GOSVersionString = Ok (VB s) ->
  Forall (plain [x20; x2e]) s \/
  In s [bs "26.$1"; bs "18.$1"; bs "17.$1"; bs "16.$1"; bs "15.$1"; bs "14.$1"; bs "13.$1"; bs "10.15.$1"; bs "10.11.$1"; bs "10.10.$1"; bs "Server $1"].
Proof. exact shipped_os_clean. Qed.
Print Assumptions C94_os_version.

Example C94_os_case : small (bs "CPU OS 12_1<b>") /\ alone shipped 63 1023 0 (bs "CPU OS 12_1<b>") GOSVersionString = Ok (VB (bs "12.1")).
Proof.
  exact (conj (small_100 (bs "CPU OS 12_1<b>") eq_refl) (bytes_case shipped 63 1023 0 (bs "CPU OS 12_1<b>") GOSVersionString (bs "12.1") ltac:(vm_compute; reflexivity))).
Qed.

(** An engine version may contain anything: the dot between its numbers is not escaped in the patterns. *)
Theorem C94_engine_version_refuted : exists ua s, small ua /\ alone shipped 1 1023 0 ua GEngineVersionString = Ok (VB s) /\
  In x3c s /\ ~ Forall (plain [x2b; x2d; x2e; x5f]) s.
Proof.
  exact (ex_intro _ (bs "AltiBrowser/1.0 WebKit/5<6") (ex_intro _ (bs "5<6") (conj (small_100 (bs "AltiBrowser/1.0 WebKit/5<6") eq_refl)
    (conj (bytes_case shipped 1 1023 0 (bs "AltiBrowser/1.0 WebKit/5<6") GEngineVersionString (bs "5<6") ltac:(vm_compute; reflexivity))
      (conj (member x3c (bs "5<6") eq_refl) (not_plain [x2b; x2d; x2e; x5f] (bs "5<6") x3c (member x3c (bs "5<6") eq_refl) ltac:(vm_compute; reflexivity))))))).
Qed.
Print Assumptions C94_engine_version_refuted.

(** C95 (no version has an unexpanded placeholder) is false ... *)
Theorem C95_placeholder_refuted : exists ua s, small ua /\ alone shipped 63 1023 0 ua GOSVersionString = Ok (VB s) /\ In x24 s.
Proof.
  exact (ex_intro _ (bs "CFNetwork/1 Darwin/25.1.0") (ex_intro _ (bs "26.$1") (conj (small_100 (bs "CFNetwork/1 Darwin/25.1.0") eq_refl)
    (conj (bytes_case shipped 63 1023 0 (bs "CFNetwork/1 Darwin/25.1.0") GOSVersionString (bs "26.$1") ltac:(vm_compute; reflexivity)) (member x24 (bs "26.$1") eq_refl))))).
Qed.
Print Assumptions C95_placeholder_refuted.

(** ... the versions with a dollar sign that are reported are exactly these eleven, each for some user agent. *)
Theorem C95_exact : forall s, In x24 s ->
  ((exists mC mD h ua, small ua /\ alone shipped mC mD h ua GOSVersionString = Ok (VB s)) <->
   In s [bs "26.$1"; bs "18.$1"; bs "17.$1"; bs "16.$1"; bs "15.$1"; bs "14.$1"; bs "13.$1"; bs "10.15.$1"; bs "10.11.$1"; bs "10.10.$1"; bs "Server $1"]).
Proof. exact (placeholder_exact shipped shipped_os_clean all_reported). Qed.
Print Assumptions C95_exact.

Example C95_case : In x24 (bs "Server $1").
Proof. vm_compute. tauto. Qed.

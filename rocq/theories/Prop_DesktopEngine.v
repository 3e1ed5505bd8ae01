(** Property C99: desktop browsers are reported with their engines. *)
From Verif Require Import Model_Base Model_CacheEntry Model_Ctx Model_Parse Model_Shipped Spec_Version Spec_Getters Spec_Select Spec_Threshold Spec_Family
  Proof_DesktopShipped Proof_DesktopEngine.

(** C99: the engine of Edge is Blink and that of Firefox is Gecko, whatever the version ... *)
Theorem C99_edge : forall sys name c v mC mD h, In (sys, name) systems -> version_number c -> version_number v -> short (edge_ua sys c v) -> on mC 1 ->
  alone shipped mC mD h (edge_ua sys c v) GEngine = Ok (VB (bs "Blink")).
Proof. exact edge_engine. Qed.
Print Assumptions C99_edge.

Theorem C99_firefox : forall sys name r v mC mD h, In (sys, name) systems -> version_number r -> version_number v -> short (firefox_ua sys r v) -> on mC 1 ->
  alone shipped mC mD h (firefox_ua sys r v) GEngine = Ok (VB (bs "Gecko")).
Proof. exact firefox_engine. Qed.
Print Assumptions C99_firefox.

(** ... but the engine of Chrome, Blink since version 28, is reported as WebKit for 100 to 279 and as Blink for 3 to 9. *)
Theorem C99_chrome : forall sys name v m n mC mD h, In (sys, name) systems -> version_number v -> short (chrome_ua sys v) -> on mC 1 ->
  major_of v m -> Decimal m n -> plain m -> (n < 1000)%Z ->
  ((2 < n < 10 \/ 28 <= n < 100 \/ 280 <= n)%Z -> alone shipped mC mD h (chrome_ua sys v) GEngine = Ok (VB (bs "Blink"))) /\
  ((n <= 2 \/ 10 <= n < 28 \/ 100 <= n < 280)%Z -> alone shipped mC mD h (chrome_ua sys v) GEngine = Ok (VB (bs "WebKit"))).
Proof. exact chrome_engine. Qed.
Print Assumptions C99_chrome.

Theorem C99_engine_refuted : exists sys name v m n mC mD, In (sys, name) systems /\ version_number v /\ short (chrome_ua sys v) /\ on mC 1 /\
  major_of v m /\ Decimal m n /\ (28 <= n)%Z /\ alone shipped mC mD 0 (chrome_ua sys v) GEngine = Ok (VB (bs "WebKit")).
Proof. exact chrome_120. Qed.
Print Assumptions C99_engine_refuted.

Example C99_case : In (bs "Windows NT 10.0; Win64; x64", bs "Windows") systems /\ version_number (bs "120.0.0.0") /\ major_of (bs "120.0.0.0") (bs "120") /\
  Decimal (bs "120") 120 /\ plain (bs "120") /\ short (firefox_ua (bs "Windows NT 10.0; Win64; x64") (bs "121.0") (bs "121.0")) /\ on 63 1.
Proof.
  exact (conj (or_introl eq_refl) (conj (is_version_ok (bs "120.0.0.0") eq_refl) (conj major_120 (conj decimal_120 (conj plain_120
    (conj (short_200 (firefox_ua (bs "Windows NT 10.0; Win64; x64") (bs "121.0") (bs "121.0")) eq_refl) (fun H : 1%N = 0%N => N.neq_succ_0 0 H))))))).
Qed.

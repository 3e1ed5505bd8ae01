(** Property C105: Chrome, Firefox and Edge on an iPhone are recognised with every version number, and the release of iOS is reported. *)
From Verif Require Import Model_Base Model_CacheEntry Model_Ctx Model_Parse Model_Shipped Spec_Getters Spec_Select Spec_Family Spec_Iphone Spec_IphoneOther Proof_DesktopShipped Proof_IphoneOther.

Theorem C105_browser : forall word rest name ns v mC mD, In (word, rest, name) iphone_browsers -> full_release ns -> version_number v -> short (iphone_other word rest (joined x5f ns) v) -> on mC 1 ->
  (forall h, alone shipped mC mD h (iphone_other word rest (joined x5f ns) v) GClientType = Ok (VN 1)) /\
  alone shipped mC mD 0 (iphone_other word rest (joined x5f ns) v) GBrowser = Ok (VB name) /\
  (forall h, alone shipped mC mD h (iphone_other word rest (joined x5f ns) v) GBrowserVersionString = Ok (VB v)).
Proof. exact other_browser. Qed.
Print Assumptions C105_browser.

(** The system and its release, unless the version of the browser starts with 19. *)
Theorem C105_release : forall word rest name ns v mC mD, In (word, rest, name) iphone_browsers -> full_release ns -> version_number v -> not_19 v ->
  short (iphone_other word rest (joined x5f ns) v) -> on mC 1 ->
  (forall h, alone shipped mC mD h (iphone_other word rest (joined x5f ns) v) GOS = Ok (VB (bs "iOS"))) /\
  forall h, alone shipped mC mD h (iphone_other word rest (joined x5f ns) v) GOSVersionString = Ok (VB (joined x2e ns)).
Proof. exact other_release. Qed.
Print Assumptions C105_release.

(** For versions starting with 19 the claim about the release is false: the release is a constant with a placeholder in it. *)
Theorem C105_release_refuted : exists word rest name ns v, In (word, rest, name) iphone_browsers /\ full_release ns /\ version_number v /\ short (iphone_other word rest (joined x5f ns) v) /\
  joined x2e ns = bs "12.4" /\ alone shipped 63 1023 0 (iphone_other word rest (joined x5f ns) v) GOSVersionString = Ok (VB (bs "26.$1")).
Proof. exact other_wrong. Qed.
Print Assumptions C105_release_refuted.

Example C105_case : In (bs "CriOS", bs " Mobile/15E148 Safari/604.1", bs "Chrome Mobile iOS") iphone_browsers /\ full_release [bs "12"; bs "4"] /\ version_number (bs "123.0.6312.52") /\ not_19 (bs "123.0.6312.52") /\
  short (iphone_other (bs "CriOS") (bs " Mobile/15E148 Safari/604.1") (joined x5f [bs "12"; bs "4"]) (bs "123.0.6312.52")) /\ on 63 1 /\
  iphone_other (bs "CriOS") (bs " Mobile/15E148 Safari/604.1") (joined x5f [bs "12"; bs "4"]) (bs "123.0.6312.52") =
    bs "Mozilla/5.0 (iPhone; CPU iPhone OS 12_4 like Mac OS X) AppleWebKit/605.1.15 (KHTML, like Gecko) CriOS/123.0.6312.52 Mobile/15E148 Safari/604.1".
Proof.
  split; [left; reflexivity|]. split; [exact rel_124|]. split; [exact (is_version_ok (bs "123.0.6312.52") eq_refl)|]. split; [intros r E; discriminate E|].
  exact (conj (short_200 (iphone_other (bs "CriOS") (bs " Mobile/15E148 Safari/604.1") (joined x5f [bs "12"; bs "4"]) (bs "123.0.6312.52")) eq_refl) (conj (fun H : 1%N = 0%N => N.neq_succ_0 0 H) eq_refl)).
Qed.

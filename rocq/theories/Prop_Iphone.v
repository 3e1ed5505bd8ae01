(** Property C103: Safari on an iPhone is recognised with every version number and every release of iOS. *)
From Verif Require Import Model_Base Model_CacheEntry Model_Ctx Model_Parse Model_Shipped Spec_Getters Spec_Select Spec_Family Spec_Iphone Proof_DesktopShipped Proof_DesktopDevice Proof_Iphone.

Theorem C103_safari : forall ns v mC mD, ios_release ns -> version_number v -> short (iphone_safari (joined x5f ns) v) -> on mC 1 ->
  recognised (iphone_safari (joined x5f ns) v) (bs "Mobile Safari") v (bs "iOS") mC mD.
Proof. exact iphone_recognised. Qed.
Print Assumptions C103_safari.

(** The release is reported with dots instead of underscores. *)
Theorem C103_release : forall ns v mC mD h, ios_release ns -> version_number v -> short (iphone_safari (joined x5f ns) v) -> on mC 1 ->
  alone shipped mC mD h (iphone_safari (joined x5f ns) v) GOSVersionString = Ok (VB (joined x2e ns)).
Proof. exact iphone_release. Qed.
Print Assumptions C103_release.

Example C103_case : ios_release [bs "17"; bs "4"; bs "1"] /\ version_number (bs "17.4.1") /\ short (iphone_safari (joined x5f [bs "17"; bs "4"; bs "1"]) (bs "17.4.1")) /\ on 127 1 /\
  joined x2e [bs "17"; bs "4"; bs "1"] = bs "17.4.1" /\
  iphone_safari (joined x5f [bs "17"; bs "4"; bs "1"]) (bs "17.4.1") =
    bs "Mozilla/5.0 (iPhone; CPU iPhone OS 17_4_1 like Mac OS X) AppleWebKit/605.1.15 (KHTML, like Gecko) Version/17.4.1 Mobile/15E148 Safari/604.1".
Proof.
  split.
  - exists (bs "17"), [bs "4"; bs "1"]. split; [reflexivity|]. split; [exact (is_numeral_ok (bs "17") eq_refl)|]. split; [repeat constructor|]. split; [discriminate|].
    constructor; [exact (is_numeral_ok (bs "4") eq_refl)|]. constructor; [exact (is_numeral_ok (bs "1") eq_refl)|constructor].
  - exact (conj (is_version_ok (bs "17.4.1") eq_refl) (conj (short_200 (iphone_safari (joined x5f [bs "17"; bs "4"; bs "1"]) (bs "17.4.1")) eq_refl)
      (conj (fun H : 1%N = 0%N => N.neq_succ_0 0 H) (conj eq_refl eq_refl)))).
Qed.

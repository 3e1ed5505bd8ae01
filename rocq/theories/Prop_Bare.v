(** User agents without words. *)
From Verif Require Import Model_Base Model_Ctx Model_Parse Model_Shipped Spec_Select Spec_Getters Spec_Bare Proof_Bare Proof_OsInside.
Open Scope nat_scope.

(** C93: with the shipped tables a user agent with fewer than two letters or digits (bytes beyond ASCII count as such) is
    unknown in every respect, whatever the filters. *)
Theorem C93_unknown : forall mC mD h ua, short ua -> weight ua < 2 ->
  (forall g, In g [GClientType; GDeviceType] -> alone shipped mC mD h ua g = Ok (VN 0)) /\
  (forall g, In g [GOS; GBrand] -> alone shipped mC mD h ua g = Ok (VB (bs "UNK"))) /\
  alone shipped mC mD 0 ua GBrowser = Ok (VB (bs "UNK")) /\
  (forall g, In g [GBrowserVersionString; GEngine; GEngineVersionString; GOSVersionString; GModel] -> alone shipped mC mD h ua g = Ok (VB [])).
Proof. exact shipped_bare. Qed.
Print Assumptions C93_unknown.
Example C93_case : short (bs "+/(-;7-)") /\ weight (bs "+/(-;7-)") < 2.
Proof. split; vm_compute; [reflexivity|repeat constructor]. Qed.

(** C93: two are enough, for each of the three: a browser, an operating system, a phone. *)
Theorem C93_two : weight (bs "18+/.") = 2 /\ weight (bs "A/1/") = 2 /\ weight (bs "LG") = 2 /\
  (forall mask, on mask 1 -> ~ no_client shipped mask (bs "18+/.")) /\ ~ no_os shipped (bs "A/1/") /\
  (forall mask, on mask 2 -> ~ no_device shipped mask (bs "LG")).
Proof.
  exact (conj eq_refl (conj eq_refl (conj eq_refl (enough_ok shipped 1 2 2 (bs "18+/.") (bs "A/1/") (bs "LG") 1 68 146 3 862 shipped_no_skip
    ltac:(cbn; auto 10) ltac:(cbn; auto 10) ltac:(vm_compute; reflexivity))))).
Qed.
Print Assumptions C93_two.

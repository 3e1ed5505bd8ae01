(** Property C61. *)
From Verif Require Import Model_Base Model_Version Model_Ctx Model_Parse Model_Shipped Spec_Version Spec_Getters Spec_Structured
  Proof_Version Proof_Structured.

(** C61: a structured version holds the numbers of the text the corresponding text getter returns, as far as the text is
    a dotted list of integers, and panics when that getter panics. *)
Theorem C61_components : forall T mC mD h ua gv gs, version_pair gv gs ->
  (forall s, alone T mC mD h ua gs = Ok (VB s) -> exists v, alone T mC mD h ua gv = Ok (VV v) /\ denotes s v) /\
  (alone T mC mD h ua gs = Panic -> alone T mC mD h ua gv = Panic).
Proof. exact components. Qed.
Print Assumptions C61_components.

(** C61 is false for the text: String of the structured version is not the text returned by the text getter ... *)
Theorem C61_same_text_refuted : exists T mC mD h ua gv gs s v, version_pair gv gs /\
  alone T mC mD h ua gs = Ok (VB s) /\ alone T mC mD h ua gv = Ok (VV v) /\ version_string v <> s.
Proof.
  exact (text_differs shipped 8 1023 (bs "Akregator/1.2.3") (bs "1.2.3") (bs "1.2.3.0") GBrowserVersion GBrowserVersionString
    (or_introl (conj eq_refl eq_refl)) ltac:(vm_compute; reflexivity) ltac:(discriminate)).
Qed.
Print Assumptions C61_same_text_refuted.

(** ... unless the text is four numbers in the int32 range, the first one positive, written the usual way. *)
Theorem C61_same_text : forall T mC mD h ua gv gs s a b c d za zb zc zd, version_pair gv gs ->
  alone T mC mD h ua gs = Ok (VB s) -> Usual a za -> Usual b zb -> Usual c zc -> Usual d zd ->
  (0 < za < 2 ^ 31 /\ zb < 2 ^ 31 /\ zc < 2 ^ 31 /\ zd < 2 ^ 31)%Z -> s = a ++ [x2e] ++ b ++ [x2e] ++ c ++ [x2e] ++ d ->
  exists v, alone T mC mD h ua gv = Ok (VV v) /\ fields v = [za; zb; zc; zd] /\ v_suffix v = [] /\ version_string v = s.
Proof. exact same_text. Qed.
Print Assumptions C61_same_text.

Example C61_case : (alone shipped 8 1023 0 (bs "Akregator/10.2.0.40") GBrowserVersionString = Ok (VB (bs "10.2.0.40")) /\
  exists v, alone shipped 8 1023 0 (bs "Akregator/10.2.0.40") GBrowserVersion = Ok (VV v) /\ version_string v = bs "10.2.0.40") /\
  Usual (bs "10") 10 /\ Usual (bs "0") 0 /\ Usual (bs "40") 40.
Proof.
  split; [exact (text_case shipped 8 1023 (bs "Akregator/10.2.0.40") (bs "10.2.0.40") (bs "10.2.0.40") GBrowserVersion GBrowserVersionString
    (or_introl (conj eq_refl eq_refl)) ltac:(vm_compute; reflexivity))|].
  repeat split; try (apply digits_value_Decimal; [discriminate|reflexivity]); first [left; reflexivity|right; discriminate].
Qed.

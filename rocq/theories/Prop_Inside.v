(** Device names inside words. *)
From Verif Require Import Model_Base Model_Ctx Model_Parse Model_Shipped Spec_Select Spec_Getters Spec_Dead Spec_Android Spec_Inside Proof_Inside.
Open Scope nat_scope.

(** C89: no entry of the device tables but one looks at what precedes the name: whatever is put in front of the user
    agent, an entry that applied still applies.  (The one is "^NEXT |..."; clients are different, see C62.) *)
Theorem C89_before : forall k l i x, nth_error (dr_idx shipped) k = Some l -> nth_error l i = Some x -> (k, i) <> next_box ->
  forall a c ua, (bn c < 128)%N -> device_applies shipped (c :: ua) x -> device_applies shipped (a ++ c :: ua) x.
Proof. exact shipped_before. Qed.
Print Assumptions C89_before.
Example C89_before_case : (phones, 250) <> next_box /\
  exists l x, nth_error (dr_idx shipped) phones = Some l /\ nth_error l 250 = Some x /\ device_applies shipped (bs "quest") x.
Proof. exact (conj before_other before_case). Qed.

(** C89: so these words, in whatever letters and also inside longer words, fix an entry of the phones: the phone chosen
    is that one or an earlier one. *)
Theorem C89_words : forall s n ua, In (s, n) names_inside -> says s ua ->
  exists l i, nth_error (dr_idx shipped) phones = Some l /\ i <= n /\ picked (device_applies shipped ua) l i.
Proof. exact shipped_first. Qed.
Print Assumptions C89_words.
Example C89_words_case : In (bs "quest", 250) names_inside /\ says (bs "quest") requests.
Proof. exact (conj (or_introl eq_refl) requests_says). Qed.

(** C89: and so the brand reported is never one of a phone behind it, nor one of the notebooks (class 4). *)
Theorem C89_brand : forall w n mC mD h ua s, In (w, n) names_inside -> says w ua -> short ua -> on mD 2 -> alone shipped mC mD h ua GBrand = Ok (VB s) ->
  exists k l i x, nth_error (dr_idx shipped) k = Some l /\ nth_error l i = Some x /\ brand_is shipped x s /\ (k = phones -> i <= n) /\ k <> 4.
Proof. exact shipped_word_brand. Qed.
Print Assumptions C89_brand.

(** C89 is false: the user agent of a widely used HTTP library is reported as a CUBOT phone, because of the "quest" inside
    its name; no word of it starts so. *)
Theorem C89_words_refuted : exists ua, short ua /\ says (bs "quest") ua /\ ~ starts_word (bs "quest") ua /\
  forall mC mD h, on mD 2 -> alone shipped mC mD h ua GBrand = Ok (VB (bs "CUBOT")).
Proof. exact (ex_intro _ requests (conj requests_short (conj requests_says (conj requests_inside requests_cubot)))). Qed.
Print Assumptions C89_words_refuted.

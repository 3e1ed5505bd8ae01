(** Property C96: names contain no markup. *)
From Verif Require Import Model_Base Model_CacheEntry Model_Ctx Model_Parse Model_Shipped Spec_Getters Spec_Select Spec_Charset
  Proof_Choice Proof_Charset Proof_Markup.

(** C96: browser, engine, brand and operating system are named without control characters, quotes, back-quotes, angle
    brackets and backslashes, whatever the user agent and the header contain ... *)
Theorem C96_names : forall mC mD h ua g s, short ua -> In g [GBrowser; GEngine; GBrand; GOS] ->
  alone shipped mC mD h ua g = Ok (VB s) -> Forall calm s.
Proof. exact shipped_names. Qed.
Print Assumptions C96_names.

Example C96_case : short (bs "COWON <b> Build") /\ In GBrand [GBrowser; GEngine; GBrand; GOS] /\
  alone shipped 1 512 0 (bs "COWON <b> Build") GBrand = Ok (VB (bs "Cowon")).
Proof.
  exact (conj (short_100 (bs "COWON <b> Build") eq_refl) (conj (or_intror (or_intror (or_introl eq_refl)))
    (bytes_case shipped 1 512 0 (bs "COWON <b> Build") GBrand (bs "Cowon") ltac:(vm_compute; reflexivity)))).
Qed.

(** ... but models are what the user agent says. *)
Theorem C96_model_refuted : exists mC mD ua s, short ua /\ alone shipped mC mD 0 ua GModel = Ok (VB s) /\ ~ Forall calm s.
Proof.
  exact (ex_intro _ 1%N (ex_intro _ 512%N (ex_intro _ (bs "COWON <b> Build") (ex_intro _ (bs "<b>") (conj (short_100 (bs "COWON <b> Build") eq_refl)
    (conj (bytes_case shipped 1 512 0 (bs "COWON <b> Build") GModel (bs "<b>") ltac:(vm_compute; reflexivity))
      (not_calm x3c (bs "<b>") (or_introl eq_refl) (or_intror (or_intror (or_introl eq_refl)))))))))).
Qed.
Print Assumptions C96_model_refuted.

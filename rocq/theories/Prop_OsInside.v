(** Names of operating systems inside words. *)
From Verif Require Import Model_Base Model_Ctx Model_Parse Model_Shipped Spec_Select Spec_Getters Spec_Dead Spec_Inside Spec_OsInside Proof_Choice Proof_OsInside.
Open Scope nat_scope.

(** C91: no entry of the operating systems but those whose pattern has a "^" looks at what precedes: whatever is put in
    front of the user agent, an entry that applied still applies. *)
Theorem C91_before : forall i x, nth_error (or_os shipped) i = Some x -> ~ In i os_anchored ->
  forall a c ua, (bn c < 128)%N -> os_applies shipped (c :: ua) x -> os_applies shipped (a ++ c :: ua) x.
Proof. exact shipped_os_before. Qed.
Print Assumptions C91_before.

(** C91: so these words, in whatever letters and also inside longer words, fix an entry: the operating system chosen is
    that one or an earlier one. *)
Theorem C91_words : forall s n ua, In (s, n) os_words -> says s ua ->
  exists i, i <= n /\ picked (os_applies shipped ua) (or_os shipped) i.
Proof. exact shipped_os_first. Qed.
Print Assumptions C91_words.

(** C91: and the name reported is the one of that entry. *)
Theorem C91_name : forall s n mC mD h ua r, In (s, n) os_words -> says s ua -> Spec_Select.small ua ->
  alone shipped mC mD h ua GOS = Ok (VB r) ->
  exists i x, i <= n /\ nth_error (or_os shipped) i = Some x /\ os_is shipped ua x /\ os_name_is shipped ua x r.
Proof. exact shipped_os_name. Qed.
Print Assumptions C91_name.
Example C91_case : In (bs "ppc", 282) os_words /\ says (bs "ppc") app_client /\ Spec_Select.small app_client /\
  (exists x, nth_error (or_os shipped) 282 = Some x /\ os_applies shipped app_client x) /\ ~ In 282 os_anchored.
Proof. exact app_case. Qed.

(** C91 is false: an application that calls itself a client is reported to run on a Mac, because of the "ppC" inside its
    name; no word of it starts so. *)
Theorem C91_words_refuted : exists ua, Spec_Select.small ua /\ says (bs "ppc") ua /\ ~ starts_word (bs "ppc") ua /\
  alone shipped 63 1023 0 ua GOS = Ok (VB (bs "Mac")).
Proof. exact app_mac. Qed.
Print Assumptions C91_words_refuted.

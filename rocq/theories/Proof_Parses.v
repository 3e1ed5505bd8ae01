(** Every pattern of the shipped tables is in the subset the model of regexp parses, and repeats no subexpression that
    can match the empty string, so that backtracking and Go's automata agree on the submatches. *)
From Verif Require Import Model_Base Model_Blob Model_Ctx Model_Regex Data_Client Data_OS Data_Device Data_DeviceRe0 Data_DeviceRe1
  Model_Shipped.

Definition parses (src : bytes) : bool := match parse_re src with Some (a, _) => star_ok a | None => false end.
Definition shipped_patterns : list bytes :=
  [src_tablet; src_mobile; src_blink] ++ map unblob (d_cr_re ++ d_cr_evre ++ d_or_re ++ d_vr_re ++ d_dr_re0 ++ d_dr_re1).
Lemma shipped_patterns_parse : forall src, In src shipped_patterns -> exists a ng, parse_re src = Some (a, ng) /\ star_ok a = true.
Proof.
  assert (H : forallb parses shipped_patterns = true) by (vm_cast_no_check (eq_refl true)).
  rewrite forallb_forall in H. intros src I. specialize (H src I). unfold parses in H.
  destruct (parse_re src) as [[a ng]|]; [|discriminate]. exists a, ng. auto.
Qed.

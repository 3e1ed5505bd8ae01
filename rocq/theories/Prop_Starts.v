(** C71: a program built from the generated files starts: regexp.MustCompile accepts every pattern. *)
From Verif Require Import Model_Base Model_Ctx Model_Regex Model_Compiler Model_Built Data_Tiny Model_Shipped Spec_Database Spec_Starts Proof_Starts Proof_StartsShipped.

(** If the patterns that were checked, the vendors' patterns and the names of engines are patterns, then so is all that
    is made of them. *)
Theorem C71_starts : forall K D, checks K D -> (forall e, known_engine D e -> e <> bs "Gecko" -> e <> bs "Blink" -> pattern e) ->
  (forall n ps p, In (n, ps) (db_vendor D) -> In p ps -> pattern p) -> starts (built K D).
Proof. exact built_starts. Qed.
Print Assumptions C71_starts.

(** The shipped program starts. *)
Theorem C71_shipped : starts shipped.
Proof. exact shipped_starts. Qed.
Print Assumptions C71_shipped.

(** But uaxplc only checks the former: it accepts an engine called "C++", and the program panics when it starts. *)
Theorem C71_engine_refuted : exists K D, checks K D /\ db_vendor D = [] /\ ~ starts (built K D).
Proof. exact (ex_intro _ tiny_compiler (ex_intro _ engine_db engine_refuted)). Qed.
Print Assumptions C71_engine_refuted.
(** Likewise a vendor with the pattern "foo++". *)
Theorem C71_vendor_refuted : exists K D, checks K D /\ (forall e, ~ known_engine D e) /\ ~ starts (built K D).
Proof. exact (ex_intro _ tiny_compiler (ex_intro _ vendor_db vendor_refuted)). Qed.
Print Assumptions C71_vendor_refuted.

Example C71_case : checks tiny_compiler tiny /\ (forall e, known_engine tiny e -> e <> bs "Gecko" -> e <> bs "Blink" -> pattern e) /\
  (forall n ps p, In (n, ps) (db_vendor tiny) -> In p ps -> pattern p) /\
  length (cr_re (built tiny_compiler tiny)) = 3 /\ length (cr_evre (built tiny_compiler tiny)) = 3 /\ length (dr_re (built tiny_compiler tiny)) = 3 /\ length (or_re (built tiny_compiler tiny)) = 3 /\ length (vr_re (built tiny_compiler tiny)) = 3.
Proof.
  destruct tiny_starts as (A & B & C). split; [exact A|]. split; [exact B|]. split; [exact C|]. vm_compute. repeat split.
Qed.

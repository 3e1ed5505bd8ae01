(** normalizeRegex takes out look-arounds as wholes. *)
From Verif Require Import Model_Base Model_Compiler Spec_Compiler Spec_Strip Proof_Strip.
From Coq Require Import Strings.Byte.

(** C43: a pattern comes out without its negative look-arounds and otherwise as it was: each of them is removed with all
    that its brackets enclose, brackets inside and escaped brackets notwithstanding. *)
Theorem C43_exact : forall s1 s2 s3 r, cut_all false (bs "(?<") (bs "(?<!") s1 s2 -> cut_one (bs "(?!.*") s2 s3 ->
  cut_all true (bs "(?!") (bs "(?!") s3 r -> ~ within (bs ")||(") r -> normalize s1 = Some (Ok r).
Proof. exact normalize_exact. Qed.
Print Assumptions C43_exact.
Example C43_exact_case : exists s2 s3,
  cut_all false (bs "(?<") (bs "(?<!") (bs "A(?<!B)C(?!.*D(?:E|F))G(?!H\)I)J") s2 /\ cut_one (bs "(?!.*") s2 s3 /\ cut_all true (bs "(?!") (bs "(?!") s3 (bs "ACGJ").
Proof. exact strip_example. Qed.

(** An escaped backslash at the end of a look-around is the exception: the bracket behind it is taken for an escaped one,
    and only the two bytes "(?" are removed. *)
Theorem C43_backslash_refuted : exists p body q, ~ within (bs "(?") (p ++ q) /\ body <> [] /\ bracketed_any body /\
  normalize (p ++ bs "(?!" ++ body ++ x29 :: q) = Some (Ok (p ++ bs "!" ++ body ++ x29 :: q)).
Proof. exact backslash_left. Qed.
Print Assumptions C43_backslash_refuted.

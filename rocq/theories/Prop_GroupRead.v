(** Property C108: a reference to a group that the pattern lacks is ignored. *)
From Verif Require Import Model_Base Model_Ctx Model_Regex Model_Parse Model_Compiler Model_Built Spec_Version Spec_Getters Spec_Reference Spec_GroupRead Proof_Reference Proof_GroupRead.
Open Scope Z_scope.

(** C108: what becomes of every number, for every pattern: only its remainder modulo 256 counts.  Below 64 the group of
    that number is read, from 128 to 191 the group of the number less 128; a group that is missing is ignored only if its
    number is at least twice the number of groups, and panics otherwise; the rest panics, except 255. *)
Theorem C108_reference : forall valid repl y k s z p c n f, yc_version y = x24 :: s -> IsInt s z -> Z.of_nat (length (re_groups p (c_src c))) = 2 * n ->
  fate_of n (z mod 256) f -> comes_to f (re_groups p (c_src c)) c (client_version (fst (compile_client1 valid repl y k)) p c).
Proof. exact entry_fate. Qed.
Print Assumptions C108_reference.

(** Every number has one fate. *)
Theorem C108_total : forall n r, 0 <= r < 256 -> exists f, fate_of n r f.
Proof. exact fate_total. Qed.
Print Assumptions C108_total.
Theorem C108_unique : forall n r f g, 0 <= n -> fate_of n r f -> fate_of n r g -> f = g.
Proof. exact fate_one. Qed.
Print Assumptions C108_unique.

(** C108 itself is false: the library built from a small database with the version $254 panics on the user agent Foo/29.0. *)
Theorem C108_ignored_refuted : exists K D ua ir y s z, nth_error (db_client D) 1 = Some ir /\ In y ir /\ yc_version y = x24 :: s /\ IsInt s z /\ 200 < z /\
  forall h, alone (built K D) 63 1023 h ua GBrowserVersionString = Panic.
Proof. exact group_refuted. Qed.
Print Assumptions C108_ignored_refuted.

(** The pattern of Foo has one group besides the whole match. *)
Example C108_case : foo_version "$1" = Ok (VB (bs "29.0")) /\ foo_version "$2" = Panic /\ foo_version "$4" = Ok (VB []) /\ foo_version "$129" = Ok (VB (bs "29.0")) /\
  foo_version "$254" = Panic /\ foo_version "$-2" = Panic /\ foo_version "$255" = Ok (VB []).
Proof. exact foo_versions. Qed.
Example C108_fates : fate_of 2 (129 mod 256) (Reads 1) /\ fate_of 2 (-2 mod 256) Crashes /\ fate_of 2 (4 mod 256) Ignored.
Proof. exact fate_cases. Qed.

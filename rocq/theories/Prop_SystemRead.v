(** Property C109: in an operating system entry, a reference to a group that the pattern lacks is ignored. *)
From Verif Require Import Model_Base Model_Ctx Model_Regex Model_Parse Model_Compiler Model_Built Spec_Version Spec_Getters Spec_Reference Spec_GroupRead Spec_SystemRead
  Proof_Reference Proof_GroupRead Proof_SystemRead.
Open Scope Z_scope.

(** C109, version: what becomes of every text after the dollar, for every pattern; the fates are those of C108, and a text
    that is no number means group 1. *)
Theorem C109_version : forall T valid repl y o p c n, yo_versions y = [] -> Z.of_nat (length (re_groups p (c_src c))) = 2 * n ->
  forall s z f, no_dollar (yo_name y) -> yo_version y = x24 :: s -> number_meant IsInt s z -> fate_of n (z mod 256) f ->
  let x := fst (compile_os1 valid repl y o) in ends_in up_osVersion f (re_groups p (c_src c)) (up_osName (ot_name64 x) c) (os_hit T x p c).
Proof. exact version_fate. Qed.
Print Assumptions C109_version.

(** C109, name: a name that is read is looked up in the user agent from then on. *)
Theorem C109_name : forall T valid repl y o p c n, yo_versions y = [] -> Z.of_nat (length (re_groups p (c_src c))) = 2 * n ->
  forall s z f, yo_name y = x24 :: s -> no_dollar (yo_version y) -> number_meant IsInt s z -> fate_of n (z mod 256) f ->
  let x := fst (compile_os1 valid repl y o) in
  ends_in (fun e c => set_flag flagOSBufSrc (up_osName e c)) f (re_groups p (c_src c)) (up_osName (ot_name64 x) c) (os_hit T x p c).
Proof. exact name_fate. Qed.
Print Assumptions C109_name.

(** C109, lists of versions: the same for the first entry of the list that applies, but 255 empties the version. *)
Theorem C109_list : forall T valid y o p c n v rest s z f, fst (compile_ov1 valid y o) = v -> 0 <= ov_matchRI v -> zindex (or_re T) (ov_matchRI v) = Ok p ->
  re_match p (c_src c) = true -> Z.of_nat (length (re_groups p (c_src c))) = 2 * n -> yv_version y = x24 :: s -> number_meant IsInt s z -> fate_of n (z mod 256) f ->
  (z mod 256 <> 255 -> ends_in up_osVersion f (re_groups p (c_src c)) c (os_ver_loop T (v :: rest) c)) /\
  (z mod 256 = 255 -> os_ver_loop T (v :: rest) c = (set_flag flagOSVerBufSrc (up_osVersion 0 c), Ok tt)).
Proof. exact nested_fate. Qed.
Print Assumptions C109_list.
Example C109_lists : zed_nested "$1" = Ok (VB (bs "1.2")) /\ zed_nested "$x" = Ok (VB (bs "1.2")) /\ zed_nested "$2" = Panic /\ zed_nested "$4" = Ok (VB []) /\
  zed_nested "$129" = Ok (VB (bs "1.2")) /\ zed_nested "$254" = Panic /\ zed_nested "$255" = Ok (VB []).
Proof. exact zed_lists. Qed.

(** C109 itself is false: the library built from a small database with the version $254 panics on the user agent Zed/1.2. *)
Theorem C109_ignored_refuted : exists K D ua y s z, In y (db_os D) /\ yo_version y = x24 :: s /\ IsInt s z /\ 200 < z /\ forall h, alone (built K D) 63 1023 h ua GOSVersionString = Panic.
Proof. exact system_refuted. Qed.
Print Assumptions C109_ignored_refuted.

Example C109_case : yo_versions (zed "Zed" "$129") = [] /\ no_dollar (yo_name (zed "Zed" "$129")) /\ yo_version (zed "Zed" "$129") = x24 :: bs "129" /\
  number_meant IsInt (bs "129") 129 /\ fate_of 2 (129 mod 256) (Reads 1).
Proof. exact zed_case. Qed.
(** The pattern has one group besides the whole match. *)
Example C109_fates : zed_version "$1" = Ok (VB (bs "1.2")) /\ zed_version "$x" = Ok (VB (bs "1.2")) /\ zed_version "$2" = Panic /\ zed_version "$4" = Ok (VB []) /\
  zed_version "$129" = Ok (VB (bs "1.2")) /\ zed_version "$-2" = Panic /\ zed_version "$255" = Ok (VB []) /\ zed_name "$1" = Ok (VB (bs "1.2")) /\ zed_name "$254" = Panic.
Proof. exact zed_versions. Qed.

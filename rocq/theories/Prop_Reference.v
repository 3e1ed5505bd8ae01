(** Property C107: a version written as a dollar and a number refers to the group of that number. *)
From Verif Require Import Model_Base Model_Ctx Model_Compiler Spec_Version Spec_Reference Proof_Reference.
Open Scope Z_scope.

(** C107, clients: the group is the number, cut to its last eight bits; a text that is no number in 64 bits stands for
    group 0, the whole match, or for no version at all if the number is positive and too big. *)
Theorem C107_client : forall valid repl y k s, yc_version y = x24 :: s ->
  let x := fst (compile_client1 valid repl y k) in ct_version64 x = 0%N /\ (forall z, IsInt s z -> low_byte z (ct_browserVI x)) /\
  ((forall z, ~ IsInt s z) -> (Huge s -> ct_browserVI x = -1) /\ (~ Huge s -> ct_browserVI x = 0)).
Proof. exact client_reference. Qed.
Print Assumptions C107_client.

(** C107, operating systems: the same for their versions, the versions in lists and their names, but a text that is no
    number stands for group 1. *)
Theorem C107_version : forall valid repl y o s, yo_versions y = [] -> yo_version y = x24 :: s ->
  let x := fst (compile_os1 valid repl y o) in ot_version64 x = 0%N /\ (forall z, IsInt s z -> low_byte z (ot_versionSI x)) /\ ((forall z, ~ IsInt s z) -> ot_versionSI x = 1).
Proof. exact system_reference. Qed.
Print Assumptions C107_version.

Theorem C107_list : forall valid y o s, yv_version y = x24 :: s ->
  let x := fst (compile_ov1 valid y o) in ov_version64 x = 0%N /\ (forall z, IsInt s z -> low_byte z (ov_versionSI x)) /\ ((forall z, ~ IsInt s z) -> ov_versionSI x = 1).
Proof. exact nested_reference. Qed.
Print Assumptions C107_list.

Theorem C107_name : forall valid repl y o s, yo_name y = x24 :: s ->
  let x := fst (compile_os1 valid repl y o) in ot_name64 x = 0%N /\ (forall z, IsInt s z -> low_byte z (ot_nameSI x)) /\ ((forall z, ~ IsInt s z) -> ot_nameSI x = 1).
Proof. exact name_reference. Qed.
Print Assumptions C107_name.

(** C107 itself is false from 128 on: 257 is taken for group 1. *)
Theorem C107_group_refuted : exists y s z, yc_version y = x24 :: s /\ IsInt s z /\ forall valid repl k, ct_browserVI (fst (compile_client1 valid repl y k)) <> z.
Proof. exact reference_refuted. Qed.
Print Assumptions C107_group_refuted.

Example C107_case : yc_version entry_257 = x24 :: bs "257" /\ IsInt (bs "257") 257 /\ forall valid repl k, ct_browserVI (fst (compile_client1 valid repl entry_257 k)) = 1.
Proof. exact (conj eq_refl reference_wraps). Qed.
(** A sign counts, and minus one means that there is no version. *)
Example C107_sign : IsInt (bs "-1") (-1) /\ fst (fst (client_version64 (bs "$-1") buf_empty)) = -1.
Proof. exact (conj (parse_false (bs "-1") (-1) eq_refl) eq_refl). Qed.
(** Too big a number followed by a letter, and a letter alone. *)
Example C107_huge : fst (fst (client_version64 (bs "$18446744073709551616x") buf_empty)) = -1 /\ fst (fst (client_version64 (bs "$x") buf_empty)) = 0.
Proof. exact (conj eq_refl eq_refl). Qed.

(** Properties C05-C09: Version. *)
From Verif Require Import Model_Base Model_Version Spec_Version Proof_Version.

(** C05: the leading components of any text exist and are unique; Parse sets exactly the integers they denote
    (as int32) and the suffix, or stops at the first component that is no integer. *)
Theorem C05_parse_components : forall s : bytes,
  exists cs rest, Peel 4 s cs rest /\
  (forall cs' rest', Peel 4 s cs' rest' -> cs = cs' /\ rest = rest') /\
  ((exists zs, Forall2 IsInt cs zs) \/
   (exists pre c post zs, cs = pre ++ c :: post /\ Forall2 IsInt pre zs /\ forall z, ~ IsInt c z)) /\
  forall v, v_p v = false ->
  (forall zs, Forall2 IsInt cs zs ->
     exists v', parse v s = (v', true) /\ v_p v' = true /\
                FieldsFrom v zs v' /\ SuffixFrom (v_suffix v) rest (v_suffix v')) /\
  (forall pre c post zs, cs = pre ++ c :: post -> Forall2 IsInt pre zs -> (forall z, ~ IsInt c z) ->
     exists v', parse v s = (v', false) /\ v_p v' = false /\
                FieldsFrom v zs v' /\ v_suffix v' = v_suffix v).
Proof.
  intros s. destruct (Peel_total 4 s) as (cs & rest & P).
  exact (ex_intro _ cs (ex_intro _ rest (conj P (conj (Peel_unique 4 s cs rest P)
    (conj (Forall2_or_first cs) (fun v H => parse_spec v s cs rest H P)))))).
Qed.
Print Assumptions C05_parse_components.

Example C05_case :
  parse version_zero (bs "10.15.7.1.rc-beta 2") = (mkVersion 10 15 7 1 (bs "beta 2") true, true) /\
  parse version_zero (bs "10.x.7") = (mkVersion 10 0 0 0 [] false, false) /\
  IsInt (bs "-12") (-12).
Proof.
  split; [vm_compute; reflexivity|]. split; [vm_compute; reflexivity|].
  apply atoi_IsInt. vm_compute. reflexivity.
Qed.

(** C06 *)
Theorem C06_idempotent_until_reset : forall v s v',
  (parse v s = (v', true) ->
     forall ss, fold_left (fun w t => fst (parse w t)) ss v' = v' /\ Forall (fun t => parse v' t = (v', true)) ss) /\
  (parse v s = (v', false) -> parse v' s = (v', false)) /\
  version_reset v = mkVersion 0 0 0 0 [] false.
Proof.
  intros v s v'. exact (conj (fun H ss => parse_many v s v' ss H) (conj (parse_fail_again v s v') eq_refl)).
Qed.
Print Assumptions C06_idempotent_until_reset.

Example C06_case :
  fst (parse (fst (parse version_zero (bs "1.2"))) (bs "7.8")) = mkVersion 1 2 0 0 [] true /\
  fst (parse (version_reset (fst (parse version_zero (bs "1.2")))) (bs "7.8")) = mkVersion 7 8 0 0 [] true.
Proof. vm_compute. split; reflexivity. Qed.

(** C07 is false in general ... *)
Theorem C07_text_round_trip_refuted :
  exists v, nonneg32 v /\ v_suffix v = [] /\ snd (parse version_zero (version_string v)) = false.
Proof. exists (mkVersion 0 5 0 0 [] false). repeat split; vm_compute; congruence. Qed.
Print Assumptions C07_text_round_trip_refuted.

(** ... and holds exactly for versions without a suffix whose major component is positive (or that are zero). *)
Theorem C07_text_round_trip_iff : forall v,
  (0 <= v_major v < 2 ^ 31 /\ 0 <= v_minor v < 2 ^ 31 /\ 0 <= v_patch v < 2 ^ 31 /\ 0 <= v_revision v < 2 ^ 31)%Z ->
  (parse version_zero (version_string v) =
     (mkVersion (v_major v) (v_minor v) (v_patch v) (v_revision v) (v_suffix v) true, true) <->
   v_suffix v = [] /\ ((0 < v_major v)%Z \/ (v_minor v = 0 /\ v_patch v = 0 /\ v_revision v = 0)%Z)).
Proof. exact round_trip_iff. Qed.
Print Assumptions C07_text_round_trip_iff.

Example C07_case : version_string (mkVersion 10 0 19045 2 [] false) = bs "10.0.19045.2" /\
  parse version_zero (bs "10.0.19045.2") = (mkVersion 10 0 19045 2 [] true, true).
Proof. vm_compute. split; reflexivity. Qed.

(** C08 is false beyond the int32 range ... *)
Theorem C08_numbers_refuted :
  exists s z, IsInt s z /\ exists v, parse version_zero s = (v, true) /\ v_major v <> z.
Proof.
  exists (bs "2147483648"), 2147483648%Z. split; [apply atoi_IsInt; vm_compute; reflexivity|].
  eexists. split; [vm_compute; reflexivity|]. vm_compute. congruence.
Qed.
Print Assumptions C08_numbers_refuted.

(** ... and holds within it. *)
Theorem C08_numbers_in_range : forall s cs rest zs,
  Peel 4 s cs rest -> Forall2 IsInt cs zs -> Forall (fun z => - 2 ^ 31 <= z < 2 ^ 31)%Z zs ->
  exists v, parse version_zero s = (v, true) /\
            [v_major v; v_minor v; v_patch v; v_revision v] = firstn 4 (zs ++ [0; 0; 0; 0]%Z).
Proof. exact parse_components_exact. Qed.
Print Assumptions C08_numbers_in_range.

Example C08_case : Peel 4 (bs "537.36") [bs "537"; bs "36"] [] /\ Forall2 IsInt [bs "537"; bs "36"] [537; 36]%Z.
Proof.
  split.
  - apply (Peel_dot 3 (bs "537") (bs "36")); [cbn; intuition discriminate|].
    constructor; [discriminate|cbn; intuition discriminate].
  - apply Forall2_cons; [|apply Forall2_cons; [|apply Forall2_nil]]; apply atoi_IsInt; reflexivity.
Qed.

(** C09 is false for the zero version ... *)
Theorem C09_write_appends_refuted :
  exists v d1 d2 t1 t2, version_write v d1 = d1 ++ t1 /\ version_write v d2 = d2 ++ t2 /\ t1 <> t2.
Proof.
  exists version_zero, [], (bs "v"), (bs "0"), []. repeat split; vm_compute; congruence.
Qed.
Print Assumptions C09_write_appends_refuted.

(** ... and holds for every version with a positive component or a suffix; the zero version prints "0" on an empty
    destination and nothing otherwise. *)
Theorem C09_write_appends : forall v dst,
  ((0 < v_major v \/ 0 < v_minor v \/ 0 < v_patch v \/ 0 < v_revision v)%Z \/ v_suffix v <> [] ->
     version_write v dst = dst ++ version_string v) /\
  ((v_major v <= 0 /\ v_minor v <= 0 /\ v_patch v <= 0 /\ v_revision v <= 0)%Z /\ v_suffix v = [] ->
     version_write v dst = match dst with [] => bs "0" | _ => dst end).
Proof. exact version_write_cases. Qed.
Print Assumptions C09_write_appends.

Example C09_case : version_write (mkVersion 3 1 0 0 (bs "rc") false) (bs "v") = bs "v3.1.0.0 rc".
Proof. vm_compute. reflexivity. Qed.

(** The shipped program starts. *)
From Verif Require Import Model_Base Model_Blob Model_Ctx Model_Regex Data_Client Data_OS Data_Device Data_DeviceRe0 Data_DeviceRe1
  Model_Shipped Spec_Database Proof_Parses.

Definition listed (l : list blob) : Prop := forall b, In b l -> In (unblob b) shipped_patterns.
Lemma listed_starts l : listed l -> Forall (fun r => parse_re (re_src r) <> None) (compile_all l).
Proof.
  intros H. apply Forall_forall. intros r I. unfold compile_all in I. apply in_map_iff in I as (b & <- & I).
  destruct (shipped_patterns_parse _ (H b I)) as (a & ng & E & _). change (re_src (compile (unblob b))) with (unblob b). rewrite E. discriminate.
Qed.
Lemma all_listed b : In b (d_cr_re ++ d_cr_evre ++ d_or_re ++ d_vr_re ++ d_dr_re0 ++ d_dr_re1) -> In (unblob b) shipped_patterns.
Proof. intros I. unfold shipped_patterns. apply in_or_app. right. apply in_map. exact I. Qed.
Lemma starts_of T : Forall (fun r => parse_re (re_src r) <> None) (cr_re T) -> Forall (fun r => parse_re (re_src r) <> None) (cr_evre T) ->
  Forall (fun r => parse_re (re_src r) <> None) (or_re T) -> Forall (fun r => parse_re (re_src r) <> None) (dr_re T) ->
  Forall (fun r => parse_re (re_src r) <> None) (vr_re T) -> starts T.
Proof. intros A B C D E. unfold starts. repeat (apply Forall_app; split; [assumption|]). assumption. Qed.
Lemma shipped_starts : starts shipped.
Proof.
  assert (L1 : listed d_cr_re) by (intros b I; apply all_listed; rewrite !in_app_iff; auto).
  assert (L2 : listed d_cr_evre) by (intros b I; apply all_listed; rewrite !in_app_iff; auto).
  assert (L3 : listed d_or_re) by (intros b I; apply all_listed; rewrite !in_app_iff; auto).
  assert (L4 : listed (d_dr_re0 ++ d_dr_re1)) by (intros b I; apply all_listed; rewrite !in_app_iff in *; tauto).
  assert (L5 : listed d_vr_re) by (intros b I; apply all_listed; rewrite !in_app_iff; auto).
  exact (starts_of shipped (listed_starts _ L1) (listed_starts _ L2) (listed_starts _ L3) (listed_starts _ L4) (listed_starts _ L5)).
Qed.

(** The shipped tables meet the conditions of the selection theorems. *)
From Verif Require Import Model_Base Model_Blob Model_Ctx Model_Parse Model_Regex Data_Client Data_OS Data_Device Data_Model
  Data_DeviceRe0 Data_DeviceRe1 Model_Shipped Spec_Select Proof_Base Proof_Select Proof_Regex.
From Coq Require Import Lia ZifyBool ZifyNat ZifyN.

Lemma sane_compiled src : sane_regex (compile src).
Proof.
  intros s m F. cbn [compile re_find] in F. destruct (parse_re src) as [[a ng]|]; [|discriminate].
  apply find_re_ok in F as (ps & -> & _ & Fp & _). exists ps. split; [reflexivity|exact Fp].
Qed.
Lemma sane_compile_all l : Forall sane_regex (compile_all l).
Proof. unfold compile_all. induction l; cbn; constructor; auto using sane_compiled. Qed.

Definition within (lo hi z : Z) : bool := (lo <=? z)%Z && (z <? hi)%Z.
Definition client_vi (l : list (list clientTuple)) : bool := forallb (forallb (fun x => within (-1) 64 (ct_browserVI x))) l.
Lemma client_vi_ok l : client_vi l = true -> Forall (Forall (fun x => (-1 <= ct_browserVI x < 64)%Z)) l.
Proof.
  unfold client_vi, within. intros H. rewrite forallb_forall in H. apply Forall_forall. intros r Ir. specialize (H r Ir).
  rewrite forallb_forall in H. apply Forall_forall. intros x Ix. specialize (H x Ix). lia.
Qed.
Lemma shipped_client_sane : client_sane shipped.
Proof.
  split; [exact (sane_compile_all d_cr_re)|]. split; [exact (sane_compile_all d_cr_evre)|].
  apply client_vi_ok. vm_cast_no_check (eq_refl true).
Qed.

Definition os_si (l : list osTuple) (v : list osVersionTuple) : bool :=
  forallb (fun x => within (-1) 64 (ot_nameSI x) && within (-1) 64 (ot_versionSI x)) l &&
  forallb (fun x => within (-1) 64 (ov_versionSI x)) v.
Lemma os_si_ok l v : os_si l v = true ->
  Forall (fun x => (-1 <= ot_nameSI x < 64)%Z /\ (-1 <= ot_versionSI x < 64)%Z) l /\
  Forall (fun x => (-1 <= ov_versionSI x < 64)%Z) v.
Proof.
  unfold os_si, within. intros H. apply andb_true_iff in H as [H1 H2]. rewrite forallb_forall in H1, H2.
  split; apply Forall_forall; intros x Ix; [specialize (H1 x Ix)|specialize (H2 x Ix)]; lia.
Qed.
Lemma shipped_os_sane : os_sane shipped.
Proof.
  split; [exact (sane_compile_all d_or_re)|]. apply os_si_ok. vm_cast_no_check (eq_refl true).
Qed.

(** Decoding by shifting, cheaper than division. *)
Definition fast_decode (e : N) : N * N := (N.shiftr e 32, N.land e 4294967295).
Lemma fast_decode_ok e : fast_decode e = e_decode e.
Proof.
  unfold fast_decode, e_decode. change two32 with (2 ^ 32)%N. rewrite N.shiftr_div_pow2. f_equal.
  change 4294967295%N with (N.ones 32). apply N.land_ones.
Qed.

Definition dm_len (l : list modelTuple) : bool :=
  forallb (fun m => let '(lo, hi) := fast_decode (mt_model64 m) in (hi - lo <? 256)%N) l.
Lemma dm_len_ok buf l : dm_len l = true ->
  Forall (fun m => forall tpl, text buf (mt_model64 m) tpl -> (length tpl < 256)%nat) l.
Proof.
  unfold dm_len. intros H. rewrite forallb_forall in H. apply Forall_forall. intros m Im tpl Tx. specialize (H m Im).
  rewrite fast_decode_ok in H.
  apply text_slice in Tx. unfold slice64 in Tx. destruct (e_decode (mt_model64 m)) as [lo hi]. cbn [fst snd] in *.
  pose proof (slice_Ok_inv _ _ _ _ Tx) as (L1 & L2 & _). rewrite slice_ok in Tx by assumption. injection Tx as <-.
  rewrite firstn_length. lia.
Qed.
Lemma shipped_device_sane : device_sane shipped.
Proof.
  split; [exact (sane_compile_all (d_dr_re0 ++ d_dr_re1))|]. apply dm_len_ok. vm_cast_no_check (eq_refl true).
Qed.

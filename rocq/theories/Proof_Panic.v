(** Detections that never panic: conditions on the tables, and why they are enough. *)
From Verif Require Import Model_Base Model_CacheEntry Model_Version Model_Ctx Model_Parse Model_Regex Spec_Version
  Spec_Getters Spec_Select Proof_Base Proof_Local Proof_Safe Proof_Getters Proof_Regex Proof_Select Proof_Client Proof_OS
  Proof_Device.
From Coq Require Import Lia ZifyBool ZifyNat ZifyN.

(** The slice packed into [e] exists. *)
Definition fits {A} (l : list A) (e : N) : Prop := exists s, slice l (fst (e_decode e)) (snd (e_decode e)) = Ok s.
Lemma fits_slice buf e : fits buf e -> exists s, slice64 buf e = Ok s.
Proof. intros H. exact H. Qed.

Definition has_group (res : list regex) (ri si : Z) : Prop :=
  si = (-1)%Z \/ exists r ng, zindex res ri = Ok r /\ re_ok ng r /\ (0 <= si <= Z.of_nat ng)%Z /\ (si < 64)%Z.

Lemma flat_length (ps : list (Z * Z)) : length (flat_map (fun x => [fst x; snd x]) ps) = 2 * length ps.
Proof. induction ps as [|p ps IH]; [reflexivity|]. cbn [flat_map length app]. rewrite IH. lia. Qed.
Lemma group_ok ng r ua m si : re_ok ng r -> re_find r ua = Some m -> (0 <= si <= Z.of_nat ng)%Z -> (si < 64)%Z ->
  exists g, Model_Parse.group m si = Ok g.
Proof.
  intros K F B1 B2. destruct (K ua m F) as (ps & Em & Lp & _).
  assert (L : length m = 2 * S ng) by (rewrite Em, flat_length, Lp; reflexivity).
  unfold Model_Parse.group. rewrite !wrap8_small by (rewrite ?wrap8_small; lia).
  assert (Z : forall i, (0 <= i < Z.of_nat (length m))%Z -> exists x, zindex m i = Ok x).
  { intros i B. destruct (nth_error m (Z.to_nat i)) as [x|] eqn:N.
    - exists x. apply zindex_Ok. split; [lia|exact N].
    - apply nth_error_None in N. lia. }
  destruct (Z (si * 2)%Z ltac:(lia)) as [lo ->]. destruct (Z (si * 2 + 1)%Z ltac:(lia)) as [hi ->]. eexists. reflexivity.
Qed.
Lemma hit_fine res buf ri m64 ua : ((0 <= ri)%Z -> exists r, zindex res ri = Ok r) -> ((ri < 0)%Z -> fits buf m64) ->
  exists b, hit res buf ri m64 ua = Ok b.
Proof.
  intros H1 H2. unfold hit. destruct (Z.leb_spec 0 ri) as [L|L].
  - destruct (H1 L) as [r ->]. eexists. reflexivity.
  - destruct (H2 L) as [s E]. unfold slice64. rewrite E. eexists. reflexivity.
Qed.
Lemma last_ok {A} (l : list A) : l <> [] -> exists x, zindex l (Z.of_nat (length l) - 1) = Ok x.
Proof.
  intros N. destruct l as [|a l]; [contradiction|].
  destruct (nth_error (a :: l) (Z.to_nat (Z.of_nat (length (a :: l)) - 1))) as [x|] eqn:E.
  - exists x. apply zindex_Ok. split; [cbn [length]; lia|exact E].
  - apply nth_error_None in E. cbn [length] in E. lia.
Qed.
Lemma not_panic {A} (r : res A) : r <> Panic -> exists a, r = Ok a.
Proof. destruct r; [eauto|contradiction]. Qed.

(** ** Operating systems *)
Section OS.
Variable T : tables.

Definition ov_fine (v : osVersionTuple) : Prop :=
  fits (or_buf T) (ov_version64 v) /\ ((ov_matchRI v < 0)%Z -> fits (or_buf T) (ov_match64 v)) /\
  ((0 <= ov_matchRI v)%Z -> (exists r, zindex (or_re T) (ov_matchRI v) = Ok r) /\ has_group (or_re T) (ov_matchRI v) (ov_versionSI v)).
Definition os_fine (x : osTuple) : Prop :=
  fits (or_buf T) (ot_name64 x) /\ fits (or_buf T) (ot_version64 x) /\
  ((ot_matchRI x < 0)%Z -> fits (or_buf T) (ot_match64 x)) /\
  ((0 <= ot_matchRI x)%Z -> (exists r, zindex (or_re T) (ot_matchRI x) = Ok r) /\
     has_group (or_re T) (ot_matchRI x) (ot_nameSI x) /\ has_group (or_re T) (ot_matchRI x) (ot_versionSI x) /\
     (ot_versions64 x = 0%N \/ exists v rv, slice (or_ov T) (fst (e_decode (ot_versions64 x))) (snd (e_decode (ot_versions64 x))) = Ok (v :: rv))).
Definition os_table_fine : Prop := or_os T <> [] /\ Forall os_fine (or_os T) /\ Forall ov_fine (or_ov T).

Definition vgood (c : ctx) : Prop := bit flagOSVerBufSrc c = true -> fits (or_buf T) (c_osVersion c).

Lemma copy_group_fine r m si up c : has_group (or_re T) r si -> (exists re, zindex (or_re T) r = Ok re /\ re_find re (c_src c) = Some m) ->
  exists e, copy_group m si up c = (c, Ok tt) \/ copy_group m si up c = (up e c, Ok tt).
Proof.
  intros [->|(r1 & ng & Z & K & B1 & B2)] (re & Z' & F).
  - exists 0%N. left. unfold copy_group. cbn [Z.eqb negb]. rewrite andb_false_r. reflexivity.
  - rewrite Z in Z'. injection Z' as <-. unfold copy_group.
    destruct ((si <? Z.of_nat (length m))%Z && negb (si =? -1)%Z); [|exists 0%N; auto].
    destruct (group_ok _ _ _ _ _ K F B1 B2) as [g G]. unfold mbind, mlift. rewrite G.
    destruct (negb (fst g =? -1)%Z && negb (snd g =? -1)%Z); eexists; [right|left]; reflexivity.
  Unshelve. exact 0%N.
Qed.

Lemma in_slice {A} (l : list A) lo hi r x : slice l lo hi = Ok r -> In x r -> In x l.
Proof.
  intros H I. pose proof (slice_Ok_inv _ _ _ _ H) as (L1 & L2 & _). rewrite slice_ok in H by assumption. injection H as <-.
  assert (I' : In x (skipn (N.to_nat lo) l)).
  { rewrite <- (firstn_skipn (N.to_nat (hi - lo)) (skipn (N.to_nat lo) l)). apply in_or_app. left. exact I. }
  rewrite <- (firstn_skipn (N.to_nat lo) l). apply in_or_app. right. exact I'.
Qed.

Lemma vtest_fine ua v : ov_fine v -> exists b, vtest T ua v = Ok b.
Proof. intros (_ & H1 & H2). apply hit_fine; [intros L; apply H2; exact L|exact H1]. Qed.

Lemma eval_ver_fine r v rv c : Forall ov_fine (or_ov T) -> bit flagOSVerBufSrc c = false ->
  slice (or_ov T) (fst (e_decode r)) (snd (e_decode r)) = Ok (v :: rv) ->
  exists c', os_eval_ver T r c = (c', Ok tt) /\ vgood c'.
Proof.
  intros Fv B E. unfold os_eval_ver, mbind, mlift. rewrite E. destruct (last_ok (v :: rv)) as [z ->]; [discriminate|].
  assert (Fr : Forall ov_fine (v :: rv)).
  { apply Forall_forall. intros y Iy. rewrite Forall_forall in Fv. apply Fv. exact (in_slice _ _ _ _ _ E Iy). }
  rewrite os_ver_loop_search.
  destruct (not_panic (search (vtest T (c_src c)) (v :: rv))) as [[y|] Sy].
  { apply search_ok. eapply Forall_impl; [|exact Fr]. intros y Hy. destruct (vtest_fine (c_src c) y Hy) as [b ->]. discriminate. }
  - rewrite Sy. pose proof (search_in _ _ _ Sy) as [Iy Ty]. rewrite Forall_forall in Fr. destruct (Fr y Iy) as (H1 & H2 & H3).
    unfold os_ver_after. destruct ((0 <=? ov_matchRI y)%Z && negb (ov_versionSI y =? -1)%Z) eqn:C.
    + apply andb_prop in C as [C1 C2]. apply Z.leb_le in C1. destruct (H3 C1) as [[re Zr] HG]. rewrite Zr.
      destruct HG as [HG|(r1 & ng & Z' & K & B1 & B2)]; [rewrite HG in C2; discriminate|]. rewrite Zr in Z'. injection Z' as <-.
      unfold vtest, hit in Ty. apply Z.leb_le in C1. rewrite C1, Zr in Ty. cbn [rbind] in Ty. injection Ty as Ty.
      unfold re_match in Ty. unfold re_groups. destruct (re_find re (c_src c)) as [m|] eqn:F; [|discriminate].
      cbv zeta. destruct (ov_versionSI y <? Z.of_nat (length m))%Z.
      2: { eexists. split; [reflexivity|]. intros X. congruence. }
      destruct (group_ok _ _ _ _ _ K F B1 B2) as [g ->].
      destruct (negb (fst g =? -1)%Z && negb (snd g =? -1)%Z); eexists; (split; [reflexivity|]); intros X; [|congruence].
      unfold bit in *. cbn in X. congruence.
    + eexists. split; [reflexivity|]. intros _. exact H1.
  - rewrite Sy. eexists. split; [reflexivity|]. intros X. congruence.
Qed.

Lemma ostest_fine ua x : os_fine x -> exists b, ostest T ua x = Ok b.
Proof.
  intros (_ & _ & H1 & H2). unfold ostest. destruct (Z.leb_spec 0 (ot_matchRI x)) as [L|L].
  - destruct (H2 L) as [[r ->] _]. eexists. reflexivity.
  - destruct (H1 L) as [s E]. unfold slice64. rewrite E. eexists. reflexivity.
Qed.

Lemma os_after_fine x c : os_table_fine -> os_fine x -> bit flagOSVerBufSrc c = false -> ostest T (c_src c) x = Ok true ->
  exists c', os_after T x c = (c', Ok tt) /\ vgood c'.
Proof.
  intros (_ & _ & Fv) (H1 & H2 & H3 & H4) B Ht. unfold os_after. unfold ostest in Ht.
  destruct (Z.leb_spec 0 (ot_matchRI x)) as [L|L].
  2: { eexists. split; [reflexivity|]. intros X. unfold bit in *. cbn in X. congruence. }
  destruct (H4 L) as ([re Zr] & G1 & G2 & V). rewrite Zr in Ht |- *. cbn [rbind] in Ht. injection Ht as Ht.
  apply andb_prop in Ht as [_ Ht]. unfold re_match in Ht. destruct (re_find re (c_src c)) as [m|] eqn:F; [|discriminate].
  rewrite os_hit_eq. unfold re_groups. rewrite F. set (c0 := up_osName (ot_name64 x) c).
  assert (E0 : c_src c0 = c_src c /\ bit flagOSVerBufSrc c0 = false) by (split; [reflexivity|exact B]). clearbody c0. destruct E0 as [E0 B0].
  unfold mbind at 1.
  destruct (copy_group_fine (ot_matchRI x) m (ot_nameSI x) (fun e c => set_flag flagOSBufSrc (up_osName e c)) c0 G1) as (e1 & E1).
  { exists re. rewrite E0. auto. }
  assert (Q1 : exists c1, copy_group m (ot_nameSI x) (fun e c => set_flag flagOSBufSrc (up_osName e c)) c0 = (c1, Ok tt) /\ c_src c1 = c_src c /\ bit flagOSVerBufSrc c1 = false).
  { destruct E1 as [E1|E1]; rewrite E1; eexists; (split; [reflexivity|]); [auto|]. split; [exact E0|].
    rewrite bit_other by discriminate. exact B0. }
  destruct Q1 as (c1 & -> & E2 & B2). unfold mbind at 1.
  destruct (copy_group_fine (ot_matchRI x) m (ot_versionSI x) up_osVersion c1 G2) as (e3 & E3).
  { exists re. rewrite E2. auto. }
  assert (Q2 : exists c2, copy_group m (ot_versionSI x) up_osVersion c1 = (c2, Ok tt) /\ bit flagOSVerBufSrc c2 = false).
  { destruct E3 as [E3|E3]; rewrite E3; eexists; (split; [reflexivity|]); [auto|exact B2]. }
  destruct Q2 as (c2 & -> & B3).
  destruct (N.eqb_spec (ot_versions64 x) 0) as [Ev|Ev]; cbn [negb].
  - eexists. split; [reflexivity|]. intros X. congruence.
  - destruct V as [V|(v & rv & V)]; [contradiction|]. exact (eval_ver_fine _ v rv c2 Fv B3 V).
Qed.

Lemma eval_os_fine c : os_table_fine -> bit flagOSVerBufSrc c = false ->
  exists c' b, eval_os T c = (c', Ok b) /\ vgood c'.
Proof.
  intros TF B. pose proof TF as (Ne & Fo & _). unfold eval_os. unfold mbind at 1, mlift. destruct (last_ok _ Ne) as [z ->].
  unfold mbind at 1, mget. unfold mbind at 1. rewrite os_loop_search.
  destruct (not_panic (search (ostest T (c_src c)) (or_os T))) as [[x|] Sx].
  { apply search_ok. eapply Forall_impl; [|exact Fo]. intros y Hy. destruct (ostest_fine (c_src c) y Hy) as [b ->]. discriminate. }
  - rewrite Sx. pose proof (search_in _ _ _ Sx) as [Ix Tx]. rewrite Forall_forall in Fo.
    destruct (os_after_fine x c TF (Fo x Ix) B Tx) as (c1 & -> & V1). cbn [rbind].
    unfold mbind, mmod, mret. destruct (negb (ot_version64 x =? 0)%N); eexists; eexists; (split; [reflexivity|]); [|exact V1].
    intros _. apply (Fo x Ix).
  - rewrite Sx. eexists. eexists. split; [reflexivity|]. intros X. congruence.
Qed.

Variables mC mD h : N.
Variable ua : bytes.
Hypothesis TF : os_table_fine.
Hypothesis S : os_sane T.
Hypothesis L : small ua.

Lemma os_end_fine : exists b, snd (os_end T mC mD h ua) = Ok b /\ vgood (fst (os_end T mC mD h ua)).
Proof.
  unfold os_end. destruct (eval_os_fine (fresh_ctx mC mD h ua) TF eq_refl) as (c' & b & -> & V). exists b. auto.
Qed.

Lemma os_no_panic : alone T mC mD h ua GOS <> Panic.
Proof.
  rewrite alone_os. destruct os_end_fine as (b & E & V). rewrite E. destruct (os_end_spec T mC mD h ua S L b E) as [Es H]. destruct b.
  2: { destruct H as [NC Ec]. rewrite Ec. discriminate. }
  destruct H as (x & OI & NS & _). rewrite read_os_eq. set (c := fst (os_end T mC mD h ua)) in *.
  change (c_osName (set_flag flagOSDetect c)) with (c_osName c). change (c_src (set_flag flagOSDetect c)) with (c_src c).
  rewrite bit_other by discriminate. rewrite Es. destruct (negb (c_osName c =? 0)%N); [|discriminate].
  destruct NS as [(K & m & w & Fd & G & Tx & _)|(K & En & NG)]; rewrite K.
  - apply text_slice in Tx. rewrite Tx. discriminate.
  - rewrite En. destruct TF as (_ & Fo & _). rewrite Forall_forall in Fo. destruct (Fo x (first_in _ _ _ OI)) as [[s Hs] _].
    unfold slice64. rewrite Hs. discriminate.
Qed.
Lemma os_version_no_panic : alone T mC mD h ua GOSVersionString <> Panic.
Proof.
  rewrite alone_os_version_string. destruct os_end_fine as (b & E & V). rewrite E.
  destruct (os_end_spec T mC mD h ua S L b E) as [Es H]. destruct b.
  2: { destruct H as [NC Ec]. rewrite Ec. discriminate. }
  destruct H as (x & OI & _ & VS). rewrite read_os_version_eq. set (c := fst (os_end T mC mD h ua)) in *.
  change (c_osVersion (set_flag flagOSDetect c)) with (c_osVersion c). change (c_src (set_flag flagOSDetect c)) with (c_src c).
  rewrite bit_other by discriminate. rewrite Es. destruct (0 <? c_osVersion c)%N; [|discriminate].
  destruct VS as [(K & w & OV & Tx)|(K & Hc)]; rewrite K.
  - apply text_slice in Tx. rewrite Tx. discriminate.
  - destruct (V K) as [s Hs]. unfold slice64. rewrite Hs. discriminate.
Qed.
End OS.

(** A version getter panics only when its string getter does. *)
Lemma version_no_panic (proj : ctx -> version) (upd : version -> ctx -> ctx) (gs : P bytes) c :
  v_p (proj c) = false -> snd (run_cold (pmap VB gs c)) <> Panic ->
  snd (run_cold (pmap VV (fun c => if v_p (proj c) then Ret (c, Ok (proj c))
           else (raw <- gs ;; plift (mmod (fun c => upd (fst (parse (proj c) raw)) c)) ;; plift (mget proj))%p c) c)) <> Panic.
Proof.
  intros Hp. rewrite !run_cold_pmap. cbv beta. rewrite Hp. unfold pbind at 1. rewrite run_cold_bind.
  destruct (run_cold (gs c)) as [c1 [raw|]]; cbn; [discriminate|auto].
Qed.

Lemma os_version_value T mC mD h ua : alone T mC mD h ua GOSVersionString <> Panic -> alone T mC mD h ua GOSVersion <> Panic.
Proof. apply version_no_panic. reflexivity. Qed.

(** ** Devices *)
Section Device.
Variable T : tables.

(** The template does not end in a dollar. *)
Definition no_dollar_end (tpl : bytes) : Prop := forall a, tpl <> a ++ [x24].
Definition model_fine (m : modelTuple) : Prop :=
  fits (dr_buf T) (mt_type64 m) /\ (exists tpl, slice64 (dr_buf T) (mt_model64 m) = Ok tpl /\ no_dollar_end tpl) /\
  ((0 <= mt_matchRI m)%Z -> exists r, zindex (dr_re T) (mt_matchRI m) = Ok r) /\
  ((mt_matchRI m < 0)%Z -> fits (dr_buf T) (mt_match64 m)).
Definition dev_fine (x : deviceTuple) : Prop :=
  fits (dr_buf T) (dt_type64 x) /\ fits (dr_buf T) (dt_brand64 x) /\
  (dt_matchRI x = (-1)%Z \/ exists r, zindex (dr_re T) (dt_matchRI x) = Ok r) /\
  ((dt_matchRI x < 0)%Z -> fits (dr_buf T) (dt_match64 x)) /\
  (dt_modelSI x = (-1)%Z \/ exists m, zindex (dr_dm T) (dt_modelSI x) = Ok m) /\
  (snd (e_decode (dt_models64 x)) <= N.of_nat (length (dr_dm T)))%N.
Definition dev_table_fine : Prop :=
  length (dr_idx T) = 8 /\ Forall (fun ir => ir <> [] /\ Forall dev_fine ir) (dr_idx T) /\ Forall model_fine (dr_dm T) /\
  Forall (fun v => fits (vr_buf T) (vt_brand64 v) /\ (snd (e_decode (vt_range64 v)) <= N.of_nat (length (vr_re T)))%N) (vr_idx T).

Lemma at_spec (s : bytes) b at_ p : index_byte_at s b at_ = Some p -> at_ <= p < length s /\ nth_error s p = Some b.
Proof.
  unfold index_byte_at. destruct (index_byte (skipn at_ s) b) as [k|] eqn:E; [|discriminate]. intros [= <-].
  apply index_byte_Some in E as (u & v & E & <- & _).
  assert (Q : nth_error s (at_ + length u) = Some b).
  { assert (nth_error (skipn at_ s) (length u) = Some b) by (rewrite E, nth_error_app2, Nat.sub_diag by lia; reflexivity).
    destruct (Nat.le_gt_cases at_ (length s)) as [Le|Gt].
    - rewrite <- (firstn_skipn at_ s), nth_error_app2; rewrite firstn_length_le by exact Le; [|lia].
      replace (at_ + length u - at_) with (length u) by lia. exact H.
    - rewrite skipn_all2 in E by lia. destruct u; discriminate. }
  split; [|rewrite ?(Nat.add_comm (length u)); exact Q]. assert (nth_error s (at_ + length u) <> None) as Q' by congruence.
  apply nth_error_Some in Q'. lia.
Qed.
Lemma dollar_next tpl p : no_dollar_end tpl -> nth_error tpl p = Some x24 -> p + 1 < length tpl.
Proof.
  intros N E. assert (L : p < length tpl) by (apply nth_error_Some; congruence).
  destruct (Nat.eq_dec (p + 1) (length tpl)) as [Q|Q]; [|lia]. exfalso.
  apply nth_error_split in E as (u & v & -> & <-). destruct v; [apply (N u); reflexivity|]. rewrite app_length in Q. cbn in Q. lia.
Qed.

Lemma mne1_fine ua m : (exists ps, m = flat_map (fun x => [fst x; snd x]) ps /\ Forall (pair_ok (length ua)) ps) ->
  forall fuel raw p c, no_dollar_end raw -> nth_error raw p = Some x24 ->
  exists c', mne1_loop fuel raw ua m p c = (c', Ok tt).
Proof.
  intros (ps & Em & Fp). induction fuel as [|f IH]; intros raw p c N E; [eexists; reflexivity|].
  cbn [mne1_loop]. pose proof (dollar_next raw p N E) as Lp.
  unfold mbind at 1, mlift. destruct (index_ok raw (N.of_nat (p + 1))) as [d ->]; [lia|]. cbv zeta.
  destruct (Nat.leb_spec (length m) (b2i d * 2 + 1)) as [Lm|Lm]; [eexists; reflexivity|].
  assert (Z : forall i, i < length m -> exists x, zindex m (Z.of_nat i) = Ok x /\ nth_error m i = Some x).
  { intros i Hi. destruct (nth_error m i) as [x|] eqn:Q; [|apply nth_error_None in Q; lia].
    exists x. split; [apply zindex_Ok; rewrite Nat2Z.id; split; [lia|exact Q]|reflexivity]. }
  unfold mbind at 1. destruct (Z (b2i d * 2) ltac:(lia)) as (lo & -> & Nlo).
  unfold mbind at 1. destruct (Z (b2i d * 2 + 1) ltac:(lia)) as (hi & -> & Nhi).
  destruct ((lo <? 0)%Z || (hi <? 0)%Z) eqn:Neg; [eexists; reflexivity|].
  assert (Sl : exists r, slice ua (Z.to_N lo) (Z.to_N hi) = Ok r).
  { destruct (flat_pairs ps (b2i d)) as [Q1 Q2]. rewrite Em in Nlo, Nhi.
    replace (2 * b2i d) with (b2i d * 2) in Q1, Q2 by lia. 
    rewrite Q1 in Nlo. rewrite Q2 in Nhi. destruct (nth_error ps (b2i d)) as [pr|] eqn:Ep; [|discriminate].
    injection Nlo as <-. injection Nhi as <-. rewrite Forall_forall in Fp. specialize (Fp pr (nth_error_In _ _ Ep)).
    unfold pair_ok in Fp. destruct Fp as [->|Fp]; [cbn in Neg; discriminate|]. eexists. apply slice_ok; lia. }
  destruct Sl as [r Sl]. unfold mbind at 1. rewrite Sl. unfold mbind at 1. unfold append_buf at 1, mmod at 1.
  destruct (index_byte_at raw x24 (p + 1)) as [p'|] eqn:A.
  - apply at_spec in A as [A1 A2]. unfold mbind at 1.
    destruct (Nat.ltb_spec (p + 1 + 1) p').
    + unfold mbind at 1. rewrite slice_ok by lia. unfold append_buf, mmod. apply IH; assumption.
    + apply IH; assumption.
  - unfold mbind at 1. rewrite slice_ok by lia. eexists. reflexivity.
Qed.

Lemma buf_mne1_fine e re c m tpl : sane_regex re -> re_find re (c_src c) = Some m ->
  slice64 (dr_buf T) e = Ok tpl -> no_dollar_end tpl -> exists c', device_buf_mne1 T e re c = (c', Ok tt).
Proof.
  intros S F E N. unfold device_buf_mne1, mbind at 1, mlift. rewrite E.
  destruct (index_byte tpl x24) as [p|] eqn:Ip.
  - apply index_byte_Some in Ip as (a & b & -> & <- & Na).
    unfold mbind at 1, buf_len, mget. unfold mbind at 1, append_buf, mmod. cbn [fst snd]. unfold mbind at 1. cbn [c_src up_buf].
    unfold re_groups. rewrite F. unfold mbind at 1.
    destruct (mne1_fine (c_src c) m (S _ _ F) (length (a ++ x24 :: b)) (a ++ x24 :: b) (length a)
       (up_buf (c_buf c ++ firstn (length a) (a ++ x24 :: b)) c) N) as [c1 ->].
    { rewrite nth_error_app2, Nat.sub_diag by lia. reflexivity. }
    eexists. reflexivity.
  - eexists. reflexivity.
Qed.
Lemma buf_mne_fine e c tpl : slice64 (dr_buf T) e = Ok tpl -> exists c', device_buf_mne T e c = (c', Ok tt).
Proof. intros E. unfold device_buf_mne, mbind at 1, mlift. rewrite E. eexists. reflexivity. Qed.
Lemma eval_type_fine a b def : fits (dr_buf T) a -> fits (dr_buf T) b -> exists t, device_eval_type T a b def = Ok t.
Proof.
  intros [s Ha] [s' Hb]. unfold device_eval_type, slice64. rewrite Ha. cbn [rbind].
  destruct (length s =? 0); [rewrite Hb|rewrite Ha]; eexists; reflexivity.
Qed.
Lemma fits_zero (buf : bytes) : fits buf 0.
Proof. exists []. exact (slice_zero buf). Qed.

Hypothesis SR : Forall sane_regex (dr_re T).
Hypothesis TF : dev_table_fine.

Lemma mtest_fine ua m : model_fine m -> exists b, mtest T ua m = Ok b.
Proof. intros (_ & _ & H1 & H2). apply hit_fine; assumption. Qed.

Lemma zindex_sane i r : zindex (dr_re T) i = Ok r -> sane_regex r.
Proof. intros H. apply zindex_Ok in H as [_ H]. rewrite Forall_forall in SR. apply SR. exact (nth_error_In _ _ H). Qed.

Lemma device_hit_fine x def c : dev_fine x -> dtest T (c_src c) x = Ok true -> exists c' t, device_hit T x def c = (c', Ok t).
Proof.
  intros (H1 & H2 & H3 & H4 & H5 & H6) Ht. destruct TF as (_ & _ & Fm & _). unfold device_hit, mbind at 1, mmod.
  set (c1 := up_brand (dt_brand64 x) c). assert (Ec1 : c_src c1 = c_src c) by reflexivity. clearbody c1.
  destruct (Z.eqb_spec (dt_modelSI x) (-1)) as [E1|E1]; cbn [negb].
  - destruct (N.eqb_spec (dt_models64 x) 0) as [E2|E2]; cbn [negb].
    + unfold mlift. destruct (eval_type_fine (dt_type64 x) 0 def H1 (fits_zero _)) as [t ->]. eauto.
    + rewrite model_loop_search, Ec1.
      destruct (not_panic (index_search (dr_dm T) (mtest T (c_src c)) (nrange (fst (e_decode (dt_models64 x))) (snd (e_decode (dt_models64 x)))))) as [[m|] Sr].
      { apply (index_search_ok _ _ _ _ _ eq_refl); [exact H6|]. eapply Forall_impl; [|exact Fm]. intros m Hm.
        destruct (mtest_fine (c_src c) m Hm) as [b ->]. discriminate. }
      * rewrite Sr. pose proof (index_search_in _ _ _ _ Sr) as [Im Tm]. rewrite Forall_forall in Fm.
        destruct (Fm m Im) as (M1 & (tpl & M2 & M3) & M4 & M5). unfold model_after.
        destruct (eval_type_fine (mt_type64 m) (dt_type64 x) def M1 H1) as [t Et].
        unfold mtest, hit in Tm. destruct (Z.leb_spec 0 (mt_matchRI m)) as [R|R].
        -- destruct (M4 R) as [r Zr]. rewrite Zr in Tm |- *. cbn [rbind] in Tm. apply ok_inj in Tm. unfold re_match in Tm.
           destruct (re_find r (c_src c)) as [ms|] eqn:F; [|discriminate]. unfold mbind.
           destruct (buf_mne1_fine (mt_model64 m) r c1 ms tpl (zindex_sane _ _ Zr)) as [c2 ->]; [rewrite Ec1; exact F|exact M2|exact M3|].
           unfold mlift. rewrite Et. eauto.
        -- unfold mbind. destruct (buf_mne_fine (mt_model64 m) c1 tpl M2) as [c2 ->]. unfold mlift. rewrite Et. eauto.
      * rewrite Sr. eauto.
  - destruct H5 as [H5|[m Zm]]; [contradiction|]. unfold mbind at 1, mlift. rewrite Zm.
    apply zindex_Ok in Zm as [_ Zm]. rewrite Forall_forall in Fm. destruct (Fm m (nth_error_In _ _ Zm)) as (M1 & (tpl & M2 & M3) & _).
    destruct (eval_type_fine (mt_type64 m) (dt_type64 x) def M1 H1) as [t Et].
    destruct (Z.eqb_spec (dt_matchRI x) (-1)) as [E2|E2]; cbn [negb].
    + unfold mbind. destruct (buf_mne_fine (mt_model64 m) c1 tpl M2) as [c2 ->]. rewrite Et. eauto.
    + destruct H3 as [H3|[r Zr]]; [contradiction|]. unfold mbind. rewrite Zr.
      unfold dtest, hit in Ht. pose proof Zr as Zr'. apply zindex_Ok in Zr' as [R _]. replace (0 <=? dt_matchRI x)%Z with true in Ht by lia.
      rewrite Zr in Ht. cbn [rbind] in Ht. apply ok_inj in Ht. unfold re_match in Ht.
      destruct (re_find r (c_src c)) as [ms|] eqn:F; [|discriminate].
      destruct (buf_mne1_fine (mt_model64 m) r c1 ms tpl (zindex_sane _ _ Zr)) as [c2 ->]; [rewrite Ec1; exact F|exact M2|exact M3|].
      rewrite Et. eauto.
Qed.

Lemma body_fine idx def c : idx < 8 ->
  (exists c' t, eval_device_body T idx def c = (c', Ok (Some t))) \/ eval_device_body T idx def c = (c, Ok None).
Proof.
  intros I. rewrite body_spec. pose proof TF as (L8 & Fi & _). destruct (index_ok (dr_idx T) (N.of_nat idx)) as [ir Ei]; [lia|].
  rewrite Ei. apply index_nth in Ei. rewrite Forall_forall in Fi. destruct (Fi ir (nth_error_In _ _ Ei)) as [Ne Fx].
  destruct (last_ok ir Ne) as [z ->].
  destruct (not_panic (search (dtest T (c_src c)) ir)) as [[x|] Sr].
  { apply search_ok. eapply Forall_impl; [|exact Fx]. intros y (_ & _ & Q1 & Q2 & _).
    destruct (hit_fine (dr_re T) (dr_buf T) (dt_matchRI y) (dt_match64 y) (c_src c)) as [b Eb]; [|exact Q2|unfold dtest; rewrite Eb; discriminate].
    intros R. destruct Q1 as [Q1|Q1]; [lia|exact Q1]. }
  - rewrite Sr. left. pose proof (search_in _ _ _ Sr) as [Ix Tx]. rewrite Forall_forall in Fx.
    destruct (device_hit_fine x def c (Fx x Ix) Tx) as (c' & t & ->). eauto.
  - rewrite Sr. auto.
Qed.

Lemma try_fine rest c : (exists c' b, run_cold (device_try T rest c) = (c', Ok b)) ->
  forall l, Forall (fun k => snd (fst k) < 8 /\ snd (fst k) <> dpNotebook) l ->
  exists c' b, run_cold (device_try T (l ++ rest) c) = (c', Ok b).
Proof.
  intros Hr. induction 1 as [|[[bt idx] def] l [Hi Hn] Hl IH]; [exact Hr|]. cbn [app]. rewrite try_cons.
  destruct (negb (N.land (c_maskD c) bt =? 0)%N); [|exact IH]. rewrite eval_device_cold. cbn [fst snd] in *.
  destruct (body_fine idx def c Hi) as [(c' & t & ->)| ->]; [eauto|].
  unfold force_desktop. apply Nat.eqb_neq in Hn. rewrite Hn. exact IH.
Qed.
Lemma notebook_fine c : (snd (run_cold (get_os T c)) <> Panic) ->
  exists c' b, run_cold (device_try T [(1%N, dpNotebook, 1%N)] c) = (c', Ok b).
Proof.
  intros G. rewrite try_cons. destruct (negb (N.land (c_maskD c) 1 =? 0)%N); [|eauto]. rewrite eval_device_cold.
  2: { eexists. eexists. reflexivity. }
  destruct (body_fine dpNotebook 1 c ltac:(unfold dpNotebook; lia)) as [(c' & t & ->)| ->]; [eauto|].
  unfold force_desktop. change (dpNotebook =? dpNotebook) with true. unfold pbind. rewrite run_cold_bind.
  destruct (run_cold (get_os T c)) as [c1 [os|]]; [|contradiction]. destruct (in_list os desktopOS); cbn; eauto.
Qed.

Lemma vendor_inner_fine brand hi : (hi <= N.of_nat (length (vr_re T)))%N -> forall k lo c, k = N.to_nat (hi - lo) ->
  exists c', vendor_inner T brand (nrange lo hi) c = (c', Ok tt).
Proof.
  intros Hh. induction k as [|k IH]; intros lo c Hk.
  - rewrite nrange_nil by lia. eexists. reflexivity.
  - rewrite nrange_cons by lia. cbn [vendor_inner]. unfold mbind at 1, mlift. destruct (index_ok (vr_re T) lo) as [r ->]; [lia|].
    unfold mbind at 1, mget. unfold mbind at 1. destruct (re_match r (c_src c)); apply IH; lia.
Qed.
Lemma vendor_fine : forall l c, Forall (fun v => (snd (e_decode (vt_range64 v)) <= N.of_nat (length (vr_re T)))%N) l ->
  exists c', vendor_loop T l c = (c', Ok tt).
Proof.
  induction l as [|v l IH]; intros c H; [eexists; reflexivity|]. inversion H as [|? ? H1 H2]; subst. cbn [vendor_loop]. unfold mbind.
  destruct (vendor_inner_fine (vt_brand64 v) _ H1 _ (fst (e_decode (vt_range64 v))) c eq_refl) as [c1 ->]. exact (IH c1 H2).
Qed.
Lemma fallback_fine c : exists c' b, device_fallback T c = (c', Ok b).
Proof.
  unfold device_fallback, mbind at 1, mget. destruct (re_match (re_tablet T) (c_src c)); [eexists; eexists; reflexivity|].
  destruct (re_match (re_mobile T) (c_src c)); [eexists; eexists; reflexivity|]. unfold mbind.
  destruct (c_brand c =? 0)%N; [|eexists; eexists; reflexivity].
  destruct (vendor_fine (vr_idx T) c) as [c1 E]; [|unfold eval_vendor; rewrite E; eexists; eexists; reflexivity].
  destruct TF as (_ & _ & _ & Fv). eapply Forall_impl; [|exact Fv]. intros v [_ Q]. exact Q.
Qed.

Variables mC mD h : N.
Variable ua : bytes.
Hypothesis DS : device_sane T.
Hypothesis L : short ua.

Lemma dev_end_fine : alone T mC mD h ua GOS <> Panic -> exists b, snd (dev_end T mC mD h ua) = Ok b.
Proof.
  intros OS. unfold dev_end, device_body, pbind. rewrite run_cold_bind. set (c0 := fresh_ctx mC mD h ua).
  assert (G : snd (run_cold (get_os T c0)) <> Panic).
  { intros Q. apply OS. unfold alone, run_getter. rewrite run_cold_pmap. fold c0. rewrite Q. reflexivity. }
  destruct (try_fine [(1%N, dpNotebook, 1%N)] c0 (notebook_fine c0 G) (firstn 7 device_classes)) as (c1 & ok & E).
  { repeat constructor; cbn; discriminate. }
  change (firstn 7 device_classes ++ [(1%N, dpNotebook, 1%N)]) with device_classes in E. rewrite E.
  destruct ok; [eexists; reflexivity|]. cbn [plift run_cold]. destruct (fallback_fine c1) as (c2 & b & ->). exists b. reflexivity.
Qed.

Definition dev_ends : Prop := exists b, snd (dev_end T mC mD h ua) = Ok b.
Lemma device_type_reads : dev_ends -> alone T mC mD h ua GDeviceType <> Panic.
Proof.
  intros [b E]. rewrite alone_device_type, E. rewrite read_device_type_eq. discriminate.
Qed.
Lemma in_range {A} (l : list A) e x : In x (range_of l e) -> In x l.
Proof.
  unfold range_of. intros I.
  assert (I' : In x (skipn (N.to_nat (e / 4294967296)) l)).
  { rewrite <- (firstn_skipn (N.to_nat (e mod 4294967296 - e / 4294967296)) (skipn _ l)). apply in_or_app. left. exact I. }
  rewrite <- (firstn_skipn (N.to_nat (e / 4294967296)) l). apply in_or_app. right. exact I'.
Qed.
Lemma brand_reads : dev_ends -> alone T mC mD h ua GBrand <> Panic.
Proof.
  intros [b E]. rewrite alone_brand. rewrite E. rewrite read_brand_eq. rewrite bit_other by discriminate.
  set (c := fst (dev_end T mC mD h ua)). change (c_brand (set_flag flagDeviceDetect c)) with (c_brand c).
  destruct (negb (c_brand c =? 0)%N) eqn:Nz; [|discriminate]. pose proof TF as (_ & Fi & _ & Fv).
  destruct (device_end_spec T mC mD h ua DS L b E) as [(bt & idx & def & x & Di & _ & Eb & Vf & _)|[Nd (_ & _ & Fb)]].
  - fold c in Eb, Vf. rewrite Eb, Vf. destruct Di as (_ & _ & ir & _ & _ & _ & Ei & Fx). rewrite Forall_forall in Fi.
    destruct (Fi ir (nth_error_In _ _ Ei)) as [_ Fx']. rewrite Forall_forall in Fx'. destruct (Fx' x (first_in _ _ _ Fx)) as (_ & [s Hs] & _).
    unfold slice64. rewrite Hs. discriminate.
  - fold c in Fb. destruct Fb as [(A & _ & B)|[(_ & A & _ & B)|(A1 & A2 & _ & [[N B]|(bb & r & La & B & V)])]];
      try (rewrite B in Nz; discriminate).
    rewrite B, V. destruct La as (u & v & Ef & _).
    assert (I : In (bb, r) (fragments T)) by (rewrite Ef; apply in_or_app; right; left; reflexivity).
    unfold fragments in I. apply in_flat_map in I as (vt & Iv & I). apply in_map_iff in I as (r' & Q & _). injection Q as <- _.
    rewrite Forall_forall in Fv. destruct (Fv vt Iv) as [[s Hs] _]. unfold slice64. rewrite Hs. discriminate.
Qed.
Lemma model_reads : dev_ends -> alone T mC mD h ua GModel <> Panic.
Proof.
  intros [b E]. rewrite alone_model. rewrite E. rewrite read_model_eq. set (c := fst (dev_end T mC mD h ua)).
  change (c_model (set_flag flagDeviceDetect c)) with (c_model c). change (c_buf (set_flag flagDeviceDetect c)) with (c_buf c).
  destruct (device_end_spec T mC mD h ua DS L b E) as [(bt & idx & def & x & Di & _ & _ & _ & _ & w & Mt & Sl)|[Nd (Em & _)]].
  - fold c in Sl. rewrite Sl. destruct (negb (c_model c =? 0)%N); discriminate.
  - fold c in Em. rewrite Em. discriminate.
Qed.
Hypothesis OS : alone T mC mD h ua GOS <> Panic.
Lemma device_type_no_panic : alone T mC mD h ua GDeviceType <> Panic.
Proof. apply device_type_reads, dev_end_fine, OS. Qed.
Lemma brand_no_panic : alone T mC mD h ua GBrand <> Panic.
Proof. apply brand_reads, dev_end_fine, OS. Qed.
Lemma model_no_panic : alone T mC mD h ua GModel <> Panic.
Proof. apply model_reads, dev_end_fine, OS. Qed.
End Device.

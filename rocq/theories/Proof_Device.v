(** Device detection on a fresh context: the entry chosen, its brand, model and type, and the fallbacks. *)
From Verif Require Import Model_Base Model_CacheEntry Model_Version Model_Ctx Model_Parse Spec_Getters Spec_Select
  Proof_Base Proof_Local Proof_Safe Proof_Getters Proof_Private Proof_Select Proof_Client Proof_OS.
From Coq Require Import Lia ZifyBool ZifyNat ZifyN.

(** ** Templates *)

Lemma expands_pre m ua q s out : ~ In x24 q -> expands m ua s out -> expands m ua (q ++ s) (q ++ out).
Proof.
  intros Nq H. destruct H as [s N|pre d rest s out N D C H|pre rest s out N C H|pre d rest N A].
  - apply EX_plain. rewrite in_app_iff. tauto.
  - rewrite !(app_assoc q pre). apply EX_group; auto. rewrite in_app_iff. tauto.
  - rewrite !(app_assoc q pre). apply EX_dollar; auto. rewrite in_app_iff. tauto.
  - rewrite !(app_assoc q pre). apply EX_stop; auto. rewrite in_app_iff. tauto.
Qed.

Lemma b2i_group d : Z.of_nat (b2i d) = group_no d.
Proof.
  unfold b2i, group_no, beqs. cbn [bs].
  destruct d; reflexivity.
Qed.

Definition pair_ok (n : nat) (x : Z * Z) : Prop :=
  x = (-1, -1)%Z \/ (0 <= fst x <= snd x /\ snd x <= Z.of_nat n)%Z.

Lemma sub_split (ua : bytes) lo hi r : (0 <= lo <= hi)%Z -> (hi <= Z.of_nat (length ua))%Z ->
  slice ua (Z.to_N lo) (Z.to_N hi) = Ok r ->
  exists a b, ua = a ++ r ++ b /\ Z.of_nat (length a) = lo /\ Z.of_nat (length a + length r) = hi.
Proof.
  intros H1 H2 E. rewrite slice_ok in E by lia. injection E as <-.
  exists (firstn (Z.to_nat lo) ua), (skipn (Z.to_nat (hi - lo)) (skipn (Z.to_nat lo) ua)).
  replace (N.to_nat (Z.to_N hi - Z.to_N lo)) with (Z.to_nat (hi - lo)) by lia.
  replace (N.to_nat (Z.to_N lo)) with (Z.to_nat lo) by lia. rewrite !firstn_skipn. split; [reflexivity|].
  rewrite !firstn_length, skipn_length. lia.
Qed.

Lemma mne1_spec ua m : (exists ps, m = flat_map (fun x => [fst x; snd x]) ps /\ Forall (pair_ok (length ua)) ps) ->
  forall fuel raw p c c' u, nth_error raw p = Some x24 -> length raw <= fuel + p ->
  mne1_loop fuel raw ua m p c = (c', Ok u) ->
  exists out, c' = up_buf (c_buf c ++ out) c /\ expands m ua (skipn p raw) out.
Proof.
  intros (ps & Em & Fp). assert (Fp' : forall q, In q ps -> pair_ok (length ua) q) by (apply Forall_forall; exact Fp).
  induction fuel as [|fuel IH]; intros raw p c c' u Hp Hf H.
  { assert (nth_error raw p <> None) as N by congruence. apply nth_error_Some in N. lia. }
  cbn [mne1_loop] in H. unfold mbind at 1, mlift in H.
  destruct (index raw (N.of_nat (p + 1))) as [d|] eqn:Ed; [|discriminate]. apply index_nth in Ed. rewrite Nat2N.id in Ed.
  assert (Sp : skipn p raw = x24 :: d :: skipn (p + 2) raw).
  { rewrite (skipn_cons _ _ _ Hp). f_equal. replace (S p) with (p + 1) by lia. rewrite (skipn_cons _ _ _ Ed). f_equal. f_equal. lia. }
  rewrite Sp. pose proof (b2i_group d) as Bg. set (i := b2i d) in *.
  destruct (flat_pairs ps i) as [N1 N2]. rewrite <- Em in N1, N2.
  destruct (Nat.leb_spec (length m) (i * 2 + 1)) as [Lm|Lm].
  { injection H as <- <-. exists []. split; [destruct c; cbn; rewrite app_nil_r; reflexivity|].
    apply (EX_stop m ua [] d). { intros []. } split; [lia|]. intros lo hi _ A2. rewrite <- Bg, Nat2Z.id in A2.
    assert (nth_error m (2 * i + 1) <> None) as Q by congruence. apply nth_error_Some in Q. lia. }
  unfold mbind at 1 in H. destruct (zindex m (Z.of_nat (i * 2))) as [lo|] eqn:Z1; [|discriminate].
  unfold mbind at 1 in H. destruct (zindex m (Z.of_nat (i * 2 + 1))) as [hi|] eqn:Z2; [|discriminate].
  apply zindex_Ok in Z1 as [_ Z1]. apply zindex_Ok in Z2 as [_ Z2]. rewrite Nat2Z.id in Z1, Z2.
  replace (i * 2) with (2 * i) in * by lia. rewrite N1 in Z1. rewrite N2 in Z2.
  destruct (nth_error ps i) as [q|] eqn:Eq; [|discriminate]. cbn [option_map] in Z1, Z2. injection Z1 as Z1. injection Z2 as Z2.
  cbn [option_map] in N1, N2. apply nth_error_In in Eq as Iq. apply Fp' in Iq.
  destruct ((lo <? 0)%Z || (hi <? 0)%Z) eqn:Neg.
  { injection H as <- <-. exists []. split; [destruct c; cbn; rewrite app_nil_r; reflexivity|].
    apply (EX_stop m ua [] d). { intros []. } split; [lia|]. intros lo' hi' A1 A2. rewrite <- Bg, Nat2Z.id in A1.
    rewrite N1 in A1. injection A1 as <-. destruct Iq as [->|Iq]; [left; reflexivity|]. lia. }
  destruct Iq as [->|[I1 I2]]; [cbn in Z1; lia|]. rewrite Z1, Z2 in *.
  unfold mbind at 1 in H. destruct (slice ua (Z.to_N lo) (Z.to_N hi)) as [r|] eqn:Sl; [|discriminate].
  destruct (sub_split ua lo hi r I1 I2 Sl) as (a & b & Eua & La & Lr).
  assert (Cap : captured m (group_no d) ua r).
  { exists a, b. split; [exact Eua|]. split; [lia|]. rewrite <- Bg, Nat2Z.id, N1, N2. split; f_equal; lia. }
  unfold mbind at 1, append_buf, mmod in H. cbn [fst snd] in H.
  destruct (index_byte_at raw x24 (p + 1)) as [p'|] eqn:Ep.
  - unfold index_byte_at in Ep. destruct (index_byte (skipn (p + 1) raw) x24) as [k|] eqn:Ik; [|discriminate].
    injection Ep as Ep. apply index_byte_Some in Ik as (u1 & u2 & Es & Lk & Nu).
    rewrite (skipn_cons _ _ _ Ed) in Es. replace (S (p + 1)) with (p + 2) in Es by lia.
    assert (Hp' : nth_error raw p' = Some x24).
    { rewrite <- (firstn_skipn (p + 1) raw). assert (p + 1 < length raw).
      { apply nth_error_Some. congruence. }
      rewrite nth_error_app2; rewrite firstn_length_le by lia; [|lia]. rewrite (skipn_cons _ _ _ Ed).
      replace (S (p + 1)) with (p + 2) by lia. rewrite Es.
      rewrite nth_error_app2 by lia. replace (p' - (p + 1) - length u1) with 0 by lia. reflexivity. }
    destruct u1 as [|d' u1].
    + (* a second dollar *)
      cbn in Es. injection Es as Ed' Es. cbn in Lk. subst k. replace (p + 1 + 0) with (p + 1) in Ep by lia. subst p'.
      replace (p + 1 + 1 <? p + 1) with false in H by lia. unfold mbind at 1, mret in H.
      apply IH in H as (out & -> & Ex); [|exact Hp'|lia].
      exists (r ++ out). split; [cbn; rewrite app_assoc; reflexivity|]. subst d.
      apply (EX_dollar m ua []); [intros []|exact Cap|]. rewrite (skipn_cons _ _ _ Ed) in Ex.
      replace (S (p + 1)) with (p + 2) in Ex by lia. exact Ex.
    + cbn in Es. injection Es as -> Es. cbn in Lk.
      assert (Nd : d' <> x24) by (intros ->; apply Nu; left; reflexivity).
      assert (Nu1 : ~ In x24 u1) by (intros Q; apply Nu; right; exact Q).
      assert (Mid : exists c2, (if p + 1 + 1 <? p' then
           (t <- mlift (slice raw (N.of_nat (p + 1 + 1)) (N.of_nat p')) ;; append_buf t)%m else mret tt)
           (up_buf (c_buf c ++ r) c) = (c2, Ok tt) /\ c2 = up_buf (c_buf c ++ r ++ u1) c).
      { assert (Lp' : p' < length raw) by (apply nth_error_Some; congruence).
        destruct (Nat.ltb_spec (p + 1 + 1) p') as [Lt|Ge].
        - eexists. split; [|reflexivity]. unfold mbind, mlift. rewrite slice_ok by lia.
          replace (N.to_nat (N.of_nat (p + 1 + 1))) with (p + 2) by lia. rewrite Es.
          replace (N.to_nat (N.of_nat p' - N.of_nat (p + 1 + 1))) with (length u1) by lia.
          rewrite firstn_app, firstn_all, Nat.sub_diag. cbn [firstn]. rewrite app_nil_r. unfold append_buf, mmod.
          rewrite app_assoc. reflexivity.
        - destruct u1; [|cbn in Lk; lia]. exists (up_buf (c_buf c ++ r) c). rewrite app_nil_r. split; reflexivity. }
      destruct Mid as (c2 & Mid & Ec2). unfold mbind at 1 in H.
      match type of H with context [match ?z with _ => _ end] => replace z with (c2, Ok tt) in H by (symmetry; exact Mid) end.
      apply IH in H as (out & -> & Ex); [|exact Hp'|lia].
      exists (r ++ u1 ++ out). split; [subst c2; cbn; rewrite !app_assoc; reflexivity|].
      apply (EX_group m ua []); [intros []|exact Nd|exact Cap|].
      assert (E2 : skipn p' raw = x24 :: u2).
      { replace p' with (p + 2 + length u1) by lia. rewrite <- skipn_skipn, Es, skipn_app, skipn_all, Nat.sub_diag. reflexivity. }
      rewrite E2 in Ex. rewrite Es. apply expands_pre; assumption.
  - unfold index_byte_at in Ep. destruct (index_byte (skipn (p + 1) raw) x24) as [k|] eqn:Ik; [discriminate|].
    apply index_byte_None in Ik. rewrite (skipn_cons _ _ _ Ed) in Ik. replace (S (p + 1)) with (p + 2) in Ik by lia.
    assert (Lp : p + 1 < length raw) by (apply nth_error_Some; congruence).
    unfold mbind in H. rewrite slice_ok in H by lia. injection H as <- <-.
    exists (r ++ skipn (p + 2) raw). split.
    + replace (N.to_nat (N.of_nat (p + 1 + 1))) with (p + 2) by lia. rewrite firstn_all2 by (rewrite skipn_length; lia).
      rewrite app_assoc. reflexivity.
    + apply (EX_group m ua []); [intros []|intros ->; apply Ik; left; reflexivity|exact Cap|].
      apply EX_plain. intros Q. apply Ik. right. exact Q.
Qed.

Lemma captured_length m i ua s : captured m i ua s -> length s <= length ua.
Proof. intros (a & b & -> & _). rewrite !app_length. lia. Qed.
Lemma expands_length m ua tpl out : expands m ua tpl out -> length out <= length tpl * (length ua + 1).
Proof.
  induction 1; rewrite ?app_length in *; cbn [length] in *; repeat match goal with H : captured _ _ _ _ |- _ => apply captured_length in H end; nia.
Qed.

Section Device.
Variable T : tables.

Lemma dtest_applies ua x b : dtest T ua x = Ok b -> (b = true <-> device_applies T ua x).
Proof. apply hit_applies. Qed.
Lemma mtest_applies ua x b : mtest T ua x = Ok b -> (b = true <-> model_applies T ua x).
Proof. apply hit_applies. Qed.

(** The buffer and the model after a template was written. *)
Definition wrote (c c' : ctx) (w : bytes) : Prop :=
  c' = up_model (encode64 (Z.of_nat (length (c_buf c))) (Z.of_nat (length (c_buf c ++ w)))) (up_buf (c_buf c ++ w) c).

Lemma buf_mne_spec e c c' u : device_buf_mne T e c = (c', Ok u) ->
  exists w, text (dr_buf T) e w /\ wrote c c' w.
Proof.
  unfold device_buf_mne, mbind at 1, mlift. destruct (slice64 (dr_buf T) e) as [w|] eqn:E; [|discriminate].
  intros [= <-]. exists w. split; [apply text_slice; exact E|]. reflexivity.
Qed.

Lemma buf_mne1_spec e re c c' u m : sane_regex re -> re_find re (c_src c) = Some m ->
  device_buf_mne1 T e re c = (c', Ok u) ->
  exists tpl w, text (dr_buf T) e tpl /\ expands m (c_src c) tpl w /\ wrote c c' w.
Proof.
  intros S F. unfold device_buf_mne1, mbind at 1, mlift. destruct (slice64 (dr_buf T) e) as [raw|] eqn:E; [|discriminate].
  apply text_slice in E. destruct (index_byte raw x24) as [p|] eqn:Ip.
  - apply index_byte_Some in Ip as (a & b & -> & <- & Na).
    unfold mbind at 1, buf_len, mget. unfold mbind at 1, append_buf, mmod. cbn [fst snd].
    unfold mbind at 1. cbn [c_src up_buf]. unfold re_groups. rewrite F.
    rewrite firstn_app, firstn_all, Nat.sub_diag. cbn [firstn]. rewrite app_nil_r. unfold mbind at 1.
    destruct (mne1_loop _ _ _ _ _ _) as [c1 [v|]] eqn:L; [|discriminate].
    apply mne1_spec in L as (out & -> & Ex); [|exact (S _ _ F)|rewrite nth_error_app2, Nat.sub_diag by lia; reflexivity|lia].
    unfold mbind. intros [= <-]. exists (a ++ x24 :: b), (a ++ out). split; [exact E|]. split.
    + rewrite skipn_app, skipn_all, Nat.sub_diag in Ex. cbn in Ex. apply expands_pre; assumption.
    + unfold wrote. cbn. rewrite <- !app_assoc. reflexivity.
  - apply index_byte_None in Ip. unfold mbind, buf_len, mget, append_buf, mmod. intros [= <-].
    exists raw, raw. split; [exact E|]. split; [apply EX_plain; exact Ip|]. reflexivity.
Qed.

Lemma type_of_name_called s def : type_called s def (type_of_name s def).
Proof.
  unfold type_of_name, type_called, type_names.
  repeat match goal with
  | |- context [beqs s ?w] => let E := fresh "E" in destruct (beqs s w) eqn:E; [apply beqs_eq in E; subst; left; cbn; tauto|]
  end.
  right. split; [|reflexivity]. intros u I. cbn [In] in I.
  repeat match goal with E : beqs s ?w = false |- _ => assert (s <> w) by (intros Q; rewrite Q, beqs_refl in E; discriminate); clear E end.
  repeat destruct I as [I|I]; try contradiction; injection I as I _; congruence.
Qed.
Lemma eval_type_from a b def t : device_eval_type T a b def = Ok t -> type_from T a b def t.
Proof.
  unfold device_eval_type. destruct (slice64 (dr_buf T) a) as [s|] eqn:E1; cbn [rbind]; [|discriminate].
  destruct s as [|s0 s].
  - cbn [length Nat.eqb]. destruct (slice64 (dr_buf T) b) as [s'|] eqn:E2; cbn [rbind]; [|discriminate].
    intros H. apply ok_inj in H. exists []. split; [apply text_slice; exact E1|]. right.
    split; [reflexivity|]. exists s'. split; [apply text_slice; exact E2|]. subst t. destruct s' as [|q s']; cbn [length Nat.eqb].
    + right. split; [|reflexivity]. intros u I. cbn in I. repeat destruct I as [I|I]; try contradiction; discriminate.
    + apply type_of_name_called.
  - cbn [length Nat.eqb]. rewrite E1. cbn [rbind length Nat.eqb]. intros H. apply ok_inj in H. subst t.
    exists (s0 :: s). split; [apply text_slice; exact E1|]. left. split; [discriminate|apply type_of_name_called].
Qed.

(** ** The matching entry *)

Definition model_state (ua : bytes) (x : deviceTuple) (c c' : ctx) : Prop :=
  (model_text T ua x [] /\ c' = c) \/ (exists w, model_text T ua x w /\ wrote c c' w /\ (N.of_nat (length w) < 4294967296)%N).

Lemma text_range buf e s : text buf e s -> slice64 buf e = Ok s.
Proof. apply text_slice. Qed.

Lemma template_small m ua tpl w : short ua -> (length tpl < 256) -> expands m ua tpl w -> (N.of_nat (length w) < 4294967296)%N.
Proof. unfold short. intros S L E. apply expands_length in E. nia. Qed.

Lemma write_fixed m c c' u : device_sane T -> In m (dr_dm T) -> device_buf_mne T (mt_model64 m) c = (c', Ok u) ->
  exists w, text (dr_buf T) (mt_model64 m) w /\ wrote c c' w /\ (N.of_nat (length w) < 4294967296)%N.
Proof.
  intros (_ & S) I H. apply buf_mne_spec in H as (w & Tx & W). exists w. split; [exact Tx|]. split; [exact W|].
  rewrite Forall_forall in S. specialize (S m I w Tx). lia.
Qed.
Lemma write_template m ri r ms c c' u : device_sane T -> short (c_src c) -> In m (dr_dm T) ->
  nth_error (dr_re T) ri = Some r -> re_find r (c_src c) = Some ms ->
  device_buf_mne1 T (mt_model64 m) r c = (c', Ok u) ->
  exists tpl w, text (dr_buf T) (mt_model64 m) tpl /\ expands ms (c_src c) tpl w /\ wrote c c' w /\
    (N.of_nat (length w) < 4294967296)%N.
Proof.
  intros (S1 & S2) L I E F H. apply (buf_mne1_spec _ r c c' u ms) in H as (tpl & w & Tx & Ex & W).
  - exists tpl, w. split; [exact Tx|]. split; [exact Ex|]. split; [exact W|].
    rewrite Forall_forall in S2. exact (template_small _ _ _ _ L (S2 m I tpl Tx) Ex).
  - rewrite Forall_forall in S1. apply S1. exact (nth_error_In _ _ E).
  - exact F.
Qed.

Lemma device_hit_spec x def c c' t :
  device_sane T -> short (c_src c) -> dtest T (c_src c) x = Ok true -> device_hit T x def c = (c', Ok t) ->
  device_type_is T (c_src c) x def t /\ model_state (c_src c) x (up_brand (dt_brand64 x) c) c'.
Proof.
  intros S L Ht H. set (ua := c_src c) in *. unfold device_hit, mbind at 1, mmod in H.
  set (c1 := up_brand (dt_brand64 x) c) in *. assert (Ec1 : c_src c1 = ua) by reflexivity.
  destruct (Z.eqb_spec (dt_modelSI x) (-1)) as [E1|E1]; cbn [negb] in H.
  - destruct (N.eqb_spec (dt_models64 x) 0) as [E2|E2]; cbn [negb] in H.
    + unfold mlift in H. injection H as <- H.
      assert (MN : model_is T ua x None) by (apply MI_none; auto). split.
      * apply DT_entry; auto. apply eval_type_from. exact H.
      * left. split; [apply MT_none; exact MN|reflexivity].
    + rewrite model_loop_search, Ec1 in H.
      destruct (index_search (dr_dm T) (mtest T ua) _) as [[m|]|] eqn:Sr; [| |discriminate].
      * pose proof (index_search_in _ _ _ _ Sr) as [Im Tm].
        apply (index_search_range _ _ _ _ _ _ eq_refl) in Sr.
        assert (Fm : first (model_applies T ua) (models T x) m).
        { apply (search_some (mtest T ua)); [apply mtest_applies|exact Sr]. }
        assert (MI : model_is T ua x (Some (mt_matchRI m, m))) by (apply MI_list; auto).
        unfold model_after in H. destruct (Z.leb_spec 0 (mt_matchRI m)) as [R|R].
        -- unfold mtest, hit in Tm. replace (0 <=? mt_matchRI m)%Z with true in Tm by lia.
           destruct (zindex (dr_re T) (mt_matchRI m)) as [r|] eqn:Zr; [|discriminate]. cbn [rbind] in Tm. apply ok_inj in Tm.
           apply zindex_Ok in Zr as [_ Zr]. unfold re_match in Tm. destruct (re_find r ua) as [ms|] eqn:F; [|discriminate].
           unfold mbind in H. destruct (device_buf_mne1 T (mt_model64 m) r c1) as [c2 [u|]] eqn:B; [|discriminate].
           unfold mlift in H. injection H as <- H.
           apply (write_template m (Z.to_nat (mt_matchRI m)) r ms) in B as (tpl & w & Tx & Ex & W & Lw); auto.
           split; [apply (DT_model _ _ _ _ _ m t MI); apply eval_type_from; exact H|].
           right. exists w. split; [|auto]. exact (MT_template _ _ _ _ m r ms tpl w MI R Zr F Tx Ex).
        -- unfold mbind in H. destruct (device_buf_mne T (mt_model64 m) c1) as [c2 [u|]] eqn:B; [|discriminate].
           unfold mlift in H. injection H as <- H. apply (write_fixed m) in B as (w & Tx & W & Lw); auto.
           split; [apply (DT_model _ _ _ _ _ m t MI); apply eval_type_from; exact H|].
           right. exists w. split; [|auto]. exact (MT_fixed _ _ _ _ m w MI R Tx).
      * apply (index_search_range _ _ _ _ _ _ eq_refl) in Sr. injection H as <- <-.
        assert (MN : model_is T ua x None).
        { apply MI_none; [exact E1|]. right. apply (search_none (mtest T ua)); [apply mtest_applies|exact Sr]. }
        split; [apply DT_default; auto|]. left. split; [apply MT_none; exact MN|reflexivity].
  - unfold mbind at 1, mlift in H. destruct (zindex (dr_dm T) (dt_modelSI x)) as [m|] eqn:Zm; [|discriminate].
    apply zindex_Ok in Zm as [_ Zm]. pose proof (nth_error_In _ _ Zm) as Im.
    assert (MI : model_is T ua x (Some (dt_matchRI x, m))) by (apply MI_single; auto).
    destruct (Z.eqb_spec (dt_matchRI x) (-1)) as [E2|E2]; cbn [negb] in H.
    + unfold mbind in H. destruct (device_buf_mne T (mt_model64 m) c1) as [c2 [u|]] eqn:B; [|discriminate].
      injection H as <- H. apply (write_fixed m) in B as (w & Tx & W & Lw); auto.
      split; [apply (DT_model _ _ _ _ _ m t MI); apply eval_type_from; exact H|].
      right. exists w. split; [|auto]. apply (MT_fixed _ _ _ _ m w MI); [lia|exact Tx].
    + unfold mbind in H. destruct (zindex (dr_re T) (dt_matchRI x)) as [r|] eqn:Zr; [|discriminate].
      unfold dtest, hit in Ht. rewrite Zr in Ht. apply zindex_Ok in Zr as [R Zr].
      replace (0 <=? dt_matchRI x)%Z with true in Ht by lia. cbn [rbind] in Ht. apply ok_inj in Ht.
      unfold re_match in Ht. destruct (re_find r ua) as [ms|] eqn:F; [|discriminate].
      destruct (device_buf_mne1 T (mt_model64 m) r c1) as [c2 [u|]] eqn:B; [|discriminate].
      injection H as <- H.
      apply (write_template m (Z.to_nat (dt_matchRI x)) r ms) in B as (tpl & w & Tx & Ex & W & Lw); auto.
      split; [apply (DT_model _ _ _ _ _ m t MI); apply eval_type_from; exact H|].
      right. exists w. split; [|auto]. apply (MT_template _ _ _ _ m r ms tpl w MI); auto; lia.
Qed.

(** ** The classes *)

Lemma body_spec idx def c :
  eval_device_body T idx def c =
  match index (dr_idx T) (N.of_nat idx) with
  | Panic => (c, Panic)
  | Ok ir =>
      match zindex ir (Z.of_nat (length ir) - 1) with
      | Panic => (c, Panic)
      | Ok _ =>
          match search (dtest T (c_src c)) ir with
          | Panic => (c, Panic)
          | Ok None => (c, Ok None)
          | Ok (Some x) => match device_hit T x def c with (c1, Ok t) => (c1, Ok (Some t)) | (c1, Panic) => (c1, Panic) end
          end
      end
  end.
Proof.
  unfold eval_device_body, mbind at 1, mlift. destruct (index (dr_idx T) (N.of_nat idx)) as [ir|]; [|reflexivity].
  unfold mbind at 1. destruct (zindex ir _); [|reflexivity]. unfold mbind at 1, mget. unfold mbind at 1.
  rewrite device_loop_search. destruct (search _ ir) as [[x|]|]; try reflexivity.
Qed.

Definition found (mask : N) (ua : bytes) (before : list (N * nat * N)) (k : N * nat * N) (c c' : ctx) : Prop :=
  exists ir x t c1, Forall (device_silent T mask ua) before /\ on mask (fst (fst k)) /\
    nth_error (dr_idx T) (snd (fst k)) = Some ir /\ first (device_applies T ua) ir x /\
    dtest T ua x = Ok true /\ device_hit T x (snd k) c = (c1, Ok t) /\ c' = up_deviceType t c1.

Lemma land_on mask b : negb (N.land mask b =? 0)%N = true <-> on mask b.
Proof. unfold on. rewrite negb_true_iff, N.eqb_neq. tauto. Qed.

Lemma eval_device_cold idx def c :
  run_cold (eval_device T idx def c) =
  match eval_device_body T idx def c with
  | (c1, Ok (Some t)) => (c1, Ok (Some t))
  | (c1, r) =>
      match run_cold (force_desktop T idx r c1) with
      | (c2, Ok _) => (c2, r)
      | (c2, Panic) => (c2, Panic)
      end
  end.
Proof.
  unfold eval_device, pdefer, plift. cbn [prog_bind]. destruct (eval_device_body T idx def c) as [c1 [[t|]|]].
  - reflexivity.
  - rewrite run_cold_bind. destruct (run_cold (force_desktop T idx (Ok None) c1)) as [c2 [u|]]; reflexivity.
  - rewrite run_cold_bind. destruct (run_cold (force_desktop T idx Panic c1)) as [c2 [u|]]; reflexivity.
Qed.

Lemma try_cons b idx def l c :
  run_cold (device_try T ((b, idx, def) :: l) c) =
  if negb (N.land (c_maskD c) b =? 0)%N then
    match run_cold (eval_device T idx def c) with
    | (c1, Ok (Some t)) => (up_deviceType t c1, Ok true)
    | (c1, Ok None) => run_cold (device_try T l c1)
    | (c1, Panic) => (c1, Panic)
    end
  else run_cold (device_try T l c).
Proof.
  cbn [device_try]. unfold pbind at 1, plift at 1, mget. cbn [prog_bind].
  destruct (negb (N.land (c_maskD c) b =? 0)%N); [|reflexivity].
  unfold pbind at 1. rewrite run_cold_bind. destruct (run_cold (eval_device T idx def c)) as [c1 [[t|]|]]; reflexivity.
Qed.

Lemma first_test ua ir x : search (dtest T ua) ir = Ok (Some x) -> first (device_applies T ua) ir x /\ dtest T ua x = Ok true.
Proof.
  intros H. split; [|exact (proj2 (search_in _ _ _ H))]. apply (search_some (dtest T ua)); [apply dtest_applies|exact H].
Qed.

Lemma try_app rest : forall l c c' b, (forall k, In k l -> snd (fst k) <> dpNotebook) ->
  run_cold (device_try T (l ++ rest) c) = (c', Ok b) ->
  (b = true /\ exists before k after, l = before ++ k :: after /\ found (c_maskD c) (c_src c) before k c c') \/
  (Forall (device_silent T (c_maskD c) (c_src c)) l /\ run_cold (device_try T rest c) = (c', Ok b)).
Proof.
  induction l as [|[[bt idx] def] l IH]; intros c c' b Hl H.
  { right. split; [constructor|exact H]. }
  cbn [app] in H. rewrite try_cons in H.
  destruct (negb (N.land (c_maskD c) bt =? 0)%N) eqn:On.
  - apply land_on in On. rewrite eval_device_cold, body_spec in H.
    assert (Ni : idx <> dpNotebook) by (apply (Hl (bt, idx, def)); left; reflexivity).
    destruct (index (dr_idx T) (N.of_nat idx)) as [ir|] eqn:Ei.
    2: { unfold force_desktop in H. apply Nat.eqb_neq in Ni. rewrite Ni in H. discriminate. }
    apply index_nth in Ei. rewrite Nat2N.id in Ei.
    destruct (zindex ir (Z.of_nat (length ir) - 1)) as [?|].
    2: { unfold force_desktop in H. apply Nat.eqb_neq in Ni. rewrite Ni in H. discriminate. }
    destruct (search (dtest T (c_src c)) ir) as [[x|]|] eqn:Sr.
    + apply first_test in Sr as [Fx Tx].
      destruct (device_hit T x def c) as [c1 [t|]] eqn:Hh.
      * injection H as <- <-. left. split; [reflexivity|]. exists [], (bt, idx, def), l. split; [reflexivity|].
        exists ir, x, t, c1. split; [constructor|]. do 5 (split; [assumption|]). reflexivity.
      * unfold force_desktop in H. apply Nat.eqb_neq in Ni. rewrite Ni in H. discriminate.
    + assert (Si : device_silent T (c_maskD c) (c_src c) (bt, idx, def)).
      { intros _. exists ir. split; [exact Ei|]. apply (search_none (dtest T (c_src c))); [apply dtest_applies|exact Sr]. }
      unfold force_desktop in H. apply Nat.eqb_neq in Ni. rewrite Ni in H. cbn [pret run_cold] in H.
      apply IH in H as [(-> & before & k & after & -> & ir' & x & t & c1 & Fb & Q)|[Fl H]].
      * left. split; [reflexivity|]. exists ((bt, idx, def) :: before), k, after. split; [reflexivity|].
        exists ir', x, t, c1. split; [constructor; assumption|exact Q].
      * right. split; [constructor; assumption|exact H].
      * intros k Hk. apply Hl. right. exact Hk.
    + unfold force_desktop in H. apply Nat.eqb_neq in Ni. rewrite Ni in H. discriminate.
  - assert (Si : device_silent T (c_maskD c) (c_src c) (bt, idx, def)).
    { intros O. apply land_on in O. cbn [fst] in O. congruence. }
    apply IH in H as [(-> & before & k & after & -> & ir' & x & t & c1 & Fb & Q)|[Fl H]].
    + left. split; [reflexivity|]. exists ((bt, idx, def) :: before), k, after. split; [reflexivity|].
      exists ir', x, t, c1. split; [constructor; assumption|exact Q].
    + right. split; [constructor; assumption|exact H].
    + intros k Hk. apply Hl. right. exact Hk.
Qed.

Definition forced (c c' : ctx) (os : bytes) : Prop :=
  if in_list os desktopOS then c' = set_flag flagDeviceForceDesktop c else c' = c.

(** The last class: notebooks. *)
Lemma try_notebook c c' b :
  run_cold (device_try T [(1%N, dpNotebook, 1%N)] c) = (c', Ok b) ->
  (b = true /\ found (c_maskD c) (c_src c) [] (1%N, dpNotebook, 1%N) c c') \/
  (b = false /\ device_silent T (c_maskD c) (c_src c) (1%N, dpNotebook, 1%N) /\
   ((on (c_maskD c) 1 /\ exists c1 os, run_cold (get_os T c) = (c1, Ok os) /\ forced c1 c' os) \/
    (~ on (c_maskD c) 1 /\ c' = c))).
Proof.
  rewrite try_cons. intros H. destruct (negb (N.land (c_maskD c) 1 =? 0)%N) eqn:On.
  - apply land_on in On. rewrite eval_device_cold, body_spec in H.
    destruct (index (dr_idx T) (N.of_nat dpNotebook)) as [ir|] eqn:Ei.
    2: { destruct (run_cold (force_desktop T dpNotebook Panic c)) as [c2 [u|]]; discriminate. }
    apply index_nth in Ei. rewrite Nat2N.id in Ei.
    destruct (zindex ir (Z.of_nat (length ir) - 1)) as [?|].
    2: { destruct (run_cold (force_desktop T dpNotebook Panic c)) as [c2 [u|]]; discriminate. }
    destruct (search (dtest T (c_src c)) ir) as [[x|]|] eqn:Sr.
    + apply first_test in Sr as [Fx Tx].
      destruct (device_hit T x 1 c) as [c1 [t|]] eqn:Hh.
      * injection H as <- <-. left. split; [reflexivity|].
        exists ir, x, t, c1. split; [constructor|]. do 5 (split; [assumption|]). reflexivity.
      * destruct (run_cold (force_desktop T dpNotebook Panic c1)) as [c2 [u|]]; discriminate.
    + unfold force_desktop in H. change (dpNotebook =? dpNotebook) with true in H. unfold pbind in H. rewrite run_cold_bind in H.
      destruct (run_cold (get_os T c)) as [c1 [os|]] eqn:G; [|discriminate].
      right. assert (Si : device_silent T (c_maskD c) (c_src c) (1%N, dpNotebook, 1%N)).
      { intros _. exists ir. split; [exact Ei|]. apply (search_none (dtest T (c_src c))); [apply dtest_applies|exact Sr]. }
      unfold forced. destruct (in_list os desktopOS) eqn:I; cbn in H; injection H as <- <-.
      * split; [reflexivity|]. split; [exact Si|]. left. split; [exact On|]. exists c1, os. rewrite I. auto.
      * split; [reflexivity|]. split; [exact Si|]. left. split; [exact On|]. exists c1, os. rewrite I. auto.
    + destruct (run_cold (force_desktop T dpNotebook Panic c)) as [c2 [u|]]; discriminate.
  - cbn in H. injection H as <- <-. right. split; [reflexivity|].
    assert (N : ~ on (c_maskD c) 1) by (intros O; apply land_on in O; congruence).
    split; [intros O; cbn [fst] in O; contradiction|]. right. auto.
Qed.

(** ** Vendor fragments *)

Definition frag_found (ua : bytes) (br : N * regex) : Prop := re_find (snd br) ua <> None.
Definition vkeeps (c c' : ctx) : Prop :=
  c_src c' = c_src c /\ c_deviceType c' = c_deviceType c /\ c_model c' = c_model c /\
  bit flagDeviceForceDesktop c' = bit flagDeviceForceDesktop c.
Definition vstate (l : list (N * regex)) (c c' : ctx) : Prop :=
  vkeeps c c' /\
  ((none (frag_found (c_src c)) l /\ c_brand c' = c_brand c /\ bit flagVendorFragment c' = bit flagVendorFragment c) \/
   (exists b r, last_of (frag_found (c_src c)) l (b, r) /\ c_brand c' = b /\ bit flagVendorFragment c' = true)).

Lemma vstate_app l1 l2 c c1 c2 : vstate l1 c c1 -> vstate l2 c1 c2 -> vstate (l1 ++ l2) c c2.
Proof.
  intros ((K1 & K2 & K3 & K4) & H1) ((Q1 & Q2 & Q3 & Q4) & H2).
  split; [repeat split; congruence|]. rewrite K1 in H2. destruct H2 as [(N2 & B2 & V2)|(b & r & L2 & B2 & V2)].
  - destruct H1 as [(N1 & B1 & V1)|(b & r & L1 & B1 & V1)].
    + left. split; [|split; congruence]. intros y I. apply in_app_iff in I as [I|I]; auto.
    + right. exists b, r. split; [|split; congruence]. destruct L1 as (u & v & -> & P & N). exists u, (v ++ l2).
      split; [rewrite <- app_assoc; reflexivity|]. split; [exact P|]. intros y I. apply in_app_iff in I as [I|I]; auto.
  - right. exists b, r. split; [|auto]. destruct L2 as (u & v & -> & P & N). exists (l1 ++ u), v.
    split; [rewrite app_assoc; reflexivity|auto].
Qed.
Lemma vstate_nil c : vstate [] c c.
Proof. split; [repeat split|]. left. split; [intros y []|auto]. Qed.

Lemma vendor_inner_spec brand hi : forall k lo c c' u, k = N.to_nat (hi - lo) ->
  vendor_inner T brand (nrange lo hi) c = (c', Ok u) ->
  vstate (map (fun r => (brand, r)) (firstn (N.to_nat (hi - lo)) (skipn (N.to_nat lo) (vr_re T)))) c c'.
Proof.
  induction k as [|k IH]; intros lo c c' u Hk H.
  - rewrite nrange_nil in H by lia. rewrite <- Hk. injection H as <- <-. apply vstate_nil.
  - rewrite nrange_cons in H by lia. cbn [vendor_inner] in H. unfold mbind at 1, mlift in H.
    destruct (index (vr_re T) lo) as [r|] eqn:E; [|discriminate]. apply index_nth in E.
    replace (N.to_nat (hi - lo)) with (S (N.to_nat (hi - (lo + 1)))) by lia. rewrite (skipn_cons _ _ _ E).
    replace (S (N.to_nat lo)) with (N.to_nat (lo + 1)) by lia. cbn [firstn map].
    unfold mbind at 1, mget in H.
    change ((brand, r) :: ?l) with ([(brand, r)] ++ l). unfold mbind at 1 in H.
    match type of H with context [match ?z with _ => _ end] => destruct z as [c1 [v|]] eqn:St end; [|discriminate].
    apply IH in H; [|lia]. apply (vstate_app _ _ c c1); [|exact H].
    destruct (re_match r (c_src c)) eqn:M.
    + unfold mbind, mmod in St. injection St as <- _. split; [|right; exists brand, r].
      * repeat split. unfold bit, set_flag. cbn. rewrite check_set_other by discriminate. reflexivity.
      * split; [|split; [reflexivity|unfold bit, set_flag; cbn; apply check_set_same]].
        exists [], []. split; [reflexivity|]. split; [apply match_find; exact M|intros y []].
    + injection St as <- _. split; [repeat split|]. left. split; [|auto]. intros y [<-|[]]. intros Q. apply match_find in Q. cbn in Q. congruence.
Qed.

Lemma vendor_spec : forall l c c' u, vendor_loop T l c = (c', Ok u) ->
  vstate (flat_map (fun v => map (fun r => (vt_brand64 v, r)) (range_of (vr_re T) (vt_range64 v))) l) c c'.
Proof.
  induction l as [|v l IH]; intros c c' u H.
  - injection H as <- <-. apply vstate_nil.
  - cbn [vendor_loop] in H. unfold mbind in H.
    destruct (vendor_inner T _ _ c) as [c1 [w|]] eqn:E; [|discriminate].
    cbn [flat_map]. apply (vstate_app _ _ c c1); [|exact (IH _ _ _ H)].
    apply (vendor_inner_spec _ _ _ _ _ _ _ eq_refl) in E. exact E.
Qed.

(** ** Getters *)
Variables mC mD h : N.
Variable ua : bytes.
Definition dev_end : ctx * res bool := run_cold (device_body T (fresh_ctx mC mD h ua)).

Lemma cold_device_read {A} (read : M A) :
  snd (run_cold ((ensure flagDeviceDetect (parse_device T) ;; plift read)%p (fresh_ctx mC mD h ua))) =
  match snd dev_end with Ok _ => snd (read (set_flag flagDeviceDetect (fst dev_end))) | Panic => Panic end.
Proof.
  unfold pbind at 1. rewrite run_cold_bind. unfold ensure.
  rewrite (eq_refl : check_bit (c_bits (fresh_ctx mC mD h ua)) flagDeviceDetect = false).
  unfold pbind. rewrite run_cold_bind. unfold parse_device, pbind. cbn [pcget prog_bind run_cold].
  unfold pdefer. rewrite run_cold_bind. fold dev_end. destruct dev_end as [c1 [b|]]; reflexivity.
Qed.
Lemma alone_device_type : alone T mC mD h ua GDeviceType =
  match snd dev_end with Ok _ => rmap VN (snd (read_device_type (set_flag flagDeviceDetect (fst dev_end)))) | Panic => Panic end.
Proof. unfold alone, run_getter. rewrite run_cold_pmap. unfold get_device_type. rewrite cold_device_read. destruct (snd dev_end); reflexivity. Qed.
Lemma alone_brand : alone T mC mD h ua GBrand =
  match snd dev_end with Ok _ => rmap VB (snd (read_brand T (set_flag flagDeviceDetect (fst dev_end)))) | Panic => Panic end.
Proof. unfold alone, run_getter. rewrite run_cold_pmap. unfold get_brand. rewrite cold_device_read. destruct (snd dev_end); reflexivity. Qed.
Lemma alone_model : alone T mC mD h ua GModel =
  match snd dev_end with Ok _ => rmap VB (snd (read_model (set_flag flagDeviceDetect (fst dev_end)))) | Panic => Panic end.
Proof. unfold alone, run_getter. rewrite run_cold_pmap. unfold get_model. rewrite cold_device_read. destruct (snd dev_end); reflexivity. Qed.

Hypothesis S : device_sane T.
Hypothesis L : short ua.

(** The result of the detection: an entry, or the fallbacks. *)
Definition entry_end (x : deviceTuple) (def : N) (c : ctx) : Prop :=
  device_type_is T ua x def (c_deviceType c) /\ c_brand c = dt_brand64 x /\
  bit flagVendorFragment c = false /\ bit flagDeviceForceDesktop c = false /\
  exists w, model_text T ua x w /\ slice64 (c_buf c) (c_model c) = Ok w.

Definition fallback_end (c : ctx) : Prop :=
  c_model c = 0%N /\
  (exists os, (on mD 1 -> alone T mC mD h ua GOS = Ok (VB os)) /\
    (bit flagDeviceForceDesktop c = true <-> on mD 1 /\ In os desktop_names)) /\
  ((re_find (re_tablet T) ua <> None /\ c_deviceType c = 8%N /\ c_brand c = 0%N) \/
   (re_find (re_tablet T) ua = None /\ re_find (re_mobile T) ua <> None /\ c_deviceType c = 2%N /\ c_brand c = 0%N) \/
   (re_find (re_tablet T) ua = None /\ re_find (re_mobile T) ua = None /\ c_deviceType c = 0%N /\
    ((none (frag_found ua) (fragments T) /\ c_brand c = 0%N) \/
     (exists b r, last_of (frag_found ua) (fragments T) (b, r) /\ c_brand c = b /\ bit flagVendorFragment c = true)))).

Lemma found_end before k after c' : device_order = before ++ k :: after ->
  found mD ua before k (fresh_ctx mC mD h ua) c' ->
  exists x, device_is T mD ua (fst (fst k)) (snd (fst k)) (snd k) x /\ entry_end x (snd k) c'.
Proof.
  intros Eo (ir & x & t & c1 & Fb & On & Ei & Fx & Tx & Hh & ->). exists x. split.
  { exists before, after, ir. destruct k as [[bt idx] def]. cbn [fst snd] in *. auto. }
  apply device_hit_spec in Hh as [Ht M]; [|exact S|exact L|exact Tx].
  change (c_src (fresh_ctx mC mD h ua)) with ua in *. set (c0 := up_brand (dt_brand64 x) (fresh_ctx mC mD h ua)) in *.
  destruct M as [[Mt ->]|(w & Mt & -> & Lw)].
  - split; [exact Ht|]. do 3 (split; [reflexivity|]). exists []. split; [exact Mt|]. apply text_slice, text_zero. reflexivity.
  - split; [exact Ht|]. do 3 (split; [reflexivity|]). exists w. split; [exact Mt|].
    change (slice64 w (encode64 0 (Z.of_nat (length w))) = Ok w).
    unfold slice64, encode64. rewrite e_decode_encode; unfold u32, two32; rewrite ?Z.mod_small by lia; try lia.
    cbn [fst snd]. rewrite slice_ok by lia. f_equal. rewrite skipn_O. apply firstn_all2. lia.
Qed.

Lemma desktop_iff os : in_list os desktopOS = true <-> In os desktop_names.
Proof. exact (in_list_iff os desktopOS). Qed.

Lemma fallback_spec c c' b :
  c_src c = ua -> c_brand c = 0%N -> c_deviceType c = 0%N -> c_model c = 0%N ->
  device_fallback T c = (c', Ok b) ->
  c_model c' = 0%N /\ bit flagDeviceForceDesktop c' = bit flagDeviceForceDesktop c /\
  ((re_find (re_tablet T) ua <> None /\ c_deviceType c' = 8%N /\ c_brand c' = 0%N) \/
   (re_find (re_tablet T) ua = None /\ re_find (re_mobile T) ua <> None /\ c_deviceType c' = 2%N /\ c_brand c' = 0%N) \/
   (re_find (re_tablet T) ua = None /\ re_find (re_mobile T) ua = None /\ c_deviceType c' = 0%N /\
    ((none (frag_found ua) (fragments T) /\ c_brand c' = 0%N) \/
     (exists b r, last_of (frag_found ua) (fragments T) (b, r) /\ c_brand c' = b /\ bit flagVendorFragment c' = true)))).
Proof.
  intros Es Eb Et Em H. unfold device_fallback, mbind at 1, mget in H. rewrite Es in H.
  destruct (re_match (re_tablet T) ua) eqn:M1.
  { apply match_find in M1. unfold mbind, mmod, mret in H. injection H as <- _. split; [exact Em|]. split; [reflexivity|]. left. auto. }
  assert (N1 : re_find (re_tablet T) ua = None).
  { unfold re_match in M1. destruct (re_find (re_tablet T) ua); [discriminate|reflexivity]. }
  destruct (re_match (re_mobile T) ua) eqn:M2.
  { apply match_find in M2. unfold mbind, mmod, mret in H. injection H as <- _. split; [exact Em|]. split; [reflexivity|]. right. left. auto. }
  assert (N2 : re_find (re_mobile T) ua = None).
  { unfold re_match in M2. destruct (re_find (re_mobile T) ua); [discriminate|reflexivity]. }
  unfold mbind at 1 in H. rewrite Eb in H. change (0 =? 0)%N with true in H. cbv iota in H. unfold mbind in H.
  destruct (eval_vendor T c) as [c1 [u|]] eqn:V; [|discriminate]. injection H as <- _.
  apply vendor_spec in V as ((K1 & K2 & K3 & K4) & V). fold (fragments T) in V. rewrite Es in V.
  split; [congruence|]. split; [exact K4|]. right. right. split; [exact N1|]. split; [exact N2|]. split; [congruence|].
  destruct V as [(V1 & V2 & _)|V]; [left; split; [exact V1|congruence]|right; exact V].
Qed.

Lemma device_end_spec b : snd dev_end = Ok b ->
  (exists bt idx def x, device_is T mD ua bt idx def x /\ entry_end x def (fst dev_end)) \/
  (no_device T mD ua /\ fallback_end (fst dev_end)).
Proof.
  intros E. assert (H : dev_end = (fst dev_end, Ok b)) by (rewrite <- E; destruct dev_end; reflexivity).
  set (c' := fst dev_end) in *. unfold dev_end, device_body, pbind in H. rewrite run_cold_bind in H.
  set (c0 := fresh_ctx mC mD h ua) in *.
  destruct (run_cold (device_try T device_classes c0)) as [c1 [ok|]] eqn:Tr; [|discriminate].
  change device_classes with (firstn 7 device_classes ++ [(1%N, dpNotebook, 1%N)]) in Tr.
  apply try_app in Tr.
  2: { intros k Hk. cbn in Hk. repeat destruct Hk as [<-|Hk]; try discriminate. destruct Hk. }
  change (c_maskD c0) with mD in Tr. change (c_src c0) with ua in Tr.
  destruct Tr as [(-> & before & k & after & Eo & Fo)|[Fl Tr]].
  { injection H as <- _. left.
    destruct (found_end before k (after ++ [(1%N, dpNotebook, 1%N)]) c1) as (x & Di & Ee); [|exact Fo|].
    - change (firstn 7 device_classes ++ [(1%N, dpNotebook, 1%N)] = before ++ k :: after ++ [(1%N, dpNotebook, 1%N)]).
      rewrite Eo, <- app_assoc. reflexivity.
    - exists (fst (fst k)), (snd (fst k)), (snd k), x. auto. }
  apply try_notebook in Tr. change (c_maskD c0) with mD in Tr. change (c_src c0) with ua in Tr.
  destruct Tr as [(-> & Fo)|(-> & Si & Tr)].
  { injection H as <- _. left.
    destruct (found_end (firstn 7 device_classes) (1%N, dpNotebook, 1%N) [] c1) as (x & Di & Ee).
    - reflexivity.
    - destruct Fo as (ir & x & t & c2 & _ & Fo). exists ir, x, t, c2. split; [exact Fl|exact Fo].
    - exists 1%N, dpNotebook, 1%N, x. auto. }
  right. split.
  { change (Forall (device_silent T mD ua) (firstn 7 device_classes ++ [(1%N, dpNotebook, 1%N)])). apply Forall_app. split; [exact Fl|]. constructor; [exact Si|constructor]. }
  cbn [plift run_cold] in H.
  assert (A : exists os, (on mD 1 -> alone T mC mD h ua GOS = Ok (VB os)) /\
    (bit flagDeviceForceDesktop c1 = true <-> on mD 1 /\ In os desktop_names) /\
    c_src c1 = ua /\ c_brand c1 = 0%N /\ c_deviceType c1 = 0%N /\ c_model c1 = 0%N).
  { destruct Tr as [(On & c2 & os & G & F)|(Off & ->)].
    - exists os. split.
      + intros _. unfold alone, run_getter. rewrite run_cold_pmap. fold c0. rewrite G. reflexivity.
      + pose proof (cold_get_os T c0) as (V1 & _ & V2 & _). rewrite G in V1, V2. cbn [fst] in V1, V2.
        unfold device_view, device_part in V1.
        assert (c_src c2 = ua /\ c_brand c2 = 0%N /\ c_deviceType c2 = 0%N /\ c_model c2 = 0%N) as (Q1 & Q2 & Q3 & Q4).
        { change (c_src c2 = c_src c0 /\ c_brand c2 = c_brand c0 /\ c_deviceType c2 = c_deviceType c0 /\ c_model c2 = c_model c0).
          repeat split; congruence. }
        assert (Q5 : bit flagDeviceForceDesktop c2 = false).
        { change false with (bit flagDeviceForceDesktop c0). congruence. }
        unfold forced in F. rewrite <- desktop_iff. destruct (in_list os desktopOS); subst c1.
        * split; [|repeat split; assumption]. split; [auto|]. intros _. unfold bit, set_flag. cbn. apply check_set_same.
        * split; [|repeat split; assumption]. rewrite Q5. split; [discriminate|]. intros [_ Q]. discriminate.
    - exists []. split; [intros On; contradiction|]. split; [|repeat split].
      split; [discriminate|]. intros [On _]. contradiction. }
  destruct A as (os & A1 & A2 & A3 & A4 & A5 & A6).
  apply fallback_spec in H as (F1 & F2 & F3); auto. split; [exact F1|]. split; [exists os; rewrite F2; auto|exact F3].
Qed.

Lemma read_device_type_eq c : snd (read_device_type c) = Ok (if bit flagDeviceForceDesktop c then 1%N else c_deviceType c).
Proof. unfold read_device_type, mbind, mget, bit. destruct (check_bit (c_bits c) flagDeviceForceDesktop); reflexivity. Qed.
Lemma read_brand_eq c : snd (read_brand T c) =
  if negb (c_brand c =? 0)%N then
    rbind (slice64 (if bit flagVendorFragment c then vr_buf T else dr_buf T) (c_brand c)) (fun raw => Ok (trim raw x20))
  else Ok Unknown.
Proof.
  unfold read_brand, mbind, mget, bit. destruct (negb (c_brand c =? 0)%N); [|reflexivity]. unfold mlift.
  destruct (slice64 _ _); reflexivity.
Qed.
Lemma read_model_eq c : snd (read_model c) =
  if negb (c_model c =? 0)%N then rbind (slice64 (c_buf c) (c_model c)) (fun raw => Ok (trim raw x20)) else Ok [].
Proof.
  unfold read_model, mbind, mget. destruct (negb (c_model c =? 0)%N); [|reflexivity]. unfold mlift.
  destruct (slice64 _ _); reflexivity.
Qed.

Lemma device_type t : alone T mC mD h ua GDeviceType = Ok (VN t) ->
  (exists bt idx def x, device_is T mD ua bt idx def x /\ device_type_is T ua x def t) \/
  (no_device T mD ua /\ exists os, (on mD 1 -> alone T mC mD h ua GOS = Ok (VB os)) /\ fallback_type T mD ua os t).
Proof.
  rewrite alone_device_type. destruct (snd dev_end) as [b|] eqn:E; [|discriminate].
  rewrite read_device_type_eq. rewrite bit_other by discriminate. set (c := fst dev_end).
  change (c_deviceType (set_flag flagDeviceDetect c)) with (c_deviceType c). intros [= Et].
  destruct (device_end_spec b E) as [(bt & idx & def & x & Di & Ht & _ & _ & Fd & _)|[Nd (_ & (os & Os & Fd) & Fb)]]; fold c in Fd.
  - left. exists bt, idx, def, x. split; [exact Di|]. rewrite Fd in Et. rewrite <- Et. exact Ht.
  - fold c in Fb. right. split; [exact Nd|]. exists os. split; [exact Os|].
    destruct (bit flagDeviceForceDesktop c).
    + left. destruct (proj1 Fd eq_refl). auto.
    + right. split; [intros Q; apply Fd in Q; discriminate|]. rewrite <- Et.
      destruct Fb as [(A & B & _)|[(A & B & C & _)|(A & B & C & _)]]; [left|right; left|right; right]; auto.
Qed.

Lemma device_brand s : alone T mC mD h ua GBrand = Ok (VB s) ->
  (exists bt idx def x, device_is T mD ua bt idx def x /\ brand_is T x s) \/ (no_device T mD ua /\ fallback_brand T ua s).
Proof.
  rewrite alone_brand. destruct (snd dev_end) as [b|] eqn:E; [|discriminate].
  rewrite read_brand_eq. rewrite bit_other by discriminate. set (c := fst dev_end).
  change (c_brand (set_flag flagDeviceDetect c)) with (c_brand c). intros H.
  destruct (device_end_spec b E) as [(bt & idx & def & x & Di & _ & Eb & Vf & _)|[Nd (_ & _ & Fb)]].
  - fold c in Eb, Vf. left. exists bt, idx, def, x. split; [exact Di|]. rewrite Eb, Vf in H.
    destruct (N.eqb_spec (dt_brand64 x) 0) as [E0|E0]; cbn [negb] in H.
    + injection H as <-. left. auto.
    + destruct (slice64 (dr_buf T) (dt_brand64 x)) as [w|] eqn:Sl; [|discriminate]. injection H as <-. right.
      split; [exact E0|]. exists w. split; [apply text_slice; exact Sl|apply trim_trimmed].
  - fold c in Fb. right. split; [exact Nd|].
    destruct Fb as [(A & _ & B)|[(_ & A & _ & B)|(A1 & A2 & _ & [[N B]|(bb & r & La & B & V)])]]; rewrite B in H.
    + injection H as <-. apply FB_word. auto.
    + injection H as <-. apply FB_word. auto.
    + injection H as <-. apply FB_none; assumption.
    + rewrite V in H. destruct (N.eqb_spec bb 0) as [E0|E0]; cbn [negb] in H.
      * injection H as <-. rewrite E0 in La. exact (FB_unnamed _ _ r A1 A2 La).
      * destruct (slice64 (vr_buf T) bb) as [w|] eqn:Sl; [|discriminate]. injection H as <-. apply text_slice in Sl.
        exact (FB_last _ _ bb r w _ A1 A2 La Sl (trim_trimmed w) E0).
Qed.

Lemma device_model s : alone T mC mD h ua GModel = Ok (VB s) ->
  (exists bt idx def x w, device_is T mD ua bt idx def x /\ model_text T ua x w /\ trimmed w s) \/
  (no_device T mD ua /\ s = []).
Proof.
  rewrite alone_model. destruct (snd dev_end) as [b|] eqn:E; [|discriminate].
  rewrite read_model_eq. set (c := fst dev_end).
  change (c_model (set_flag flagDeviceDetect c)) with (c_model c). change (c_buf (set_flag flagDeviceDetect c)) with (c_buf c).
  intros H. destruct (device_end_spec b E) as [(bt & idx & def & x & Di & _ & _ & _ & _ & w & Mt & Sl)|[Nd (Em & _)]].
  - fold c in Sl. left. exists bt, idx, def, x, w. split; [exact Di|]. split; [exact Mt|].
    destruct (N.eqb_spec (c_model c) 0) as [E0|E0]; cbn [negb] in H.
    + injection H as <-. rewrite E0, slice_zero in Sl. injection Sl as <-. exact (trim_trimmed []).
    + rewrite Sl in H. injection H as <-. apply trim_trimmed.
  - fold c in Em. right. split; [exact Nd|]. rewrite Em in H. injection H as <-. reflexivity.
Qed.
End Device.

(** The entry is unique. *)
Lemma device_order_nodup : NoDup (map (fun k => fst (fst k)) device_order).
Proof. cbn. repeat constructor; cbn; intuition discriminate. Qed.

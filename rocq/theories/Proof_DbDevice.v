(** Devices, brands and models of a built program, in terms of the database. *)
From Verif Require Import Model_Base Model_CacheEntry Model_Version Model_Ctx Model_Regex Model_Parse Model_Compiler Model_Shipped Model_Built
  Spec_Version Spec_Getters Spec_Select Spec_Compiler Spec_Database Proof_Base Proof_Select Proof_Client Proof_OS Proof_Device Proof_Reports
  Proof_Tables Proof_Compiler Proof_Built Proof_DbClient Proof_DbOS.
From Coq Require Import Lia ZifyBool ZifyNat ZifyN Permutation.
Open Scope nat_scope.

Lemma sort_in_order {A} (f : list (bytes * A)) : in_order f (sort_keys f).
Proof.
  split; [apply Permutation_sym, sort_perm|]. intros l1 x l2 E y I. apply str_leb_text. exact (sort_ascending f l1 x l2 E y I).
Qed.

Section Build.
Variable K : compiler.
(** A property of the templates of the database. *)
Variable good : bytes -> Prop.
Definition dext (d d' : dtables) : Prop :=
  later (d_buf d) (d_buf d') /\ prefix (d_re d) (d_re d') /\ prefix (d_dm d) (d_dm d').
Definition dfit (d : dtables) : Prop := bfit (d_buf d) /\ fits_32 (d_dm d).
Definition model_means (d : dtables) (y : ymodel) (m : modelTuple) : Prop :=
  matches K (k_device K) (d_buf d) (d_re d) (ym_regex y) (mt_matchRI m) (mt_match64 m) /\
  interned (d_buf d) (ym_device y) (mt_type64 m) /\ interned (d_buf d) (ym_model y) (mt_model64 m).
(** What every entry of the table of models looks like. *)
Definition model_origin (d : dtables) (m : modelTuple) : Prop :=
  exists t, interned (d_buf d) t (mt_model64 m) /\ length t < 256 /\ good t /\
    ((exists y, model_means d y m /\ ym_model y = t) \/ (mt_type64 m = 0%N /\ mt_matchRI m = (-1)%Z /\ mt_match64 m = 0%N)).
Definition dok (d : dtables) : Prop := buf_ok (d_buf d) /\ Forall (model_origin d) (d_dm d).
Definition brand_matches (d : dtables) (rs0 : bytes) (ri : Z) (m64 : N) : Prop :=
  let rs := match k_static K rs0 with Some x => x | None => rs0 end in
  (plain rs /\ ri = (-1)%Z /\ interned (d_buf d) rs0 m64) \/
  (~ plain rs /\ matches K (k_device K) (d_buf d) (d_re d) rs ri m64).
Definition brand_means (d : dtables) (y : bytes * ybrand) (x : deviceTuple) : Prop :=
  interned (d_buf d) (fst y) (dt_brand64 x) /\ interned (d_buf d) (yb_device (snd y)) (dt_type64 x) /\
  brand_matches d (yb_regex (snd y)) (dt_matchRI x) (dt_match64 x) /\
  ((yb_models (snd y) = [] /\ yb_model (snd y) = [] /\ dt_modelSI x = (-1)%Z /\ dt_models64 x = 0%N) \/
   (yb_models (snd y) = [] /\ yb_model (snd y) <> [] /\ (0 <= dt_modelSI x)%Z /\ dt_models64 x = 0%N /\
      exists m, nth_error (d_dm d) (Z.to_nat (dt_modelSI x)) = Some m /\ mt_type64 m = 0%N /\ interned (d_buf d) (yb_model (snd y)) (mt_model64 m)) \/
   (yb_models (snd y) <> [] /\ dt_modelSI x = (-1)%Z /\ dt_models64 x <> 0%N /\
      exists l, slice (d_dm d) (dt_models64 x / two32)%N (dt_models64 x mod two32)%N = Ok l /\ Forall2 (model_means d) (yb_models (snd y)) l)).
Lemma dext_refl d : dext d d.
Proof. split; [apply later_refl|]. split; apply prefix_refl. Qed.
Lemma dext_trans a b c : dext a b -> dext b c -> dext a c.
Proof.
  intros (A1 & A2 & A3) (B1 & B2 & B3). split; [exact (later_trans _ _ _ A1 B1)|]. split; [exact (prefix_trans _ _ _ A2 B2)|exact (prefix_trans _ _ _ A3 B3)].
Qed.
Lemma dfit_back a b : dext a b -> dfit b -> dfit a.
Proof. intros (A1 & _ & A3) [F1 F2]. split; [exact (bfit_back _ _ A1 F1)|exact (fits_back _ _ A3 F2)]. Qed.
Lemma model_means_ext d d' y m : dext d d' -> model_means d y m -> model_means d' y m.
Proof.
  intros (A1 & A2 & _) (H1 & H2 & H3). split; [exact (matches_later _ _ _ _ _ _ _ _ _ A1 A2 H1)|].
  split; [exact (interned_later _ _ _ _ A1 H2)|exact (interned_later _ _ _ _ A1 H3)].
Qed.
Lemma model_origin_ext d d' m : dext d d' -> model_origin d m -> model_origin d' m.
Proof.
  intros E (t & I & L & G & H). exists t. split; [exact (interned_later _ _ _ _ (proj1 E) I)|]. split; [exact L|]. split; [exact G|].
  destruct H as [(y & M & Et)|H]; [left; exists y; split; [exact (model_means_ext _ _ _ _ E M)|exact Et]|right; exact H].
Qed.
Lemma origins_ext d d' : dext d d' -> Forall (model_origin d) (d_dm d) -> Forall (model_origin d') (d_dm d).
Proof. intros E. apply Forall_impl. intros m. apply model_origin_ext. exact E. Qed.
Lemma brand_means_ext d d' y x : dext d d' -> brand_means d y x -> brand_means d' y x.
Proof.
  intros E (H1 & H2 & H3 & H4). pose proof E as (A1 & A2 & A3). split; [exact (interned_later _ _ _ _ A1 H1)|].
  split; [exact (interned_later _ _ _ _ A1 H2)|]. split.
  - destruct H3 as [(P & R & I)|(P & M)]; [left; split; [exact P|]; split; [exact R|exact (interned_later _ _ _ _ A1 I)]|].
    right. split; [exact P|exact (matches_later _ _ _ _ _ _ _ _ _ A1 A2 M)].
  - destruct H4 as [H|[(V1 & V2 & S1 & S2 & m & Nm & Tm & Im)|(V & S1 & S2 & l & Sl & F)]]; [left; exact H|right; left|right; right].
    + split; [exact V1|]. split; [exact V2|]. split; [exact S1|]. split; [exact S2|]. exists m. split; [exact (prefix_nth _ _ _ _ A3 Nm)|].
      split; [exact Tm|exact (interned_later _ _ _ _ A1 Im)].
    + split; [exact V|]. split; [exact S1|]. split; [exact S2|]. exists l. split; [exact (range_grows _ _ _ _ A3 Sl)|].
      revert F. apply Forall2_impl. intros y' m. apply model_means_ext. exact E.
Qed.
Definition modp (y : ymodel) : Prop := length (ym_model y) < 256 /\ good (ym_model y).
Definition brand_ok (x : bytes * ybrand) : Prop :=
  brand_proper x /\ good (yb_model (snd x)) /\ Forall (fun m => good (ym_model m)) (yb_models (snd x)).
Lemma model1_spec y d : modp y ->
  let '(m, d') := compile_model1 (k_valid K) (k_device K) y d in
  dext d d' /\ d_dm d' = d_dm d ++ [m] /\ (buf_ok (d_buf d) -> bfit (d_buf d') -> buf_ok (d_buf d')) /\ model_means d' y m.
Proof.
  intros P. unfold compile_model1. destruct (add_match _ _ _ _ _) as [[[ri m64] b1] re1] eqn:E1.
  destruct (add_match_spec K _ _ _ _ _ _ _ _ E1) as (L1 & P1 & M1 & K1).
  pose proof (buf_add_later (ym_device y) b1) as L2. pose proof (add_interned (ym_device y) b1) as I2. pose proof (buf_add_ok (ym_device y) b1) as K2.
  destruct (buf_add (ym_device y) b1) as [t64 b2]. cbn [fst snd] in L2, I2, K2.
  pose proof (buf_add_later (ym_model y) b2) as L3. pose proof (add_interned (ym_model y) b2) as I3. pose proof (buf_add_ok (ym_model y) b2) as K3.
  destruct (buf_add (ym_model y) b2) as [n64 b3]. cbn [fst snd] in L3, I3, K3.
  pose proof (later_trans _ _ _ L2 L3) as L23.
  split; [|split; [|split]]; cbn [d_buf d_re d_dm].
  - split; [exact (later_trans _ _ _ L1 L23)|]. split; [exact P1|apply prefix_snoc].
  - reflexivity.
  - intros Kb F. apply K3; [apply K2; [apply K1; [exact Kb|exact (bfit_back _ _ L23 F)]|exact (bfit_back _ _ L3 F)]|exact F].
  - split; cbn [d_buf d_re mt_matchRI mt_match64 mt_type64 mt_model64]; [exact (matches_later _ _ _ _ _ _ _ _ _ L23 (prefix_refl _) M1)|].
    split; [exact (interned_later _ _ _ _ L3 I2)|exact I3].
Qed.
Lemma model_all ys : forall d, Forall modp ys ->
  let '(l, d') := compile_entries (compile_model1 (k_valid K) (k_device K)) ys d in
  dext d d' /\ d_dm d' = d_dm d ++ l /\ length l = length ys /\ (dok d -> dfit d' -> dok d' /\ Forall2 (model_means d') ys l).
Proof.
  induction ys as [|y ys IH]; intros d G; cbn [compile_entries].
  { split; [apply dext_refl|]. split; [symmetry; apply app_nil_r|]. split; [reflexivity|]. intros Ok _. split; [exact Ok|constructor]. }
  apply Forall_cons_iff in G as [Gy G]. pose proof (model1_spec y d Gy) as S1. destruct (compile_model1 _ _ y d) as [m d1]. destruct S1 as (X1 & V1 & K1 & M1).
  specialize (IH d1 G). destruct (compile_entries _ ys d1) as [l d2]. destruct IH as (X2 & V2 & Len & Ok2).
  split; [exact (dext_trans _ _ _ X1 X2)|]. split; [rewrite V2, V1, <- app_assoc; reflexivity|]. split; [cbn [length]; lia|].
  intros [Kb Fo] F. assert (O1 : dok d1).
  { split; [apply K1; [exact Kb|apply (dfit_back _ _ X2 F)]|]. rewrite V1. apply Forall_app. split; [exact (origins_ext _ _ X1 Fo)|].
    constructor; [|constructor]. exists (ym_model y). split; [apply M1|]. split; [apply Gy|]. split; [apply Gy|]. left. exists y. auto. }
  destruct (Ok2 O1 F) as [O2 F2]. split; [exact O2|]. constructor; [exact (model_means_ext _ _ _ _ X2 M1)|exact F2].
Qed.
Lemma brand_match_spec rs0 b re ri m64 b' re' dm : brand_match (k_valid K) (k_device K) (k_static K) rs0 b re = (ri, m64, b', re') ->
  later b b' /\ prefix re re' /\ brand_matches (mkD b' re' dm) rs0 ri m64 /\ (buf_ok b -> bfit b' -> buf_ok b').
Proof.
  unfold brand_match, brand_matches. cbn [d_buf d_re]. set (rs := match k_static K rs0 with Some x => x | None => rs0 end). destruct (is_regex rs) eqn:E.
  - intros H. destruct (add_match_spec K _ _ _ _ _ _ _ _ H) as (L1 & P1 & M1 & K1). split; [exact L1|]. split; [exact P1|]. split; [|exact K1].
    right. split; [|exact M1]. rewrite <- plain_spec. congruence.
  - apply plain_spec in E. pose proof (buf_add_later rs0 b) as L. pose proof (add_interned rs0 b) as I. pose proof (buf_add_ok rs0 b) as K1.
    destruct (buf_add rs0 b) as [e b1]. cbn [fst snd] in *. intros H; injection H as H1 H2 H3 H4; subst.
    split; [exact L|]. split; [apply prefix_refl|]. split; [left; auto|exact K1].
Qed.
Lemma brand1_spec y d : brand_ok y ->
  let '(x, d') := compile_brand1 (k_valid K) (k_device K) (k_static K) y d in dext d d' /\ (dok d -> dfit d' -> dok d' /\ brand_means d' y x).
Proof.
  destruct y as [name y]. intros ((P1 & P2 & P3') & G2 & G3). cbn [fst snd] in P1, P2, P3', G2, G3. unfold compile_brand1.
  assert (P3 : Forall modp (yb_models y)) by (rewrite Forall_forall in *; intros m I; split; auto).
  pose proof (buf_add_later name (d_buf d)) as L1. pose proof (add_interned name (d_buf d)) as I1. pose proof (buf_add_ok name (d_buf d)) as K1.
  destruct (buf_add name (d_buf d)) as [br64 b1]. cbn [fst snd] in L1, I1, K1.
  pose proof (buf_add_later (yb_device y) b1) as L2. pose proof (add_interned (yb_device y) b1) as I2. pose proof (buf_add_ok (yb_device y) b1) as K2.
  destruct (buf_add (yb_device y) b1) as [t64 b2]. cbn [fst snd] in L2, I2, K2.
  destruct (brand_match _ _ _ _ b2 (d_re d)) as [[[ri m64] b3] re3] eqn:E3. destruct (brand_match_spec _ _ _ _ _ _ _ (d_dm d) E3) as (L3 & Q3 & M3 & K3).
  set (d3 := mkD b3 re3 (d_dm d)) in *.
  assert (X3 : dext d d3). { split; [exact (later_trans _ _ _ L1 (later_trans _ _ _ L2 L3))|]. split; [exact Q3|apply prefix_refl]. }
  assert (Ok3 : dok d -> bfit b3 -> dok d3).
  { intros [Kb Fo] F. split.
    - pose proof (bfit_back _ _ L3 F) as F2. pose proof (bfit_back _ _ L2 F2) as F1. cbn [d_buf d3]. auto.
    - exact (origins_ext _ _ X3 Fo). }
  pose proof (interned_later _ _ _ _ (later_trans _ _ _ L2 L3) I1) as J1. pose proof (interned_later _ _ _ _ L3 I2) as J2.
  destruct (yb_models y) as [|v vs] eqn:V.
  - destruct (yb_model y) as [|c mt] eqn:Vm.
    + split; [exact X3|]. intros Ok [F _]. split; [exact (Ok3 Ok F)|]. split; [exact J1|]. split; [exact J2|]. split; [exact M3|]. left.
      cbn [fst snd dt_modelSI dt_models64]. auto.
    + rewrite <- Vm in *. pose proof (buf_add_later (yb_model y) b3) as L4. pose proof (add_interned (yb_model y) b3) as I4. pose proof (buf_add_ok (yb_model y) b3) as K4.
      destruct (buf_add (yb_model y) b3) as [n64 b4]. cbn [fst snd] in L4, I4, K4.
      set (d4 := mkD b4 re3 (d_dm d ++ [mkModel 0 (-1) 0 n64])).
      assert (X4 : dext d3 d4). { split; [exact L4|]. split; [apply prefix_refl|apply prefix_snoc]. }
      split; [exact (dext_trans _ _ _ X3 X4)|]. intros Ok [F _]. cbn [d_buf d4] in F. destruct (Ok3 Ok (bfit_back _ _ L4 F)) as [Kb Fo]. split.
      * split; [apply K4; assumption|]. cbn [d_dm d4]. apply Forall_app. split; [exact (origins_ext _ _ X4 Fo)|]. constructor; [|constructor].
        exists (yb_model y). split; [exact I4|]. split; [exact P2|]. split; [exact G2|right; auto].
      * 
        split; [exact (interned_later _ _ _ _ L4 J1)|]. split; [exact (interned_later _ _ _ _ L4 J2)|]. split.
        { cbn [snd dt_matchRI dt_match64]. destruct M3 as [(Pp & R & I)|(Pp & M)]; [left; split; [exact Pp|]; split; [exact R|exact (interned_later _ _ _ _ L4 I)]|].
          right. split; [exact Pp|exact (matches_later _ _ _ _ _ _ _ _ _ L4 (prefix_refl _) M)]. }
        right. left. cbn [snd dt_modelSI dt_models64 d_dm d4 d_buf]. split; [exact V|]. split; [rewrite Vm; discriminate|]. split; [lia|]. split; [reflexivity|].
        eexists. split; [rewrite Nat2Z.id, nth_error_app2, Nat.sub_diag by lia; reflexivity|]. split; [reflexivity|exact I4].
  - rewrite <- V in *. pose proof (model_all (yb_models y) d3 P3) as S. destruct (compile_entries _ (yb_models y) d3) as [l d4]. cbn [snd].
    destruct S as (X4 & V4 & Len & Ok4). split; [exact (dext_trans _ _ _ X3 X4)|]. intros Ok F.
    destruct (Ok4 (Ok3 Ok (proj1 (dfit_back _ _ X4 F))) F) as [O4 F4]. split; [exact O4|]. pose proof X4 as (L4 & Q4 & _).
    split; [exact (interned_later _ _ _ _ L4 J1)|]. split; [exact (interned_later _ _ _ _ L4 J2)|]. split.
    { cbn [snd dt_matchRI dt_match64]. destruct M3 as [(Pp & R & I)|(Pp & M)]; [left; split; [exact Pp|]; split; [exact R|exact (interned_later _ _ _ _ L4 I)]|].
      right. split; [exact Pp|exact (matches_later _ _ _ _ _ _ _ _ _ L4 Q4 M)]. }
    right. right. cbn [snd dt_modelSI dt_models64]. destruct F as [_ F]. unfold fits_32 in F. cbn [d_dm d3] in V4. rewrite V4 in *.
    split; [rewrite V; discriminate|]. split; [reflexivity|]. split.
    + apply encode_nonzero. rewrite app_length in *. rewrite V in Len. cbn [length] in Len. lia.
    + exists l. split; [apply (encode_slice (d_dm d) l F)|exact F4].
Qed.
Definition brand1 := compile_brand1 (k_valid K) (k_device K) (k_static K).
Lemma file_ext f d : Forall brand_ok f -> dext d (snd (compile_entries brand1 f d)).
Proof.
  apply (entries_ext brand1 dext brand_ok dext_refl dext_trans). intros y s G. pose proof (brand1_spec y s G) as S. unfold brand1. destruct (compile_brand1 _ _ _ y s). apply S.
Qed.
Lemma file_ok f d : Forall brand_ok f -> dok d -> dfit (snd (compile_entries brand1 f d)) ->
  dok (snd (compile_entries brand1 f d)) /\ Forall2 (brand_means (snd (compile_entries brand1 f d))) f (fst (compile_entries brand1 f d)).
Proof.
  apply (entries_ok brand1 dext dfit dok brand_ok brand_means dext_refl dext_trans dfit_back).
  - intros y s G. pose proof (brand1_spec y s G) as S. unfold brand1. destruct (compile_brand1 _ _ _ y s). apply S.
  - intros y s G Ok F. pose proof (brand1_spec y s G) as S. unfold brand1 in *. destruct (compile_brand1 _ _ _ y s). apply S; assumption.
  - intros. eapply brand_means_ext; eassumption.
Qed.
Definition sorted_file (f : list (bytes * ybrand)) := compile_entries brand1 (sort_keys f).
Lemma sort_Forall {A} (P : bytes * A -> Prop) f : Forall P f -> Forall P (sort_keys f).
Proof. intros H. exact (Permutation_Forall (Permutation_sym (sort_perm f)) H). Qed.
Lemma device_all fs d : Forall (Forall brand_ok) fs -> dok d -> dfit (snd (compile_entries sorted_file fs d)) ->
  dok (snd (compile_entries sorted_file fs d)) /\
  Forall2 (fun f ir => Forall2 (brand_means (snd (compile_entries sorted_file fs d))) (sort_keys f) ir) fs (fst (compile_entries sorted_file fs d)).
Proof.
  apply (entries_ok sorted_file dext dfit dok (Forall brand_ok) (fun d f ir => Forall2 (brand_means d) (sort_keys f) ir) dext_refl dext_trans dfit_back).
  - intros f s G. apply file_ext. apply sort_Forall. exact G.
  - intros f s G Ok F. apply file_ok; [apply sort_Forall; exact G|exact Ok|exact F].
  - intros s s' f ir E. apply Forall2_impl. intros y x. apply brand_means_ext. exact E.
Qed.
End Build.

Record device_facts (K : compiler) (D : database) (T : tables) (d : dtables) : Prop := {
  df_ok : dok K (fun _ => True) d;
  df_buf : dr_buf T = b_buf (d_buf d);
  df_re : dr_re T = map (fun p => compile (ci p)) (d_re d);
  df_dm : dr_dm T = d_dm d;
  df_idx : Forall2 (fun f ir => Forall2 (brand_means K d) (sort_keys f) ir) (db_device D) (dr_idx T);
  df_tablet : re_tablet T = compile src_tablet;
  df_mobile : re_mobile T = compile src_mobile
}.
Lemma device_built_good K D good : Forall (Forall (brand_ok good)) (db_device D) -> fits_32 (dr_buf (built K D)) -> fits_32 (dr_dm (built K D)) ->
  exists d, device_facts K D (built K D) d /\ dok K good d.
Proof.
  intros P F1 F2. unfold built in *. cbn [dr_buf dr_dm] in F1, F2. unfold compile_device in *. fold (brand1 K) in *. fold (sorted_file K) in *.
  pose proof (device_all K good (db_device D) (mkD buf_empty [] []) P (conj buf_empty_ok (Forall_nil _))) as S.
  change (fun f : list (bytes * ybrand) => compile_entries (brand1 K) (sort_keys f)) with (sorted_file K) in *.
  destruct (compile_entries (sorted_file K) (db_device D) (mkD buf_empty [] [])) as [idx d]. cbn [fst snd do_buf do_dm] in *.
  destruct (S (conj F1 F2)) as [Ok M]. exists d. split; [|exact Ok].
  constructor; cbn [dr_buf dr_re dr_dm dr_idx do_re do_idx do_dm do_buf re_tablet re_mobile].
  - destruct Ok as [Ok Fo]. split; [exact Ok|]. revert Fo. apply Forall_impl. intros m (t & I & L & _ & H). exists t. auto.
  - reflexivity.
  - apply map_map.
  - reflexivity.
  - exact M.
  - reflexivity.
  - reflexivity.
Qed.
Lemma device_built K D : Forall (Forall brand_proper) (db_device D) -> fits_32 (dr_buf (built K D)) -> fits_32 (dr_dm (built K D)) ->
  exists d, device_facts K D (built K D) d.
Proof.
  intros P F1 F2. destruct (device_built_good K D (fun _ => True)) as (d & DF & _); [|exact F1|exact F2|exists d; exact DF].
  revert P. apply Forall_impl. intros f. apply Forall_impl. intros x P. split; [exact P|]. split; [exact I|]. apply Forall_forall. auto.
Qed.

Section Device.
Variables (K : compiler) (D : database) (T : tables) (d : dtables).
Hypothesis DF : device_facts K D T d.
Hypothesis L8 : length (db_device D) = 8.
Hypothesis PR : Forall (Forall brand_proper) (db_device D).
Let okb : buf_ok (d_buf d) := proj1 (df_ok _ _ _ _ DF).

Lemma brand_iff ua y x : brand_means K d y x -> (brand_hit K ua y <-> device_applies T ua x).
Proof.
  intros (_ & _ & M & _). unfold brand_hit, device_applies. rewrite (df_re _ _ _ _ DF), (df_buf _ _ _ _ DF).
  unfold brand_finds, brand_plain, brand_source. unfold brand_matches in M.
  destruct (k_static K (yb_regex (snd y))) as [s|] eqn:Es.
  - destruct M as [(P & -> & I)|(P & M)].
    + pose proof (interned_text _ _ _ okb I) as Tx. split.
      * intros [[_ O]|(m & N & _)]; [|contradiction]. right. split; [lia|]. eauto.
      * intros [[L _]|(_ & t & Ts & O)]; [lia|]. left. split; [exact P|]. rewrite (text_fun _ _ _ _ Tx Ts). exact O.
    + rewrite (matches_applies K (k_device K) ci _ _ _ _ _ ua okb M). unfold db_applies. split.
      * intros [[X _]|(m & _ & rs & [(_ & ->)|(X & _)] & F)]; [contradiction| |contradiction]. right. eauto.
      * intros [[X _]|(m & F)]; [contradiction|]. right. exists m. split; [exact P|]. exists s. auto.
  - destruct M as [(P & -> & I)|(P & M)].
    + pose proof (interned_text _ _ _ okb I) as Tx. split.
      * intros [[_ O]|(m & N & _)]; [|contradiction]. right. split; [lia|]. eauto.
      * intros [[L _]|(_ & t & Ts & O)]; [lia|]. left. split; [exact P|]. rewrite (text_fun _ _ _ _ Tx Ts). exact O.
    + rewrite (matches_applies K (k_device K) ci _ _ _ _ _ ua okb M). unfold db_applies. split.
      * intros [[X _]|(m & _ & rs & -> & F)]; [contradiction|]. right. eauto.
      * intros [[X _]|(m & F)]; [contradiction|]. right. exists m. split; [exact P|]. exists (yb_regex (snd y)). auto.
Qed.
Lemma brand_is_plain ua y x : brand_means K d y x -> brand_hit K ua y -> ((dt_matchRI x < 0)%Z <-> brand_plain K (yb_regex (snd y))).
Proof.
  intros M H. pose proof H as H'. apply (brand_iff ua y x M) in H'. destruct M as (_ & _ & M & _).
  unfold brand_matches in M. unfold brand_plain.
  assert (X : forall rs, ~ plain rs -> matches K (k_device K) (d_buf d) (d_re d) rs (dt_matchRI x) (dt_match64 x) -> ((dt_matchRI x < 0)%Z <-> plain rs)).
  { intros rs P Mr. apply (matches_plain K (k_device K) ci _ _ _ _ _ ua Mr). unfold device_applies in H'.
    rewrite (df_re _ _ _ _ DF), (df_buf _ _ _ _ DF) in H'. apply (matches_applies K (k_device K) ci _ _ _ _ _ ua okb Mr). exact H'. }
  destruct (k_static K (yb_regex (snd y))) as [s|]; destruct M as [(P & -> & I)|(P & M)]; try (split; [intros _; exact P|lia]); exact (X _ P M).
Qed.
Lemma brand_finds_down ua y x r m : brand_means K d y x -> (0 <= dt_matchRI x)%Z -> nth_error (dr_re T) (Z.to_nat (dt_matchRI x)) = Some r ->
  re_find r ua = Some m -> brand_finds K (yb_regex (snd y)) ua m.
Proof.
  intros (_ & _ & M & _) L N F. rewrite (df_re _ _ _ _ DF) in N. unfold brand_finds, brand_plain, brand_source, brand_matches in *.
  destruct (k_static K (yb_regex (snd y))) as [s|]; destruct M as [(P & E & I)|(P & M)]; try lia; (split; [exact P|]).
  - exists s. split; [auto|]. apply (matches_finds K (k_device K) ci _ _ _ _ _ ua m M). eauto.
  - exists (yb_regex (snd y)). split; [auto|]. apply (matches_finds K (k_device K) ci _ _ _ _ _ ua m M). eauto.
Qed.

Lemma file_of i ir : nth_error (dr_idx T) i = Some ir -> exists f, nth_error (db_device D) i = Some f /\ Forall2 (brand_means K d) (sort_keys f) ir.
Proof. intros N. exact (proj1 (Forall2_nth _ _ _ (df_idx _ _ _ _ DF) i) _ N). Qed.
Lemma dev_silent_down mask ua k : device_silent T mask ua k -> db_device_silent K D mask ua k.
Proof.
  intros H O. destruct (H O) as (ir & N & No). destruct (file_of _ _ N) as (f & Nf & F). exists (sort_keys f).
  split; [exists f; split; [exact Nf|apply sort_in_order]|]. apply (none_iff (brand_means K d) (brand_hit K ua) (device_applies T ua) _ _ F); [|exact No].
  intros y x _ _. apply brand_iff.
Qed.
Lemma no_device_down mask ua : no_device T mask ua -> db_no_device K D mask ua.
Proof. apply Forall_impl. intros k. apply dev_silent_down. Qed.
Lemma device_is_down mask ua b idx def x : device_is T mask ua b idx def x ->
  exists y, db_device_is K D mask ua b idx def y /\ brand_means K d y x /\ brand_hit K ua y /\ brand_proper y.
Proof.
  intros (before & after & ir & E & S & O & N & Fx). destruct (file_of _ _ N) as (f & Nf & F).
  destruct (first_backward (brand_means K d) (brand_hit K ua) (device_applies T ua) _ _ F (fun y x _ _ M => brand_iff ua y x M) x Fx) as (y & Fy & M).
  exists y. split; [|split; [exact M|]].
  - exists before, after, (sort_keys f). split; [exact E|]. split; [revert S; apply Forall_impl; intros k; apply dev_silent_down|].
    split; [exact O|]. split; [exists f; split; [exact Nf|apply sort_in_order]|exact Fy].
  - destruct Fy as (l1 & l2 & El & Hy & _). split; [exact Hy|]. rewrite Forall_forall in PR. pose proof (PR f (nth_error_In _ _ Nf)) as Pf.
    apply sort_Forall in Pf. rewrite Forall_forall in Pf. apply Pf. rewrite El. apply in_or_app. right. left. reflexivity.
Qed.
Lemma model_iff ua y m : model_means K d y m -> (model_hit K ua y <-> model_applies T ua m).
Proof.
  intros (M & _). unfold model_hit, model_applies. rewrite (df_re _ _ _ _ DF), (df_buf _ _ _ _ DF). symmetry.
  exact (matches_applies K (k_device K) ci _ _ _ _ _ ua okb M).
Qed.
Lemma models_first ua y x m : brand_means K d y x -> dt_models64 x <> 0%N -> first (model_applies T ua) (models T x) m ->
  yb_models (snd y) <> [] /\ exists w, first (model_hit K ua) (yb_models (snd y)) w /\ model_means K d w m /\ model_hit K ua w.
Proof.
  intros (_ & _ & _ & V) N64 F. destruct V as [(_ & _ & _ & E)|[(_ & _ & _ & E & _)|(Nv & _ & _ & l & Sl & F2)]]; [contradiction|contradiction|].
  split; [exact Nv|]. rewrite <- (df_dm _ _ _ _ DF) in Sl. apply (slice_range (dr_dm T) (dt_models64 x)) in Sl. unfold models in F. rewrite <- Sl in F.
  destruct (first_backward (model_means K d) (model_hit K ua) (model_applies T ua) _ _ F2 (fun w v' _ _ => model_iff ua w v') m F) as (w & Fw & Mw).
  exists w. split; [exact Fw|]. split; [exact Mw|]. destruct Fw as (_ & _ & _ & Hw & _). exact Hw.
Qed.
Lemma models_none ua y x : brand_means K d y x -> dt_models64 x <> 0%N -> none (model_applies T ua) (models T x) ->
  yb_models (snd y) <> [] /\ none (model_hit K ua) (yb_models (snd y)).
Proof.
  intros (_ & _ & _ & V) N64 F. destruct V as [(_ & _ & _ & E)|[(_ & _ & _ & E & _)|(Nv & _ & _ & l & Sl & F2)]]; [contradiction|contradiction|].
  split; [exact Nv|]. rewrite <- (df_dm _ _ _ _ DF) in Sl. apply (slice_range (dr_dm T) (dt_models64 x)) in Sl. unfold models in F. rewrite <- Sl in F.
  apply (none_iff (model_means K d) (model_hit K ua) (model_applies T ua) _ _ F2 (fun w v' _ _ => model_iff ua w v')). exact F.
Qed.
Lemma models_some y x : brand_means K d y x -> (dt_models64 x <> 0%N <-> yb_models (snd y) <> []).
Proof.
  intros (_ & _ & _ & [(V & _ & _ & E)|[(V & _ & _ & E & _)|(Nv & _ & E & _)]]); tauto.
Qed.
Lemma single_model y x m : brand_means K d y x -> dt_modelSI x <> (-1)%Z -> nth_error (dr_dm T) (Z.to_nat (dt_modelSI x)) = Some m ->
  yb_models (snd y) = [] /\ yb_model (snd y) <> [] /\ mt_type64 m = 0%N /\ text (dr_buf T) (mt_model64 m) (yb_model (snd y)).
Proof.
  intros (_ & _ & _ & V) Ni N. destruct V as [(_ & _ & E & _)|[(V1 & V2 & _ & _ & m' & N' & T0 & I)|(_ & E & _)]]; [contradiction| |contradiction].
  rewrite (df_dm _ _ _ _ DF), N' in N. injection N as <-. rewrite (df_buf _ _ _ _ DF). pose proof (interned_text _ _ _ okb I). auto.
Qed.
Lemma device_type_down ua y x def t : brand_means K d y x -> device_type_is T ua x def t -> db_device_type K ua (snd y) def t.
Proof.
  intros M H. pose proof M as (_ & It & _ & V). pose proof (interned_text _ _ _ okb It) as Tt. rewrite <- (df_buf _ _ _ _ DF) in Tt.
  destruct H as [ri m t Mi Ty|t Mi Z Ty|Mi Nz].
  - inversion Mi as [m' Ni N Em|m' Ei Ns F Em|]; subst.
    + destruct (single_model _ _ _ M Ni N) as (V1 & _ & T0 & _). rewrite T0 in Ty. destruct Ty as (s & Ts & H). apply text_zero in Ts as ->.
      destruct H as [[X _]|(_ & s' & Ts' & Tc)]; [contradiction|]. rewrite (text_fun _ _ _ _ Ts' Tt) in Tc. apply BT_entry; assumption.
    + destruct (models_first _ _ _ _ M Ns F) as (Nv & w & Fw & (_ & Iw & _) & _). pose proof (interned_text _ _ _ okb Iw) as Tw. rewrite <- (df_buf _ _ _ _ DF) in Tw.
      apply (BT_model _ _ _ _ w); [exact Nv|exact Fw|]. destruct Ty as (s & Ts & H). rewrite (text_fun _ _ _ _ Ts Tw) in H. destruct H as [H|(E & s' & Ts' & Tc)]; [left; exact H|right].
      split; [exact E|]. rewrite <- (text_fun _ _ _ _ Ts' Tt). exact Tc.
  - apply BT_entry.
    + destruct (yb_models (snd y)) eqn:Ev; [reflexivity|]. exfalso. apply (models_some _ _ M); [rewrite Ev; discriminate|exact Z].
    + destruct Ty as (s & Ts & H). rewrite (text_fun _ _ _ _ Ts Tt) in H. destruct H as [[_ H]|(E & s' & Ts' & Tc)]; [exact H|].
      apply text_zero in Ts' as ->. rewrite E. exact Tc.
  - inversion Mi as [| |Ei [Z|No]]; [contradiction|]. destruct (models_none _ _ _ M Nz No) as [Nv Nn]. apply BT_default; assumption.
Qed.
Lemma model_text_down ua y x s : brand_means K d y x -> brand_hit K ua y -> model_text T ua x s -> db_model K ua (snd y) s.
Proof.
  intros M Hit H. pose proof (brand_is_plain _ _ _ M Hit) as Pl. destruct H as [Mi|ri m s Mi L Tx|ri m r ms tpl out Mi L Nr Fr Tx Ex].
  - inversion Mi as [| |Ei Z]. destruct (N.eq_dec (dt_models64 x) 0) as [E0|N0].
    + destruct M as (_ & _ & _ & [(V1 & V2 & _ & _)|[(_ & _ & B & _)|(_ & _ & X & _)]]); [apply BM_none; assumption|lia|contradiction].
    + destruct Z as [Z|Z]; [contradiction|]. destruct (models_none _ _ _ M N0 Z) as [Nv Nn]. apply BM_no_model; assumption.
  - inversion Mi as [m' Ni N Em|m' Ei Ns F Em|]; subst.
    + destruct (single_model _ _ _ M Ni N) as (V1 & V2 & _ & Tm). rewrite (text_fun _ _ _ _ Tx Tm). apply BM_single_plain; [exact V1|exact V2|apply Pl; exact L].
    + destruct (models_first _ _ _ _ M Ns F) as (Nv & w & Fw & (Mw & _ & Iw) & Hw). pose proof (interned_text _ _ _ okb Iw) as Tw. rewrite <- (df_buf _ _ _ _ DF) in Tw.
      rewrite (text_fun _ _ _ _ Tx Tw). apply BM_list_plain; [exact Nv|exact Fw|]. apply (matches_plain K (k_device K) ci _ _ _ _ _ ua Mw Hw). exact L.
  - inversion Mi as [m' Ni N Em|m' Ei Ns F Em|]; subst.
    + destruct (single_model _ _ _ M Ni N) as (V1 & V2 & _ & Tm). rewrite (text_fun _ _ _ _ Tx Tm) in Ex. apply (BM_single _ _ _ ms); [exact V1|exact V2| |exact Ex].
      exact (brand_finds_down _ _ _ _ _ M L Nr Fr).
    + destruct (models_first _ _ _ _ M Ns F) as (Nv & w & Fw & (Mw & _ & Iw) & Hw). pose proof (interned_text _ _ _ okb Iw) as Tw. rewrite <- (df_buf _ _ _ _ DF) in Tw.
      rewrite (text_fun _ _ _ _ Tx Tw) in Ex. apply (BM_list _ _ _ w ms); [exact Nv|exact Fw| |exact Ex]. rewrite (df_re _ _ _ _ DF) in Nr.
      apply (matches_finds K (k_device K) ci _ _ _ _ _ ua ms Mw). eauto.
Qed.
Lemma built_device_sane : device_sane T.
Proof.
  split; [rewrite (df_re _ _ _ _ DF); apply Forall_forall; intros r I; apply in_map_iff in I as (p & <- & _); apply sane_compiled|].
  rewrite (df_dm _ _ _ _ DF), (df_buf _ _ _ _ DF). generalize (proj2 (df_ok _ _ _ _ DF)). apply Forall_impl. intros m (t & I & L & _) tpl Tx.
  rewrite (text_fun _ _ _ _ Tx (interned_text _ _ _ okb I)). exact L.
Qed.
Lemma device_types mC mD h ua t : short ua -> alone T mC mD h ua GDeviceType = Ok (VN t) ->
  (exists b idx def y, db_device_is K D mD ua b idx def y /\ db_device_type K ua (snd y) def t) \/
  (db_no_device K D mD ua /\ exists os, (on mD 1 -> alone T mC mD h ua GOS = Ok (VB os)) /\ db_fallback_type mD ua os t).
Proof.
  intros L H. destruct (device_type T mC mD h ua built_device_sane L t H) as [(b & idx & def & x & I & Ht)|(N & os & Os & F)].
  - left. destruct (device_is_down _ _ _ _ _ _ I) as (y & Iy & M & _). exists b, idx, def, y. split; [exact Iy|exact (device_type_down _ _ _ _ _ M Ht)].
  - right. split; [apply no_device_down; exact N|]. exists os. split; [exact Os|]. unfold fallback_type in F. rewrite (df_tablet _ _ _ _ DF), (df_mobile _ _ _ _ DF) in F. exact F.
Qed.
Lemma device_models mC mD h ua s : short ua -> alone T mC mD h ua GModel = Ok (VB s) ->
  (exists b idx def y w, db_device_is K D mD ua b idx def y /\ db_model K ua (snd y) w /\ trimmed w s) \/ (db_no_device K D mD ua /\ s = []).
Proof.
  intros L H. destruct (device_model T mC mD h ua built_device_sane L s H) as [(b & idx & def & x & w & I & Ht & Tr)|(N & E)].
  - left. destruct (device_is_down _ _ _ _ _ _ I) as (y & Iy & M & Hy & _). exists b, idx, def, y, w. split; [exact Iy|]. split; [exact (model_text_down _ _ _ _ M Hy Ht)|exact Tr].
  - right. split; [apply no_device_down; exact N|exact E].
Qed.
Lemma brand_name y x s : brand_means K d y x -> brand_proper y -> brand_is T x s -> trimmed (fst y) s.
Proof.
  intros (I & _) (Nn & _) H. pose proof (interned_text _ _ _ okb I) as Tx. rewrite <- (df_buf _ _ _ _ DF) in Tx.
  destruct H as [[E _]|[_ (w & Tw & Tr)]]; [exfalso; exact (text_nonzero _ _ _ Nn Tx E)|]. rewrite (text_fun _ _ _ _ Tx Tw). exact Tr.
Qed.
Lemma device_brands mC mD h ua s : short ua -> alone T mC mD h ua GBrand = Ok (VB s) ->
  (exists b idx def y, db_device_is K D mD ua b idx def y /\ trimmed (fst y) s) \/ (db_no_device K D mD ua /\ fallback_brand T ua s).
Proof.
  intros L H. destruct (device_brand T mC mD h ua built_device_sane L s H) as [(b & idx & def & x & I & Ht)|(N & E)].
  - left. destruct (device_is_down _ _ _ _ _ _ I) as (y & Iy & M & _ & P). exists b, idx, def, y. split; [exact Iy|exact (brand_name _ _ _ M P Ht)].
  - right. split; [apply no_device_down; exact N|exact E].
Qed.
End Device.

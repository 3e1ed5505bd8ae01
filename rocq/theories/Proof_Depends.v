(** Each answer depends on its own databases only. *)
From Verif Require Import Model_Base Model_CacheEntry Model_Version Model_Ctx Model_Parse Model_Compiler Model_Built Spec_Getters Spec_Depends
  Proof_Base Proof_Local Proof_Safe Proof_Getters Proof_Private.
Open Scope nat_scope.

Definition eq_client (T T' : tables) : Prop :=
  (cr_idx T, cr_re T, cr_ef T, cr_ev T, cr_evre T, cr_buf T, hr_idx T, hr_buf T, re_blink T) =
  (cr_idx T', cr_re T', cr_ef T', cr_ev T', cr_evre T', cr_buf T', hr_idx T', hr_buf T', re_blink T').
Definition eq_os (T T' : tables) : Prop := (or_os T, or_ov T, or_re T, or_buf T) = (or_os T', or_ov T', or_re T', or_buf T').
Definition eq_device (T T' : tables) : Prop :=
  (dr_idx T, dr_dm T, dr_re T, dr_buf T, vr_idx T, vr_re T, vr_buf T, re_tablet T, re_mobile T) =
  (dr_idx T', dr_dm T', dr_re T', dr_buf T', vr_idx T', vr_re T', vr_buf T', re_tablet T', re_mobile T').

Lemma client_same T T' g c : eq_client T T' -> client_question g -> run_getter T g c = run_getter T' g c.
Proof.
  destruct T, T'. unfold eq_client. cbn. intros E. injection E; intros; subst.
  repeat match goal with H : client_question _ |- _ => unfold client_question in H; cbn [In] in H | H : _ \/ _ |- _ => destruct H end; subst; try reflexivity. contradiction.
Qed.
Lemma os_same T T' g c : eq_os T T' -> os_question g -> run_getter T g c = run_getter T' g c.
Proof.
  destruct T, T'. unfold eq_os. cbn. intros E. injection E; intros; subst.
  repeat match goal with H : os_question _ |- _ => unfold os_question in H; cbn [In] in H | H : _ \/ _ |- _ => destruct H end; subst; try reflexivity. contradiction.
Qed.
Lemma same_parse_device T T' c : eq_os T T' -> eq_device T T' -> ensure flagDeviceDetect (parse_device T) c = ensure flagDeviceDetect (parse_device T') c.
Proof. destruct T, T'. unfold eq_os, eq_device. cbn. intros E E'. injection E; injection E'; intros; subst. reflexivity. Qed.
Lemma same_read_brand T T' c : eq_device T T' -> read_brand T c = read_brand T' c.
Proof. destruct T, T'. unfold eq_device. cbn. intros E'. injection E'; intros; subst. reflexivity. Qed.
Lemma pbind_same {A B} (p p' : P A) (f f' : A -> P B) : (forall c, p c = p' c) -> (forall a c, run_cold (f a c) = run_cold (f' a c)) ->
  forall c, run_cold (pbind p f c) = run_cold (pbind p' f' c).
Proof.
  intros H K c. unfold pbind. rewrite !run_cold_bind, H. destruct (run_cold (p' c)) as [c1 [a|]]; [apply K|reflexivity].
Qed.
Lemma device_same T T' g c : eq_os T T' -> eq_device T T' -> device_question g -> run_cold (run_getter T g c) = run_cold (run_getter T' g c).
Proof.
  intros EO ED Q. pose proof (fun c => same_parse_device T T' c EO ED) as Ep. pose proof (fun c => same_read_brand T T' c ED) as Er.
  assert (M : forall (A : Type) (f : A -> value) (p p' : P A), (forall c, run_cold (p c) = run_cold (p' c)) -> run_cold (pmap f p c) = run_cold (pmap f p' c)).
  { intros A f p p' H. unfold pmap, pbind. rewrite !run_cold_bind, H. reflexivity. }
  destruct Q as [<-|[<-|[<-|[]]]]; cbn [run_getter]; apply M; intros c'; apply pbind_same; auto;
    intros a c1; cbn [plift run_cold]; apply Er.
Qed.
Lemma built_client K D D' : same_clients D D' -> eq_client (built K D) (built K D').
Proof. destruct D, D'. intros [E1 E2]. cbn in E1, E2. subst. reflexivity. Qed.
Lemma built_os K D D' : same_os D D' -> eq_os (built K D) (built K D').
Proof. destruct D, D'. unfold same_os. cbn. intros E1. subst. reflexivity. Qed.
Lemma built_device K D D' : same_devices D D' -> eq_device (built K D) (built K D').
Proof. destruct D, D'. intros [E1 E2]. cbn in E1, E2. subst. reflexivity. Qed.

Lemma client_depends K D D' mC mD h ua g : same_clients D D' -> client_question g ->
  alone (built K D) mC mD h ua g = alone (built K D') mC mD h ua g.
Proof. intros S Q. unfold alone. rewrite (client_same _ _ g _ (built_client K D D' S) Q). reflexivity. Qed.
Lemma os_depends K D D' mC mD h ua g : same_os D D' -> os_question g ->
  alone (built K D) mC mD h ua g = alone (built K D') mC mD h ua g.
Proof. intros S Q. unfold alone. rewrite (os_same _ _ g _ (built_os K D D' S) Q). reflexivity. Qed.
Lemma device_depends K D D' mC mD h ua g : same_devices D D' -> same_os D D' -> device_question g ->
  alone (built K D) mC mD h ua g = alone (built K D') mC mD h ua g.
Proof. intros S O Q. unfold alone. rewrite (device_same _ _ g _ (built_os K D D' O) (built_device K D D' S) Q). reflexivity. Qed.

(** ** Brand and model do not depend on the operating systems *)
Section Brand.
Variables T T' : tables.
Hypothesis E : eq_device T T'.
Definition maker (c : ctx) := (c_src c, c_brand c, bit flagVendorFragment c, c_model c, c_buf c).

Lemma inner_maker b js : forall c d, maker c = maker d ->
  maker (fst (vendor_inner T b js c)) = maker (fst (vendor_inner T b js d)) /\ snd (vendor_inner T b js c) = snd (vendor_inner T b js d).
Proof.
  induction js as [|j js IH]; intros c d M; cbn [vendor_inner]; [split; [exact M|reflexivity]|].
  unfold mbind, mlift, mget, mmod, mret. destruct (index (vr_re T) j) as [re|]; [|split; [exact M|reflexivity]].
  assert (Es : c_src c = c_src d) by (unfold maker in M; congruence). rewrite <- Es.
  destruct (re_match re (c_src c)); [|apply IH; exact M]. apply IH. clear IH Es.
  destruct c, d. unfold maker, bit in *. cbn in *. injection M; intros; subst.
  rewrite !check_set_same. reflexivity.
Qed.

Lemma loop_maker l : forall c d, maker c = maker d ->
  maker (fst (vendor_loop T l c)) = maker (fst (vendor_loop T l d)) /\ snd (vendor_loop T l c) = snd (vendor_loop T l d).
Proof.
  induction l as [|v l IH]; intros c d M; cbn [vendor_loop]; [split; [exact M|reflexivity]|].
  unfold mbind. destruct (inner_maker (vt_brand64 v) (nrange (fst (e_decode (vt_range64 v))) (snd (e_decode (vt_range64 v)))) c d M) as [M1 R1].
  destruct (vendor_inner T _ _ c) as [c1 r1], (vendor_inner T _ _ d) as [d1 r2]. cbn [fst snd] in *. subst r2.
  destruct r1; [apply IH; exact M1|split; [exact M1|reflexivity]].
Qed.
Lemma fallback_maker c d : maker c = maker d ->
  maker (fst (device_fallback T c)) = maker (fst (device_fallback T d)) /\ snd (device_fallback T c) = snd (device_fallback T d).
Proof.
  intros M. unfold device_fallback, mbind, mget, mmod, mret.
  assert (Es : c_src c = c_src d) by (unfold maker in M; congruence).
  assert (Eb : c_brand c = c_brand d) by (unfold maker in M; congruence). rewrite <- Es.
  destruct (re_match (re_tablet T) (c_src c)); [split; [revert M; unfold maker, bit; cbn; intros M; exact M|reflexivity]|].
  destruct (re_match (re_mobile T) (c_src c)); [split; [revert M; unfold maker, bit; cbn; intros M; exact M|reflexivity]|].
  rewrite <- Eb. destruct (c_brand c =? 0)%N; [|split; [exact M|reflexivity]].
  unfold eval_vendor. destruct (loop_maker (vr_idx T) c d M) as [M1 R1].
  destruct (vendor_loop T (vr_idx T) c) as [c1 r1], (vendor_loop T (vr_idx T) d) as [d1 r2]. cbn [fst snd] in *. subst r2.
  destruct r1; split; auto.
Qed.
End Brand.

Section Maker.
Variables T T' : tables.
Hypothesis E : eq_device T T'.
Lemma e_try c : dev_try T first7 c = dev_try T' first7 c.
Proof. revert E. destruct T, T'. unfold eq_device. cbn. intros X. injection X; intros; subst. reflexivity. Qed.
Lemma e_body idx def c : eval_device_body T idx def c = eval_device_body T' idx def c.
Proof. revert E. destruct T, T'. unfold eq_device. cbn. intros X. injection X; intros; subst. reflexivity. Qed.
Lemma e_fallback c : device_fallback T c = device_fallback T' c.
Proof. revert E. destruct T, T'. unfold eq_device. cbn. intros X. injection X; intros; subst. reflexivity. Qed.

Lemma force_maker (U : tables) idx r c : maker (fst (run_cold (force_desktop U idx r c))) = maker c.
Proof.
  unfold force_desktop.
  assert (H : maker (fst (run_cold ((if idx =? dpNotebook then
        (os <- get_os U ;;
         if in_list os desktopOS then plift (mmod (set_flag flagDeviceForceDesktop)) else pret tt)%p
      else pret tt) c))) = maker c).
  { destruct (idx =? dpNotebook); [|reflexivity]. unfold pbind. rewrite run_cold_bind.
    destruct (cold_get_os U c) as (V & B & M & _). destruct (run_cold (get_os U c)) as [c1 [os|]]; cbn [fst] in *.
    - destruct (in_list os desktopOS); cbn [plift mmod pret run_cold fst].
      + unfold maker, device_view, device_part, bit in *. cbn [c_src c_brand c_bits c_model c_buf set_flag up_bits].
        rewrite check_set_other by discriminate. congruence.
      + unfold maker, device_view, device_part in *. congruence.
    - unfold maker, device_view, device_part in *. cbn. congruence. }
  destruct r as [[n|]|]; [reflexivity|exact H|exact H].
Qed.

Lemma notebook_run (U : tables) c :
  run_cold (device_try U [notebook_class] c) =
  if negb (N.land (c_maskD c) DeviceTypeNotebook =? 0)%N then
    let '(c1, r1) := eval_device_body U dpNotebook DeviceTypeNotebook c in
    match run_cold (force_desktop U dpNotebook r1 c1) with
    | (c2, Ok _) => match r1 with
                    | Ok (Some typ) => (up_deviceType typ c2, Ok true)
                    | Ok None => (c2, Ok false)
                    | Panic => (c2, Panic)
                    end
    | (c2, Panic) => (c2, Panic)
    end
  else (c, Ok false).
Proof.
  cbn [device_try notebook_class]. unfold pbind, plift, mget. cbn [prog_bind].
  destruct (negb _); [|reflexivity].
  rewrite run_cold_bind. unfold eval_device, pdefer, plift. cbn [prog_bind].
  destruct (eval_device_body U dpNotebook DeviceTypeNotebook c) as [c1 r1]. cbn [run_cold]. rewrite !run_cold_bind.
  destruct (run_cold (force_desktop U dpNotebook r1 c1)) as [c2 [u|]]; [|reflexivity].
  destruct r1 as [[typ|]|]; reflexivity.
Qed.
Lemma notebook_maker c :
  snd (run_cold (device_try T [notebook_class] c)) <> Panic -> snd (run_cold (device_try T' [notebook_class] c)) <> Panic ->
  maker (fst (run_cold (device_try T [notebook_class] c))) = maker (fst (run_cold (device_try T' [notebook_class] c))) /\
  snd (run_cold (device_try T [notebook_class] c)) = snd (run_cold (device_try T' [notebook_class] c)).
Proof.
  rewrite !notebook_run, <- e_body. destruct (negb _); [|intros _ _; split; reflexivity].
  destruct (eval_device_body T dpNotebook DeviceTypeNotebook c) as [c1 r1].
  pose proof (force_maker T dpNotebook r1 c1) as M1. pose proof (force_maker T' dpNotebook r1 c1) as M2.
  destruct (run_cold (force_desktop T dpNotebook r1 c1)) as [c2 [u|]]; [|intros P; elim P; reflexivity].
  destruct (run_cold (force_desktop T' dpNotebook r1 c1)) as [d2 [u'|]]; [|intros _ P; elim P; reflexivity].
  cbn [fst] in *. intros _ _. destruct r1 as [[typ|]|]; cbn; [|split; [congruence|reflexivity]..].
  split; [|reflexivity]. unfold maker, bit in *. cbn. congruence.
Qed.
Lemma body_maker c :
  snd (run_cold (device_body T c)) <> Panic -> snd (run_cold (device_body T' c)) <> Panic ->
  maker (fst (run_cold (device_body T c))) = maker (fst (run_cold (device_body T' c))).
Proof.
  rewrite !cold_body, <- e_try. destruct (dev_try T first7 c) as [c1 [[|]|]]; [intros _ _; reflexivity| |intros P; elim P; reflexivity].
  pose proof (notebook_maker c1) as N.
  destruct (run_cold (device_try T [notebook_class] c1)) as [c2 r2], (run_cold (device_try T' [notebook_class] c1)) as [d2 q2]. cbn [fst snd] in N.
  destruct r2 as [ok|]; [|intros P; elim P; reflexivity]. destruct q2 as [ok'|]; [|intros _ P; elim P; reflexivity].
  destruct N as [M R]; [discriminate..|]. injection R as <-. intros _ _. destruct ok; [exact M|].
  cbn [plift run_cold]. rewrite <- e_fallback. apply fallback_maker. exact M.
Qed.
Lemma ensure_cold (U : tables) mC mD h ua :
  run_cold (ensure flagDeviceDetect (parse_device U) (fresh_ctx mC mD h ua)) =
  match run_cold (device_body U (fresh_ctx mC mD h ua)) with
  | (c, Ok _) => (set_flag flagDeviceDetect c, Ok tt)
  | (c, Panic) => (set_flag flagDeviceDetect c, Panic)
  end.
Proof.
  unfold ensure. rewrite (eq_refl : check_bit (c_bits (fresh_ctx mC mD h ua)) flagDeviceDetect = false).
  unfold pbind. rewrite run_cold_bind. unfold parse_device, pbind. cbn [pcget prog_bind run_cold].
  unfold pdefer. rewrite run_cold_bind. destruct (run_cold (device_body U (fresh_ctx mC mD h ua))) as [c1 [b|]]; cbn; reflexivity.
Qed.
Lemma maker_answers mC mD h ua g : In g [GBrand; GModel] ->
  alone T mC mD h ua GDeviceType <> Panic -> alone T' mC mD h ua GDeviceType <> Panic ->
  alone T mC mD h ua g = alone T' mC mD h ua g.
Proof.
  intros Q P P'. pose proof (body_maker (fresh_ctx mC mD h ua)) as M. revert P P'. unfold alone. cbn [run_getter].
  unfold pmap, pbind, get_device_type. unfold pbind. rewrite !run_cold_bind, !ensure_cold.
  destruct (run_cold (device_body T (fresh_ctx mC mD h ua))) as [c r] eqn:Ec, (run_cold (device_body T' (fresh_ctx mC mD h ua))) as [d q] eqn:Ed.
  cbn [fst snd] in M. destruct r as [b|]; [|intros X; elim X; reflexivity]. destruct q as [b'|]; [|intros _ X; elim X; reflexivity].
  intros _ _. specialize (M ltac:(discriminate) ltac:(discriminate)).
  destruct Q as [<-|[<-|[]]]; cbn [run_getter]; unfold pmap, get_brand, get_model, pbind; rewrite !run_cold_bind, !ensure_cold, Ec, Ed;
    cbn [plift run_cold].
  - rewrite <- (same_read_brand T T' _ E). unfold read_brand, mbind, mget, mlift, mret.
    assert (B1 : c_brand (set_flag flagDeviceDetect c) = c_brand (set_flag flagDeviceDetect d)) by (unfold maker in M; cbn; congruence).
    assert (B2 : check_bit (c_bits (set_flag flagDeviceDetect c)) flagVendorFragment = check_bit (c_bits (set_flag flagDeviceDetect d)) flagVendorFragment).
    { unfold maker, bit in M. cbn [set_flag up_bits c_bits]. rewrite !check_set_other by discriminate. congruence. }
    rewrite B1. destruct (negb (c_brand (set_flag flagDeviceDetect d) =? 0)%N); [|reflexivity]. rewrite B2.
    destruct (slice64 _ _); reflexivity.
  - unfold read_model, mbind, mget, mlift, mret.
    assert (B1 : c_model (set_flag flagDeviceDetect c) = c_model (set_flag flagDeviceDetect d)) by (unfold maker in M; cbn; congruence).
    assert (B2 : c_buf (set_flag flagDeviceDetect c) = c_buf (set_flag flagDeviceDetect d)) by (unfold maker in M; cbn; congruence).
    rewrite B1. destruct (negb (c_model (set_flag flagDeviceDetect d) =? 0)%N); [|reflexivity]. rewrite B2.
    destruct (slice64 _ _); reflexivity.
Qed.
End Maker.
Lemma maker_depends K D D' mC mD h ua g : same_devices D D' -> In g [GBrand; GModel] ->
  alone (built K D) mC mD h ua GDeviceType <> Panic -> alone (built K D') mC mD h ua GDeviceType <> Panic ->
  alone (built K D) mC mD h ua g = alone (built K D') mC mD h ua g.
Proof. intros S. apply maker_answers. apply built_device. exact S. Qed.

(** The theorems on operating systems, devices, pooled contexts and recovered panics, in the form of the properties. *)
From Verif Require Import Model_Base Model_CacheEntry Model_Version Model_Ctx Model_Parse Model_Cache Spec_Version
  Spec_Getters Spec_Select Proof_Base Proof_Local Proof_Safe Proof_Getters Proof_Select Proof_Client Proof_OS Proof_Device
  Proof_Private Proof_Repeat Proof_Blind Proof_Choice.
From Coq Require Import Lia ZifyBool ZifyNat ZifyN.

(** ** Operating systems *)
Lemma os_is_unique T ua x y : os_is T ua x -> os_is T ua y -> x = y.
Proof. apply first_unique. Qed.

Lemma os_reports T mC mD h ua : os_sane T -> small ua ->
  (forall s, alone T mC mD h ua GOS = Ok (VB s) ->
     (no_os T ua -> s = bs "UNK") /\ (forall x, os_is T ua x -> os_name_is T ua x s) /\ (no_os T ua \/ exists x, os_is T ua x)) /\
  (forall s, alone T mC mD h ua GOSVersionString = Ok (VB s) ->
     (no_os T ua -> s = []) /\ (forall x, os_is T ua x -> exists v, os_version_is T ua x v /\ dotted v s)).
Proof.
  intros S L. split; intros s H.
  - destruct (os_name T mC mD h ua S L s H) as [[N ->]|(x & I & Hn)].
    + split; [auto|]. split; [|auto]. intros x I. destruct (first_none _ _ _ I N).
    + split; [intros N; destruct (first_none _ _ _ I N)|]. split; [|eauto].
      intros y Iy. rewrite <- (os_is_unique _ _ _ _ I Iy). exact Hn.
  - destruct (os_version T mC mD h ua S L s H) as [[N ->]|(x & v & I & Hv & D)].
    + split; [auto|]. intros x I. destruct (first_none _ _ _ I N).
    + split; [intros N; destruct (first_none _ _ _ I N)|].
      intros y Iy. rewrite <- (os_is_unique _ _ _ _ I Iy). eauto.
Qed.

Lemma dotted_clean v s : dotted v s -> ~ In x5f s.
Proof.
  intros [L H] I. apply In_nth_error in I as [i E].
  assert (Hi : (i < length v)%nat) by (rewrite <- L; apply nth_error_Some; congruence).
  destruct (nth_error v i) as [b|] eqn:Ev; [|apply nth_error_None in Ev; lia].
  destruct (H i b Ev) as [H1 H2]. destruct (beq b x5f) eqn:B.
  - apply beq_eq in B. specialize (H1 B). congruence.
  - apply beq_neq in B. specialize (H2 B). congruence.
Qed.
Lemma os_version_clean T mC mD h ua s : os_sane T -> small ua -> alone T mC mD h ua GOSVersionString = Ok (VB s) ->
  ~ In x5f s /\
  exists v, (no_os T ua /\ v = [] \/ exists x, os_is T ua x /\ os_version_is T ua x v) /\ dotted v s.
Proof.
  intros S L H. destruct (os_version T mC mD h ua S L s H) as [[N ->]|(x & v & I & Hv & D)].
  - split; [intros []|]. exists []. split; [auto|]. split; [reflexivity|]. intros [|i] b Hb; discriminate Hb.
  - split; [exact (dotted_clean _ _ D)|]. exists v. split; [|exact D]. right. eauto.
Qed.

(** ** Devices *)
Lemma device_is_unique T mD ua b idx d x b' idx' d' x' :
  device_is T mD ua b idx d x -> device_is T mD ua b' idx' d' x' -> b = b' /\ idx = idx' /\ d = d' /\ x = x'.
Proof.
  intros (b1 & a1 & ir1 & E1 & S1 & O1 & I1 & F1) (b2 & a2 & ir2 & E2 & S2 & O2 & I2 & F2).
  assert (forall b1 b2 a1 a2 t idx d ir x t' idx' d' ir' x', b1 ++ (t, idx, d) :: a1 = b2 ++ (t', idx', d') :: a2 ->
    Forall (device_silent T mD ua) b2 -> on mD t -> nth_error (dr_idx T) idx = Some ir -> first (device_applies T ua) ir x ->
    Forall (device_silent T mD ua) b1 -> on mD t' -> nth_error (dr_idx T) idx' = Some ir' -> first (device_applies T ua) ir' x' ->
    t = t' /\ idx = idx' /\ d = d' /\ x = x') as K.
  { clear. induction b1 as [|k b1 IH]; intros [|k' b2] a1 a2 t idx d ir x t' idx' d' ir' x' E S2 O I F S1 O' I' F'; cbn in E; injection E; intros.
    - subst. rewrite I in I'. injection I' as ->. do 3 (split; [reflexivity|]). exact (first_unique _ _ _ _ F F').
    - subst k'. inversion S2 as [|? ? Hs _]; subst. destruct (Hs O) as (ir2 & I2 & N2). cbn in I2. rewrite I in I2. injection I2 as <-.
      destruct (first_none _ _ _ F N2).
    - subst k. inversion S1 as [|? ? Hs _]; subst. destruct (Hs O') as (ir2 & I2 & N2). cbn in I2. rewrite I' in I2. injection I2 as <-.
      destruct (first_none _ _ _ F' N2).
    - subst k'. inversion S1; inversion S2; subst. eapply IH; eassumption. }
  rewrite E1 in E2. eapply K; eassumption.
Qed.
Lemma device_is_some T mD ua b idx d x : device_is T mD ua b idx d x -> ~ no_device T mD ua.
Proof.
  intros (b1 & a & ir & E & S & O & I & F) N. unfold no_device in N. rewrite E, Forall_app in N. destruct N as [_ N].
  inversion N as [|? ? Hs _]; subst. destruct (Hs O) as (ir2 & I2 & N2). cbn in I2. rewrite I in I2. injection I2 as <-.
  exact (first_none _ _ _ F N2).
Qed.

Lemma device_reports T mC mD h ua : device_sane T -> short ua ->
  (forall t, alone T mC mD h ua GDeviceType = Ok (VN t) ->
     (forall b idx def x, device_is T mD ua b idx def x -> device_type_is T ua x def t) /\
     (no_device T mD ua -> exists os, (on mD 1 -> alone T mC mD h ua GOS = Ok (VB os)) /\ fallback_type T mD ua os t) /\
     (no_device T mD ua \/ exists b idx def x, device_is T mD ua b idx def x)) /\
  (forall s, alone T mC mD h ua GBrand = Ok (VB s) ->
     (forall b idx def x, device_is T mD ua b idx def x -> brand_is T x s) /\
     (no_device T mD ua -> fallback_brand T ua s)).
Proof.
  intros S L. split; intros s H.
  - destruct (device_type T mC mD h ua S L s H) as [(b & idx & d & x & I & Ht)|[N F]].
    + split; [|split; [intros N; destruct (device_is_some _ _ _ _ _ _ _ I N)|right; eauto]].
      intros b' idx' d' x' I'. destruct (device_is_unique _ _ _ _ _ _ _ _ _ _ _ I I') as (_ & _ & <- & <-). exact Ht.
    + split; [intros b idx d x I; destruct (device_is_some _ _ _ _ _ _ _ I N)|]. auto.
  - destruct (device_brand T mC mD h ua S L s H) as [(b & idx & d & x & I & Ht)|[N F]].
    + split; [|intros N; destruct (device_is_some _ _ _ _ _ _ _ I N)].
      intros b' idx' d' x' I'. destruct (device_is_unique _ _ _ _ _ _ _ _ _ _ _ I I') as (_ & _ & _ & <-). exact Ht.
    + split; [intros b idx d x I; destruct (device_is_some _ _ _ _ _ _ _ I N)|]. auto.
Qed.

Lemma model_reports T mC mD h ua s : device_sane T -> short ua -> alone T mC mD h ua GModel = Ok (VB s) ->
  (forall b idx def x, device_is T mD ua b idx def x -> exists w, model_text T ua x w /\ trimmed w s) /\
  (no_device T mD ua -> s = []).
Proof.
  intros S L H. destruct (device_model T mC mD h ua S L s H) as [(b & idx & d & x & w & I & Ht & Tr)|[N F]].
  - split; [|intros N; destruct (device_is_some _ _ _ _ _ _ _ I N)].
    intros b' idx' d' x' I'. destruct (device_is_unique _ _ _ _ _ _ _ _ _ _ _ I I') as (_ & _ & _ & <-). eauto.
  - split; [intros b idx d x I; destruct (device_is_some _ _ _ _ _ _ _ I N)|]. auto.
Qed.

(** Where a type outside the mask can come from. *)
Lemma device_type_origin T mC mD h ua t : device_sane T -> short ua -> alone T mC mD h ua GDeviceType = Ok (VN t) ->
  t = 0%N \/ on mD t \/
  (t = 8%N /\ re_find (re_tablet T) ua <> None /\ no_device T mD ua) \/
  (t = 2%N /\ re_find (re_mobile T) ua <> None /\ no_device T mD ua) \/
  (t = 1%N /\ on mD 512) \/
  (In t [2; 4; 8; 16; 32; 512]%N /\ exists b idx def x, device_is T mD ua b idx def x).
Proof.
  intros S L H. destruct (device_type T mC mD h ua S L t H) as [(b & idx & d & x & I & Ht)|[N (os & _ & F)]].
  - assert (D : on mD d \/ d = 1%N /\ on mD 512).
    { destruct I as (b1 & a1 & ir & E & _ & O & _). assert (Hk : In (b, idx, d) device_order) by (rewrite E; apply in_or_app; right; left; reflexivity).
      clear - Hk O. cbn in Hk. destruct Hk as [Hk|[Hk|[Hk|[Hk|[Hk|[Hk|[Hk|[Hk|[]]]]]]]]]; injection Hk as Ea Eb Ec; subst b d; auto. }
    assert (Tc : forall s d t, type_called s d t -> t = d \/ In t [2; 4; 8; 16; 32; 512]%N).
    { intros s d0 t0 [Hs|[_ ->]]; [|auto]. right. cbn in Hs.
      destruct Hs as [Hs|[Hs|[Hs|[Hs|[Hs|[Hs|[]]]]]]]; apply (f_equal snd) in Hs; cbn [snd] in Hs; subst t0; cbn; tauto. }
    assert (Tf : forall a o d t, type_from T a o d t -> t = d \/ In t [2; 4; 8; 16; 32; 512]%N).
    { intros a o d0 t0 (s & _ & [[_ Hs]|[_ (s' & _ & Hs)]]); eauto. }
    assert (Q : t = d \/ In t [2; 4; 8; 16; 32; 512]%N).
    { destruct Ht as [ri m t Hm Ht|t Hm _ Ht|Hm _]; [eauto|eauto|auto]. }
    destruct Q as [->|Q].
    + destruct D as [D|[-> D]]; [auto|]. do 4 right. left. auto.
    + do 5 right. split; [exact Q|]. eauto.
  - destruct F as [(O & _ & ->)|(_ & [(A & ->)|[(_ & A & ->)|(_ & _ & ->)]])]; auto 7.
Qed.
Lemma tablet_unmasked T ua : match alone T 63 0 0 ua GDeviceType with Ok (VN t) => (t =? 8)%N | _ => false end = true ->
  exists T mC mD ua t, alone T mC mD 0 ua GDeviceType = Ok (VN t) /\ t <> 0%N /\ ~ on mD t.
Proof.
  intros H. exists T, 63%N, 0%N, ua, 8%N. destruct (alone T 63 0 0 ua GDeviceType) as [[t| |]|]; try discriminate.
  apply N.eqb_eq in H. subst t. split; [reflexivity|]. split; [discriminate|]. intros O. apply O. reflexivity.
Qed.
Lemma number_case T mC mD h ua g t : match alone T mC mD h ua g with Ok (VN t') => (t' =? t)%N | _ => false end = true ->
  alone T mC mD h ua g = Ok (VN t).
Proof. destruct (alone T mC mD h ua g) as [[n| |]|]; try discriminate. intros H. apply N.eqb_eq in H. congruence. Qed.

(** ** Pool and setters *)
Lemma reset_new c : ctx_reset c = new_ctx.
Proof. destruct c as [? ? ? ? ? ? ? ? ? [] ? ? [] ? ? ? ? ? []]. reflexivity. Qed.
Lemma pool_clean p : pool_reach p -> Forall (fun c => c = new_ctx) p.
Proof.
  induction 1 as [|p c H IH|p c p' H IH G|p p' H IH G].
  - constructor.
  - constructor; [apply reset_new|exact IH].
  - destruct G as [p1 c p2|p]; [|exact IH]. rewrite Forall_app in *. destruct IH as [A B]. inversion B. split; assumption.
  - destruct G as (p1 & c & p2 & -> & ->). rewrite Forall_app in *. destruct IH as [A B]. inversion B. split; assumption.
Qed.
Lemma pool_gives p c p' : pool_reach p -> pool_get p c p' -> c = new_ctx.
Proof.
  intros H G. apply pool_clean in H. destruct G as [p1 c p2|p]; [|reflexivity].
  rewrite Forall_app in H. destruct H as [_ H]. inversion H. assumption.
Qed.
Lemma pool_behaves p c p' : pool_reach p -> pool_get p c p' ->
  c = new_ctx /\ get_user_agent c = [] /\
  (forall T mC mD l, script T mC mD l c = script T mC mD l new_ctx) /\
  (forall src, set_user_agent src c = new_ctx_with_src src).
Proof. intros H G. rewrite (pool_gives p c p' H G). repeat split. Qed.

Lemma setter_state ua c :
  set_user_agent ua c = set_user_agent ua (filter_device_type (c_maskD c) (filter_client_type (c_maskC c) new_ctx)).
Proof. destruct c as [? ? ? ? ? ? ? ? ? [] ? ? [] ? ? ? ? ? []]. reflexivity. Qed.
Lemma setter_fresh ua c :
  get_user_agent (set_user_agent ua c) = ua /\
  set_user_agent ua c = fresh_ctx (c_maskC c) (c_maskD c) 0 ua /\
  (forall c', c_maskC c = c_maskC c' -> c_maskD c = c_maskD c' ->
     forall T mC mD l, script T mC mD (ASetUA ua :: l) c = script T mC mD (ASetUA ua :: l) c').
Proof.
  assert (K : forall c, set_user_agent ua c = fresh_ctx (c_maskC c) (c_maskD c) 0 ua).
  { intros c0. destruct c0 as [? ? ? ? ? ? ? ? ? [] ? ? [] ? ? ? ? ? []]. reflexivity. }
  split; [rewrite K; reflexivity|]. split; [apply K|]. intros c' E1 E2 T mC mD l. cbn [script].
  rewrite (K c), (K c'), E1, E2. reflexivity.
Qed.
Lemma setter_loses header ua c : set_user_agent ua (set_requested_with header c) = set_user_agent ua c.
Proof. destruct header; reflexivity. Qed.
Lemma setter_order T header ua c g : g <> GBrowser ->
  answer T (set_user_agent ua (set_requested_with header c)) g = answer T (set_requested_with header (set_user_agent ua c)) g.
Proof.
  intros Hg. rewrite setter_loses. rewrite (setter_state ua c). unfold answer.
  pose proof (setting_ignored T (c_maskC c) (c_maskD c) 0 ua g (c_maskC c) (c_maskD c) (match header with [] => 0%N | _ => fnv1 header end)) as E.
  assert (E' : alone T (c_maskC c) (c_maskD c) (match header with [] => 0%N | _ => fnv1 header end) ua g = alone T (c_maskC c) (c_maskD c) 0 ua g).
  { apply E; [destruct g; try discriminate; contradiction|reflexivity|reflexivity]. }
  symmetry. destruct header; exact E'.
Qed.
Lemma order_case T header ua name1 name2 :
  is_bytes (answer T (set_user_agent ua (set_requested_with header new_ctx)) GBrowser) name1 = true ->
  is_bytes (answer T (set_requested_with header (set_user_agent ua new_ctx)) GBrowser) name2 = true -> name1 <> name2 ->
  exists T header ua g, answer T (set_user_agent ua (set_requested_with header new_ctx)) g <>
                        answer T (set_requested_with header (set_user_agent ua new_ctx)) g.
Proof.
  intros A B N. exists T, header, ua, GBrowser. revert A B.
  generalize (answer T (set_user_agent ua (set_requested_with header new_ctx)) GBrowser)
    (answer T (set_requested_with header (set_user_agent ua new_ctx)) GBrowser).
  intros r1 r2 A B. apply is_bytes_ok in A. apply is_bytes_ok in B. rewrite A, B. intros [= E]. contradiction.
Qed.

(** ** Recovered panics *)
Lemma client_try_panic T : forall l c c', client_try T l c = (c', Panic) -> c_clientType c' = c_clientType c.
Proof.
  induction l as [|[t idx] l IH]; intros c c' E; cbn [client_try] in E; [discriminate|].
  unfold mbind, mget in E. destruct (negb (N.land (c_maskC c) t =? 0)%N); [|exact (IH _ _ E)].
  destruct (keepsC_eval T idx c) as [K1 K2]. destruct (eval_client T idx c) as [c1 [[|]|]]; cbn [fst] in *.
  - discriminate E.
  - rewrite <- K2. exact (IH _ _ E).
  - injection E as <-. exact K2.
Qed.

Lemma cold_then_row T mC mD h ua rs c o ev :
  run_getters T [GClientType] (fresh_ctx mC mD h ua) None [] = (rs, c, o, ev) ->
  rs = [alone T mC mD h ua GClientType] /\ o = Some (from_ctx (set_flag flagClientDetect (fst (client_end T mC mD h ua)))).
Proof.
  rewrite alone_client_type. unfold client_end. cbn [run_getters run_getter]. unfold pmap, get_client_type, ensure, parse_client, pdefer, finish, pbind, plift, pret, pcget, pcset.
  cbn [run_priv prog_bind fresh_ctx c_bits check_bit]. change (check_bit 0 flagClientDetect) with false. cbv iota.
  cbn [run_priv prog_bind]. destruct (client_try T client_classes (fresh_ctx mC mD h ua)) as [c1 [b|]];
    cbn [run_priv prog_bind mmod fst snd]; intros [= <- _ <- _]; split; reflexivity.
Qed.
Lemma row_then_type T mC mD h ua e rs c o ev : check_bit (e_bits e) flagClientDetect = true ->
  run_getters T [GClientType] (fresh_ctx mC mD h ua) (Some e) [] = (rs, c, o, ev) -> rs = [Ok (VN (e_clientType e))].
Proof.
  intros B. cbn [run_getters run_getter]. unfold pmap, get_client_type, ensure, parse_client, pbind, plift, pret, pcget.
  change (check_bit (c_bits (fresh_ctx mC mD h ua)) flagClientDetect) with false. cbv iota.
  cbn [run_priv prog_bind]. rewrite B. cbn [run_priv prog_bind mmod fst snd]. intros [= <- _ _ _]. reflexivity.
Qed.
Lemma poison T mC mD h ua rs c o ev rs' c' o' ev' :
  alone T mC mD h ua GClientType = Panic ->
  run_getters T [GClientType] (fresh_ctx mC mD h ua) None [] = (rs, c, o, ev) ->
  run_getters T [GClientType] (fresh_ctx mC mD h ua) o [] = (rs', c', o', ev') ->
  rs = [Panic] /\ rs' = [Ok (VN 0)].
Proof.
  intros P H1 H2. apply cold_then_row in H1 as [-> ->]. rewrite P. split; [reflexivity|].
  apply row_then_type in H2; [|cbn; apply check_set_same]. rewrite H2. cbn [e_clientType from_ctx set_flag up_bits c_clientType].
  rewrite alone_client_type in P. destruct (snd (client_end T mC mD h ua)) eqn:E; [discriminate|].
  assert (H : client_try T client_classes (fresh_ctx mC mD h ua) = (fst (client_end T mC mD h ua), Panic)).
  { rewrite <- E. unfold client_end. destruct (client_try T client_classes (fresh_ctx mC mD h ua)); reflexivity. }
  apply client_try_panic in H. change (c_clientType (set_flag flagClientDetect (fst (client_end T mC mD h ua)))) with (c_clientType (fst (client_end T mC mD h ua))).
  rewrite H. reflexivity.
Qed.
Lemma poison_case T ua mC : match alone T mC 1023 0 ua GClientType with Panic => true | _ => false end = true ->
  exists T mC mD ua rs c o ev rs' c' o' ev',
    run_getters T [GClientType] (fresh_ctx mC mD 0 ua) None [] = (rs, c, o, ev) /\
    run_getters T [GClientType] (fresh_ctx mC mD 0 ua) o [] = (rs', c', o', ev') /\ rs <> rs'.
Proof.
  intros H. destruct (alone T mC 1023 0 ua GClientType) eqn:P; [discriminate|].
  destruct (run_getters T [GClientType] (fresh_ctx mC 1023 0 ua) None []) as [[[rs c] o] ev] eqn:E1.
  destruct (run_getters T [GClientType] (fresh_ctx mC 1023 0 ua) o []) as [[[rs' c'] o'] ev'] eqn:E2.
  exists T, mC, 1023%N, ua, rs, c, o, ev, rs', c', o', ev'. split; [exact E1|]. split; [exact E2|].
  destruct (poison _ _ _ _ _ _ _ _ _ _ _ _ _ P E1 E2) as [-> ->]. discriminate.
Qed.

(** ** Names *)
Lemma client_names t :
  (client_type_string t <> bs "UNK" <-> In t [1; 2; 4; 8; 16; 32]%N) /\
  (forall t', In t [1; 2; 4; 8; 16; 32]%N -> client_type_string t = client_type_string t' -> t = t').
Proof.
  assert (D : forall t, In t [1; 2; 4; 8; 16; 32]%N \/ (client_type_string t = bs "UNK" /\ ~ In t [1; 2; 4; 8; 16; 32]%N)).
  { intros u. unfold client_type_string.
    repeat match goal with |- context [(u =? ?k)%N] => destruct (N.eqb_spec u k) as [->|?]; [left; cbn; tauto|] end.
    right. split; [reflexivity|]. cbn. intros [H|[H|[H|[H|[H|[H|[]]]]]]]; subst u; unfold ClientTypeBrowser, ClientTypeMobileApp, ClientTypeLibrary, ClientTypeFeedReader, ClientTypeMediaPlayer, ClientTypePIM in *; congruence. }
  split.
  - destruct (D t) as [I|[E N]].
    + split; [auto|]. intros _. cbn in I. destruct I as [<-|[<-|[<-|[<-|[<-|[<-|[]]]]]]]; discriminate.
    + split; [congruence|]. intros I. contradiction.
  - intros t' I E. destruct (D t') as [I'|[E' N']].
    + cbn in I, I'. destruct I as [<-|[<-|[<-|[<-|[<-|[<-|[]]]]]]]; destruct I' as [<-|[<-|[<-|[<-|[<-|[<-|[]]]]]]]; try reflexivity; discriminate E.
    + rewrite E' in E. cbn in I. destruct I as [<-|[<-|[<-|[<-|[<-|[<-|[]]]]]]]; discriminate E.
Qed.
Lemma device_names t :
  (device_type_string t <> bs "UNK" <-> In t [1; 2; 4; 8; 16; 32; 64; 128; 256; 512]%N) /\
  (forall t', In t [1; 2; 4; 8; 16; 32; 64; 128; 256; 512]%N -> device_type_string t = device_type_string t' ->
     t = t' \/ (In t [32; 64] /\ In t' [32; 64])%N).
Proof.
  assert (D : forall t, In t [1; 2; 4; 8; 16; 32; 64; 128; 256; 512]%N \/ (device_type_string t = bs "UNK" /\ ~ In t [1; 2; 4; 8; 16; 32; 64; 128; 256; 512]%N)).
  { intros u. unfold device_type_string.
    repeat match goal with |- context [(u =? ?k)%N] => destruct (N.eqb_spec u k) as [->|?]; [left; cbn; tauto|] end.
    right. split; [reflexivity|]. cbn. intros [H|[H|[H|[H|[H|[H|[H|[H|[H|[H|[]]]]]]]]]]]; subst u;
    unfold DeviceTypeNotebook, DeviceTypeMobile, DeviceTypePhablet, DeviceTypeTablet, DeviceTypeConsole, DeviceTypeTV, DeviceTypeShellTV, DeviceTypeCamera, DeviceTypeCarBrowser, DeviceTypePortableMediaPlayer in *; congruence. }
  split.
  - destruct (D t) as [I|[E N]].
    + split; [auto|]. intros _. cbn in I. destruct I as [<-|[<-|[<-|[<-|[<-|[<-|[<-|[<-|[<-|[<-|[]]]]]]]]]]]; discriminate.
    + split; [congruence|]. intros I. contradiction.
  - intros t' I E. destruct (D t') as [I'|[E' N']].
    + cbn in I, I'. destruct I as [<-|[<-|[<-|[<-|[<-|[<-|[<-|[<-|[<-|[<-|[]]]]]]]]]]];
      destruct I' as [<-|[<-|[<-|[<-|[<-|[<-|[<-|[<-|[<-|[<-|[]]]]]]]]]]]; try (left; reflexivity); try discriminate E; right; cbn; tauto.
    + rewrite E' in E. cbn in I. destruct I as [<-|[<-|[<-|[<-|[<-|[<-|[<-|[<-|[<-|[<-|[]]]]]]]]]]]; discriminate E.
Qed.
Lemma tv_names : exists t t', In t [1; 2; 4; 8; 16; 32; 64; 128; 256; 512]%N /\
  In t' [1; 2; 4; 8; 16; 32; 64; 128; 256; 512]%N /\ t <> t' /\ device_type_string t = device_type_string t'.
Proof. exists 32%N, 64%N. split; [cbn; tauto|]. split; [cbn; tauto|]. split; [discriminate|reflexivity]. Qed.
Lemma panic_case T mC mD h ua g : match alone T mC mD h ua g with Panic => true | _ => false end = true ->
  alone T mC mD h ua g = Panic.
Proof. destruct (alone T mC mD h ua g); [discriminate|reflexivity]. Qed.

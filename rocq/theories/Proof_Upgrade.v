(** Records of an earlier program. *)
From Coq Require Import Lia ZifyBool ZifyNat ZifyN.
From Verif Require Import Model_Base Model_CacheEntry Model_Version Model_Ctx Model_Parse Model_Compiler Model_Built
  Spec_Getters Spec_Honest Spec_Upgrade Proof_Base Proof_Compiler Proof_Safe Proof_Getters Proof_Honest.

(** A hit: one look-up, and the record is what the context holds. *)
Definition hits {A} (row : entry) (c : ctx) (p : prog (ctx * res A)) (x : ctx * res A) : Prop :=
  exists k, p = CGet (c_src c) k /\ k (Some row) = Ret x.
Lemma hits_bind {A B} row c (p : P A) (f : A -> P B) a x : hits row c (p c) (from_cache row c, Ok a) -> f a (from_cache row c) = Ret x -> hits row c (pbind p f c) x.
Proof. intros (k & E & K) F. unfold hits, pbind. rewrite E. cbn [prog_bind]. eexists. split; [reflexivity|]. cbn beta. rewrite K. cbn [prog_bind]. exact F. Qed.
Lemma hits_offered {A} row c (p : prog (ctx * res A)) x : hits row c p x -> offered (Some row) p = x.
Proof. intros (k & -> & K). cbn [offered]. rewrite K. reflexivity. Qed.
Section Hit.
Variables (row : entry) (c : ctx) (T : tables).
Lemma ensure_client : check_bit (c_bits c) flagClientDetect = false -> check_bit (e_bits row) flagClientDetect = true ->
  hits row c (ensure flagClientDetect (parse_client T) c) (from_cache row c, Ok tt).
Proof. intros Hc Hr. unfold hits, ensure. rewrite Hc. unfold parse_client, pbind, pcget. cbn [prog_bind]. eexists. split; [reflexivity|]. cbn beta iota. rewrite Hr. reflexivity. Qed.
Lemma ensure_os : check_bit (c_bits c) flagOSDetect = false -> check_bit (e_bits row) flagOSDetect = true ->
  hits row c (ensure flagOSDetect (parse_os T) c) (from_cache row c, Ok tt).
Proof. intros Hc Hr. unfold hits, ensure. rewrite Hc. unfold parse_os, pbind, pcget. cbn [prog_bind]. eexists. split; [reflexivity|]. cbn beta iota. rewrite Hr. reflexivity. Qed.
Lemma ensure_device : check_bit (c_bits c) flagDeviceDetect = false -> check_bit (e_bits row) flagDeviceDetect = true ->
  hits row c (ensure flagDeviceDetect (parse_device T) c) (from_cache row c, Ok tt).
Proof. intros Hc Hr. unfold hits, ensure. rewrite Hc. unfold parse_device, pbind, pcget. cbn [prog_bind]. eexists. split; [reflexivity|]. cbn beta iota. rewrite Hr. reflexivity. Qed.
Lemma hits_read {A} flag (parse : P bool) (read : M A) : hits row c (ensure flag parse c) (from_cache row c, Ok tt) ->
  hits row c ((ensure flag parse ;; plift read)%p c) (read (from_cache row c)).
Proof. intros H. apply (hits_bind row c _ _ tt); [exact H|reflexivity]. Qed.
Lemma hits_pmap {A B} (f : A -> B) (p : P A) x : hits row c (p c) x -> hits row c (pmap f p c) (fst x, rmap f (snd x)).
Proof. intros (k & E & K). unfold hits, pmap, pbind. rewrite E. cbn [prog_bind]. eexists. split; [reflexivity|]. cbn beta. rewrite K. destruct x as [c1 [a|]]; reflexivity. Qed.
Lemma hits_snd {A} (p : prog (ctx * res A)) x : hits row c p x -> snd (offered (Some row) p) = snd x.
Proof. intros H. rewrite (hits_offered row c p x H). reflexivity. Qed.
End Hit.

(** What a getter reads from the context filled by the record. *)
Definition read_out (T : tables) (g : getter) (c : ctx) : res value :=
  match g with
  | GClientType => Ok (VN (c_clientType c))
  | GBrowser => rmap VB (snd (read_browser T c))
  | GBrowserVersion => rmap (fun b => VV (fst (parse version_zero b))) (snd (read_browser_version T c))
  | GBrowserVersionString => rmap VB (snd (read_browser_version T c))
  | GEngine => rmap VB (snd (read_engine T c))
  | GEngineVersion => rmap (fun b => VV (fst (parse version_zero b))) (snd (read_engine_version c))
  | GEngineVersionString => rmap VB (snd (read_engine_version c))
  | GDeviceType => rmap VN (snd (read_device_type c))
  | GBrand => rmap VB (snd (read_brand T c))
  | GModel => rmap VB (snd (read_model c))
  | GOS => rmap VB (snd (read_os T c))
  | GOSVersion => rmap (fun b => VV (fst (parse version_zero b))) (snd (read_os_version T c))
  | GOSVersionString => rmap VB (snd (read_os_version T c))
  | GUserAgent => Ok (VB (c_src c))
  end.
Lemma fresh_cold flag mC mD h ua : check_bit (c_bits (fresh_ctx mC mD h ua)) flag = false.
Proof. unfold check_bit. cbn. rewrite ?N.bits_0. reflexivity. Qed.
Section Out.
Variables (row : entry) (c : ctx) (T : tables).
Hypotheses (NC : check_bit (c_bits c) flagClientDetect = false) (NO : check_bit (c_bits c) flagOSDetect = false) (ND : check_bit (c_bits c) flagDeviceDetect = false).
Hypotheses (ZC : c_cver c = version_zero) (ZE : c_ever c = version_zero) (ZO : c_over c = version_zero).
Definition ver (gs : P bytes) (proj : ctx -> version) (upd : version -> ctx -> ctx) : P version :=
  fun c => if v_p (proj c) then Ret (c, Ok (proj c)) else (raw <- gs ;; plift (mmod (fun c => upd (fst (parse (proj c) raw)) c)) ;; plift (mget proj))%p c.
Lemma out_map {A} (f : A -> value) (p : P A) x : hits row c (p c) x -> snd (offered (Some row) (pmap f p c)) = rmap f (snd x).
Proof. intros H. rewrite (hits_snd _ _ _ _ (hits_pmap _ _ f p x H)). reflexivity. Qed.
Lemma out_ver gs proj upd (read : M bytes) : proj c = version_zero -> (forall v c0, proj (upd v c0) = v) -> proj (fst (read (from_cache row c))) = version_zero ->
  hits row c (gs c) (read (from_cache row c)) ->
  snd (offered (Some row) (pmap VV (ver gs proj upd) c)) = rmap (fun b => VV (fst (parse version_zero b))) (snd (read (from_cache row c))).
Proof.
  intros Z Up Z' Hh. unfold pmap, ver, pbind at 1. rewrite Z. cbn [v_p version_zero].
  destruct Hh as (k & E & K). unfold pbind at 1. rewrite E. cbn [prog_bind offered]. rewrite K. destruct (read (from_cache row c)) as [c1 [raw|]]; [|reflexivity].
  cbn [fst] in Z'. unfold pbind, plift, mmod, mget, pret. cbn [prog_bind offered snd rmap]. rewrite Up, Z'. reflexivity.
Qed.
Lemma eq_bv : run_getter T GBrowserVersion = pmap VV (ver (get_browser_version_string T) c_cver up_cver).
Proof. reflexivity. Qed.
Lemma eq_ev : run_getter T GEngineVersion = pmap VV (ver (get_engine_version_string T) c_ever up_ever).
Proof. reflexivity. Qed.
Lemma eq_ov : run_getter T GOSVersion = pmap VV (ver (get_os_version_string T) c_over up_over).
Proof. reflexivity. Qed.
Lemma ovs_over c' : c_over (fst (read_os_version T c')) = c_over c'.
Proof.
  unfold read_os_version, mbind, mget, mlift, mret, append_buf, mmod.
  destruct (0 <? c_osVersion c')%N; [|reflexivity]. destruct (slice64 _ _) as [raw|]; [|reflexivity]. destruct (index_byte raw x5f); reflexivity.
Qed.
Lemma out_client {A} (f : A -> value) (read : M A) : check_bit (e_bits row) flagClientDetect = true ->
  snd (offered (Some row) (pmap f (ensure flagClientDetect (parse_client T) ;; plift read)%p c)) = rmap f (snd (read (from_cache row c))).
Proof. intros H. apply out_map. apply hits_read. apply ensure_client; assumption. Qed.
Lemma out_os {A} (f : A -> value) (read : M A) : check_bit (e_bits row) flagOSDetect = true ->
  snd (offered (Some row) (pmap f (ensure flagOSDetect (parse_os T) ;; plift read)%p c)) = rmap f (snd (read (from_cache row c))).
Proof. intros H. apply out_map. apply hits_read. apply ensure_os; assumption. Qed.
Lemma out_device {A} (f : A -> value) (read : M A) : check_bit (e_bits row) flagDeviceDetect = true ->
  snd (offered (Some row) (pmap f (ensure flagDeviceDetect (parse_device T) ;; plift read)%p c)) = rmap f (snd (read (from_cache row c))).
Proof. intros H. apply out_map. apply hits_read. apply ensure_device; assumption. Qed.
Lemma out g : holds row g = true -> snd (offered (Some row) (run_getter T g c)) = read_out T g (from_cache row c).
Proof.
  destruct g; unfold holds; intros H.
  - exact (out_client VN (mget c_clientType) H).
  - exact (out_client VB (read_browser T) H).
  - rewrite eq_bv. apply out_ver; [exact ZC|reflexivity| |apply hits_read; apply ensure_client; assumption].
    rewrite (proj2 (pure_browser_version T _ _ eq_refl)). exact ZC.
  - exact (out_client VB (read_browser_version T) H).
  - exact (out_client VB (read_engine T) H).
  - rewrite eq_ev. apply out_ver; [exact ZE|reflexivity| |apply hits_read; apply ensure_client; assumption].
    rewrite (proj2 (pure_engine_version _ _ eq_refl)). exact ZE.
  - exact (out_client VB read_engine_version H).
  - exact (out_device VN read_device_type H).
  - exact (out_device VB (read_brand T) H).
  - exact (out_device VB read_model H).
  - exact (out_os VB (read_os T) H).
  - rewrite eq_ov. apply out_ver; [exact ZO|reflexivity| |apply hits_read; apply ensure_os; assumption].
    rewrite ovs_over. exact ZO.
  - exact (out_os VB (read_os_version T) H).
  - reflexivity.
Qed.
End Out.
Lemma served_out T row mC mD h ua g : holds row g = true ->
  served T row (fresh_ctx mC mD h ua) g = read_out T g (from_cache row (fresh_ctx mC mD h ua)).
Proof. intros H. apply out; try apply fresh_cold; try reflexivity. exact H. Qed.

(** With the same tables: the answer of the detection. *)
Lemma left_good T mC mD ua row : left_by T mC mD ua row -> detects T mC mD ua -> row_ok T mC mD ua row.
Proof.
  intros (scripts & stored & ts & R & A) D.
  assert (W : world_inv T mC mD (map (fun l => calls l [] 0) scripts) (stored, ts)).
  { remember (begin T mC mD scripts) as w0 eqn:E. induction R as [w|w1 w2 w3 R IH S]; [subst w|eapply world_step; [apply IH; exact E|exact S]].
    split; [intros k e []|]. cbn [begin snd]. clear. induction scripts as [|l scripts IH]; cbn [map]; constructor; [|exact IH].
    apply safe_script. apply weak_recycle. }
  exact (answers_good T mC mD stored ua (Some row) (proj1 W) A row eq_refl (detects_no_panics T mC mD ua D)).
Qed.
Lemma safe_offered {A} T mC mD row k (p : prog (ctx * res A)) Q : keyed k p -> row_ok T mC mD (fst (fst k)) row -> safe (G T mC mD) p Q -> Q (offered (Some row) p).
Proof.
  intros K R. induction p as [a|key f IH|key e p IH]; cbn [keyed safe offered] in *.
  - auto.
  - intros S. destruct K as [-> K]. apply IH; [apply K|]. apply S. intros e E. injection E as <-. exact R.
  - intros [_ S]. destruct K as [_ K]. apply IH; assumption.
Qed.
Lemma served_same T mC mD ua row h g : row_ok T mC mD ua row -> detects T mC mD ua -> g <> GModel -> served T row (fresh_ctx mC mD h ua) g = alone T mC mD h ua g.
Proof.
  intros R D N. pose proof (detects_no_panics T mC mD ua D) as NP. rewrite <- (final_alone T mC mD ua h g NP N).
  apply (safe_offered T mC mD row (env (fresh_ctx mC mD h ua)) (run_getter T g (fresh_ctx mC mD h ua)) (fun x => good T mC mD ua h (fst x) /\ snd x = final T mC mD ua h g)).
  - apply keyed_getter.
  - exact R.
  - apply safe_getter; [exact NP|apply good_fresh|exact N].
Qed.

(** With later tables. *)
Lemma more (b b' : bytes) e s : (exists r, b' = b ++ r) -> slice64 b e = Ok s -> slice64 b' e = Ok s.
Proof. intros [r ->]. apply slice64_grows. Qed.
Lemma rmap_Ok {A B} (f : A -> B) r v : rmap f r = Ok v -> exists a, r = Ok a /\ v = f a.
Proof. destruct r as [a|]; [|discriminate]. cbn. intros H. injection H as <-. eauto. Qed.
Section More.
Variables (T T' : tables) (c : ctx).
Hypothesis C : continues (c_hint c) T T'.
Let Cc : exists r, cr_buf T' = cr_buf T ++ r. Proof. apply C. Qed.
Let Co : exists r, or_buf T' = or_buf T ++ r. Proof. apply C. Qed.
Let Cd : exists r, dr_buf T' = dr_buf T ++ r. Proof. apply C. Qed.
Let Cv : exists r, vr_buf T' = vr_buf T ++ r. Proof. apply C. Qed.
Lemma more_browser s : snd (read_browser T c) = Ok s -> snd (read_browser T' c) = Ok s.
Proof.
  destruct C as (_ & _ & _ & _ & H). unfold read_browser, mbind, mget, mlift, mret. destruct (N.eqb_spec (c_hint c) 0) as [E|E]; cbn [negb].
  - destruct (0 <? c_clientName c)%N; [|cbn [N.ltb N.compare snd]; auto]. destruct (0 <? c_clientName c)%N; cbn [snd]; [apply more; exact Cc|auto].
  - destruct H as [H|[-> ->]]; [contradiction|]. auto.
Qed.
Lemma more_bvs s : snd (read_browser_version T c) = Ok s -> snd (read_browser_version T' c) = Ok s.
Proof.
  unfold read_browser_version, mbind, mget, mlift, mret. destruct (0 <? c_clientVersion c)%N; [|auto].
  destruct (check_bit (c_bits c) flagVerConstSrc); [|auto]. destruct (slice64 (cr_buf T) _) as [raw|] eqn:E; [|discriminate]. rewrite (more _ _ _ _ Cc E). auto.
Qed.
Lemma more_engine s : snd (read_engine T c) = Ok s -> snd (read_engine T' c) = Ok s.
Proof.
  unfold read_engine, mbind, mget, mlift, mret. destruct (check_bit (c_bits c) flagEngineForceBlink); [auto|].
  destruct (0 <? c_engineName c)%N; [|auto]. cbn [snd]. apply more. exact Cc.
Qed.
Lemma more_brand s : snd (read_brand T c) = Ok s -> snd (read_brand T' c) = Ok s.
Proof.
  unfold read_brand, mbind, mget, mlift, mret. destruct (c_brand c =? 0)%N; cbn [negb]; [auto|].
  destruct (check_bit (c_bits c) flagVendorFragment).
  - destruct (slice64 (vr_buf T) _) as [raw|] eqn:E; [|discriminate]. rewrite (more _ _ _ _ Cv E). auto.
  - destruct (slice64 (dr_buf T) _) as [raw|] eqn:E; [|discriminate]. rewrite (more _ _ _ _ Cd E). auto.
Qed.
Lemma more_os s : snd (read_os T c) = Ok s -> snd (read_os T' c) = Ok s.
Proof.
  unfold read_os, mbind, mget, mlift, mret. destruct (c_osName c =? 0)%N; cbn [negb]; [auto|].
  destruct (check_bit (c_bits c) flagOSBufSrc); [auto|].
  destruct (slice64 (or_buf T) _) as [raw|] eqn:E; [|discriminate]. rewrite (more _ _ _ _ Co E). auto.
Qed.
Lemma more_ovs s : snd (read_os_version T c) = Ok s -> snd (read_os_version T' c) = Ok s.
Proof.
  unfold read_os_version, mbind, mget, mlift, mret. destruct (0 <? c_osVersion c)%N; [|auto].
  destruct (check_bit (c_bits c) flagOSVerBufSrc); [|auto].
  destruct (slice64 (or_buf T) _) as [raw|] eqn:E; [|discriminate]. rewrite (more _ _ _ _ Co E). auto.
Qed.
Lemma more_out g v : read_out T g c = Ok v -> read_out T' g c = Ok v.
Proof.
  destruct g; cbn [read_out]; auto; intros H; apply rmap_Ok in H as (a & E & ->).
  - rewrite (more_browser a E). reflexivity.
  - rewrite (more_bvs a E). reflexivity.
  - rewrite (more_bvs a E). reflexivity.
  - rewrite (more_engine a E). reflexivity.
  - rewrite (more_brand a E). reflexivity.
  - rewrite (more_os a E). reflexivity.
  - rewrite (more_ovs a E). reflexivity.
  - rewrite (more_ovs a E). reflexivity.
Qed.
End More.
Lemma upgrade T T' mC mD ua row h g v : left_by T mC mD ua row -> detects T mC mD ua -> continues h T T' -> holds row g = true -> g <> GModel ->
  alone T mC mD h ua g = Ok v -> served T' row (fresh_ctx mC mD h ua) g = Ok v.
Proof.
  intros L D C H N E. pose proof (served_same T mC mD ua row h g (left_good _ _ _ _ _ L D) D N) as S. rewrite E in S.
  rewrite served_out in S |- * by exact H. apply (more_out T); [exact C|exact S].
Qed.
Lemma upgrade_model T T' mC mD ua row h : holds row GModel = true -> served T' row (fresh_ctx mC mD h ua) GModel = served T row (fresh_ctx mC mD h ua) GModel.
Proof. intros H. rewrite !served_out by exact H. reflexivity. Qed.

(** Operating systems added at the end of the list. *)
Definition begins {A} (a b : list A) : Prop := exists r, b = a ++ r.
Lemma begins_refl {A} (a : list A) : begins a a.
Proof. exists []. symmetry. apply app_nil_r. Qed.
Lemma begins_trans {A} (a b c : list A) : begins a b -> begins b c -> begins a c.
Proof. intros [r ->] [s ->]. exists (r ++ s). symmetry. apply app_assoc. Qed.
Lemma add_begins s b : begins (b_buf b) (b_buf (snd (buf_add s b))).
Proof. unfold buf_add. destruct (smap_get (b_idx b) s); [apply begins_refl|]. exists s. reflexivity. Qed.
Lemma match_begins valid repl rs b re : begins (b_buf b) (b_buf (snd (fst (add_match valid repl rs b re)))).
Proof.
  unfold add_match. destruct (is_regex rs).
  - destruct (valid _); apply begins_refl.
  - pose proof (add_begins rs b) as H. destruct (buf_add rs b) as [e b1]. exact H.
Qed.
Lemma inx_begins v b : begins (b_buf b) (b_buf (snd (parse_inx v b))).
Proof.
  destruct v as [|x r]; [apply begins_refl|]. unfold parse_inx. destruct x; try match goal with |- context [buf_add ?s b] => pose proof (add_begins s b) as H; destruct (buf_add s b); exact H end.
  destruct (parse_int r). apply begins_refl.
Qed.
Lemma entries_begins {Y X S} (f : Y -> S -> X * S) (buf : S -> bytes) : (forall y s, begins (buf s) (buf (snd (f y s)))) ->
  forall l s, begins (buf s) (buf (snd (compile_entries f l s))).
Proof.
  intros H. induction l as [|y l IH]; intros s; cbn [compile_entries]; [apply begins_refl|].
  pose proof (H y s) as H1. destruct (f y s) as [x s1]. pose proof (IH s1) as H2. destruct (compile_entries f l s1) as [r s2]. exact (begins_trans _ _ _ H1 H2).
Qed.
Lemma entries_app {Y X S} (f : Y -> S -> X * S) l m : forall s, snd (compile_entries f (l ++ m) s) = snd (compile_entries f m (snd (compile_entries f l s))).
Proof.
  induction l as [|y l IH]; intros s; cbn [compile_entries app]; [reflexivity|].
  destruct (f y s) as [x s1]. specialize (IH s1). destruct (compile_entries f (l ++ m) s1), (compile_entries f l s1). exact IH.
Qed.
Lemma ov1_begins valid y o : begins (b_buf (o_buf o)) (b_buf (o_buf (snd (compile_ov1 valid y o)))).
Proof.
  unfold compile_ov1. pose proof (match_begins valid (fun _ => None) (yv_regex y) (o_buf o) (o_re o)) as H1.
  destruct (add_match _ _ _ _ _) as [[[ri m64] b1] re1]. pose proof (inx_begins (yv_version y) b1) as H2. destruct (parse_inx _ b1) as [[vi v64] b2].
  exact (begins_trans _ _ _ H1 H2).
Qed.
Lemma os1_begins valid repl y o : begins (b_buf (o_buf o)) (b_buf (o_buf (snd (compile_os1 valid repl y o)))).
Proof.
  unfold compile_os1. pose proof (inx_begins (yo_name y) (o_buf o)) as H1. destruct (parse_inx (yo_name y) _) as [[ni n64] b1].
  pose proof (match_begins valid repl (yo_regex y) b1 (o_re o)) as H2. destruct (add_match _ _ _ _ _) as [[[ri m64] b2] re2].
  pose proof (begins_trans _ _ _ H1 H2) as H3. cbn [fst snd] in *. destruct (yo_versions y) as [|w ws].
  - pose proof (inx_begins (yo_version y) b2) as H4. destruct (parse_inx (yo_version y) b2) as [[vi v64] b3]. exact (begins_trans _ _ _ H3 H4).
  - exact (begins_trans _ _ _ H3 (entries_begins (compile_ov1 valid) (fun o => b_buf (o_buf o)) (ov1_begins valid) (w :: ws) (mkO b2 re2 (o_ov o)))).
Qed.
Lemma os_begins valid repl l m : begins (oo_buf (compile_os valid repl l)) (oo_buf (compile_os valid repl (l ++ m))).
Proof.
  unfold compile_os. pose proof (entries_app (compile_os1 valid repl) l m (mkO buf_empty [] [])) as A.
  destruct (compile_entries (compile_os1 valid repl) (l ++ m) (mkO buf_empty [] [])) as [x o']. destruct (compile_entries (compile_os1 valid repl) l (mkO buf_empty [] [])) as [x2 o].
  cbn [snd oo_buf] in *. rewrite A. exact (entries_begins (compile_os1 valid repl) (fun o => b_buf (o_buf o)) (os1_begins valid repl) m o).
Qed.
Lemma appended_os K D m h : continues h (built K D) (built K (with_os (db_os D ++ m) D)).
Proof.
  split; [exact (begins_refl _)|]. split; [exact (os_begins (k_valid K) (k_os K) (db_os D) m)|]. split; [exact (begins_refl _)|]. split; [exact (begins_refl _)|].
  right. split; reflexivity.
Qed.

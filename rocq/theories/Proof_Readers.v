(** One context read by several goroutines at once. *)
From Verif Require Import Model_Base Model_CacheEntry Model_Version Model_Ctx Model_Parse Model_Readers Spec_Getters Spec_Again Spec_Readers Proof_Base Proof_Again.
From Coq Require Import Lia ZifyBool ZifyNat ZifyN.
Open Scope nat_scope.

(** ** Getters access by access are the getters *)
Definition agrees {A} (s : steps A) (m : P A) : Prop := forall c c' r, ends s c c' r <-> leaf (m c) (c', r).

Lemma leaf_bind_iff {A B} (p : prog A) (f : A -> prog B) y : leaf (prog_bind p f) y <-> exists a, leaf p a /\ leaf (f a) y.
Proof.
  split; [apply leaf_bind|]. intros (a & L1 & L2). induction L1 as [a|key k o a L1 IH|key e p a L1 IH]; cbn [prog_bind].
  - exact L2.
  - apply (Leaf_get key _ o). exact (IH L2).
  - apply Leaf_set. exact (IH L2).
Qed.
Lemma leaf_ret_iff {A} (a x : A) : leaf (Ret a) x <-> x = a.
Proof. split; [apply leaf_ret|intros ->; constructor]. Qed.
Lemma leaf_pbind_iff {A B} (m : P A) (f : A -> P B) c c' r : leaf (pbind m f c) (c', r) <->
  (exists c1 a, leaf (m c) (c1, Ok a) /\ leaf (f a c1) (c', r)) \/ (leaf (m c) (c', Panic) /\ r = Panic).
Proof.
  unfold pbind. rewrite leaf_bind_iff. split.
  - intros ([c1 [a|]] & L1 & L2); [eauto|]. apply leaf_ret in L2. injection L2 as -> ->. auto.
  - intros [(c1 & a & L1 & L2)|[L ->]].
    + exists (c1, Ok a). auto.
    + exists (c', Panic). split; [exact L|constructor].
Qed.

Lemma ends_stop {A} (r : res A) c c' r' : ends (Stop r) c c' r' <-> c' = c /\ r' = r.
Proof. split; [intros H; inversion H; auto|intros [-> ->]; constructor]. Qed.
Lemma ends_read {A} l (k : ty l -> steps A) c c' r : ends (Read l k) c c' r <-> ends (k (peek l c)) c c' r.
Proof.
  split; [|apply E_read]. intros H.
  refine (match H in ends s c0 c1 r0 return match s with Read l k => ends (k (peek l c0)) c0 c1 r0 | _ => True end with
          | E_read l k c0 c1 r0 H => H | _ => I end).
Qed.
Lemma ends_write {A} l v (k : steps A) c c' r : ends (Write l v k) c c' r <-> ends k (poke l v c) c' r.
Proof.
  split; [|apply E_write]. intros H.
  refine (match H in ends s c0 c1 r0 return match s with Write l v k => ends k (poke l v c0) c1 r0 | _ => True end with
          | E_write l v k c0 c1 r0 H => H | _ => I end).
Qed.
Lemma ends_detect {A} p (k : steps A) c c' r : ends (Detect p k) c c' r <->
  (exists c1 a, leaf (p c) (c1, Ok a) /\ ends k c1 c' r) \/ (leaf (p c) (c', Panic) /\ r = Panic).
Proof.
  split.
  - intros H. inversion H; subst; eauto.
  - intros [(c1 & a & L & E)|[L ->]]; [eapply E_detect; eauto|apply E_panic; exact L].
Qed.
Lemma ends_then {A B} (s : steps A) (f : A -> steps B) : forall c c' r, ends (then_ s f) c c' r <->
  (exists c1 a, ends s c c1 (Ok a) /\ ends (f a) c1 c' r) \/ (ends s c c' Panic /\ r = Panic).
Proof.
  induction s as [[a|]|l k IH|l v k IH|p k IH]; intros c c' r; cbn [then_].
  - split.
    + intros H. left. exists c, a. split; [constructor|exact H].
    + intros [(c1 & a1 & E & H)|[E _]]; apply ends_stop in E as [-> E]; [injection E as ->; exact H|discriminate].
  - rewrite ends_stop. split.
    + intros [-> ->]. right. split; [constructor|reflexivity].
    + intros [(c1 & a1 & E & H)|[E ->]]; apply ends_stop in E as [-> E]; [discriminate|auto].
  - rewrite ends_read, IH. setoid_rewrite ends_read. reflexivity.
  - rewrite ends_write, IH. setoid_rewrite ends_write. reflexivity.
  - rewrite ends_detect. setoid_rewrite ends_detect. setoid_rewrite IH. split.
    + intros [(c1 & a & L & [(c2 & b & E1 & E2)|[E ->]])|[L ->]]; eauto 10.
    + intros [(c1 & a & [(c2 & b & L & E)|[L D]] & E2)|[[(c2 & b & L & E)|[L D]] ->]]; eauto 10. discriminate.
Qed.

Lemma agree_bind {A B} (s : steps A) m (f : A -> steps B) g : agrees s m -> (forall a, agrees (f a) (g a)) -> agrees (then_ s f) (pbind m g).
Proof. unfold agrees. intros H F c c' r. rewrite ends_then, leaf_pbind_iff. setoid_rewrite H. setoid_rewrite F. reflexivity. Qed.
Lemma agree_map {A B} (f : A -> B) (s : steps A) m : agrees s m -> agrees (r_map f s) (pmap f m).
Proof. intros H. apply agree_bind; [exact H|]. intros a c c' r. rewrite ends_stop. unfold pret. rewrite leaf_ret_iff. split; [intros [-> ->]; reflexivity|intros E; injection E as -> ->; auto]. Qed.
Lemma agree_first {A} flag p (k : steps A) m : agrees k m -> agrees (checked_first flag p k) (pbind (ensure flag p) (fun _ => m)).
Proof.
  unfold agrees. intros H c c' r. unfold checked_first. rewrite ends_read, leaf_pbind_iff. unfold ensure. cbn [peek]. destruct (check_bit (c_bits c) flag).
  - rewrite H. setoid_rewrite leaf_ret_iff. split.
    + intros L. left. exists c, tt. auto.
    + intros [(c1 & [] & E & L)|[E _]]; [injection E as ->; exact L|discriminate].
  - rewrite ends_detect. setoid_rewrite leaf_pbind_iff. unfold pret. setoid_rewrite leaf_ret_iff. setoid_rewrite H. split.
    + intros [(c1 & a & L & E)|[L ->]]; [left; exists c1, tt; split; [left; eauto|exact E]|right; split; [right; auto|reflexivity]].
    + intros [(c1 & a & [(c2 & b & L & E)|[L D]] & L2)|[[(c2 & b & L & E)|[L _]] ->]].
      * injection E as -> ->. left. eauto.
      * discriminate.
      * discriminate.
      * right. auto.
Qed.

(** Without a detection a getter is a function. *)
Fixpoint runs {A} (s : steps A) (c : ctx) : option (ctx * res A) :=
  match s with
  | Stop r => Some (c, r)
  | Read l k => runs (k (peek l c)) c
  | Write l v k => runs k (poke l v c)
  | Detect _ _ => None
  end.
Lemma runs_ends {A} (s : steps A) : forall c x, runs s c = Some x -> forall c' r, ends s c c' r <-> (c', r) = x.
Proof.
  induction s as [r0|l k IH|l v k IH|p k IH]; intros c x H c' r; cbn [runs] in H.
  - injection H as <-. rewrite ends_stop. split; [intros [-> ->]; reflexivity|intros E; injection E as -> ->; auto].
  - rewrite ends_read. exact (IH _ _ _ H _ _).
  - rewrite ends_write. exact (IH _ _ H _ _).
  - discriminate.
Qed.
Lemma runs_then {A B} (s : steps A) (f : A -> steps B) : forall c, runs (then_ s f) c =
  match runs s c with Some (c1, Ok a) => runs (f a) c1 | Some (c1, Panic) => Some (c1, Panic) | None => None end.
Proof. induction s as [[a|]|l k IH|l v k IH|p k IH]; intros c; cbn [then_ runs]; auto. Qed.
Lemma agree_run {A} (s : steps A) (m : M A) : (forall c, runs s c = Some (m c)) -> agrees s (plift m).
Proof. intros H c c' r. rewrite (runs_ends s c _ (H c)). unfold plift. rewrite leaf_ret_iff. reflexivity. Qed.

(** Parsing a version. *)
Lemma ver_up w v c : ver w (up_ver w v c) = v.
Proof. destruct w; reflexivity. Qed.
Lemma up_up w v v' c : up_ver w v (up_ver w v' c) = up_ver w v c.
Proof. destruct w; reflexivity. Qed.
Lemma up_same w c : up_ver w (ver w c) c = c.
Proof. destruct w, c; reflexivity. Qed.
Lemma runs_loop w is : forall s c, runs (r_parse_loop w is s) c =
  Some (up_ver w (fst (parse_loop is (ver w c) s)) c, Ok (snd (parse_loop is (ver w c) s))).
Proof.
  induction is as [|i is IH]; intros s c; cbn [r_parse_loop parse_loop].
  - cbn. rewrite up_same. reflexivity.
  - cbv zeta. destruct (_ || _); [|apply IH]. destruct (atoi _) as [d|].
    + cbn [runs poke]. rewrite IH, ver_up, up_up. reflexivity.
    + cbn. rewrite up_same. reflexivity.
Qed.
Lemma runs_parse w s c : runs (r_parse w s) c = Some (up_ver w (fst (parse (ver w c) s)) c, Ok tt).
Proof.
  unfold r_parse, parse. cbn [runs peek]. destruct (v_p (ver w c)); [cbn; rewrite up_same; reflexivity|]. destruct (0 <? length s).
  - rewrite runs_then, runs_loop. destruct (parse_loop [0; 1; 2; 3] (ver w c) s) as [v [s'|]]; cbn [fst snd]; [|reflexivity].
    destruct (0 <? length s'); [destruct (index_space_hyphen s')|]; cbn [runs poke]; rewrite ?ver_up, ?up_up; reflexivity.
  - cbn [runs poke]. reflexivity.
Qed.
Lemma runs_deref w c : runs (r_deref w) c = Some (c, Ok (ver w c)).
Proof. unfold r_deref. cbn. destruct (ver w c). reflexivity. Qed.

Lemma agree_version w text str : agrees text str ->
  agrees (r_version w text) (fun c => if v_p (ver w c) then Ret (c, Ok (ver w c))
    else (raw <- str ;; plift (mmod (fun c => up_ver w (fst (parse (ver w c) raw)) c)) ;; plift (mget (ver w)))%p c).
Proof.
  intros H c c' r. unfold r_version. rewrite ends_read. cbn [peek]. destruct (v_p (ver w c)).
  - rewrite (runs_ends _ _ _ (runs_deref w c)), leaf_ret_iff. reflexivity.
  - generalize c c' r. apply agree_bind; [exact H|]. intros raw. apply agree_bind.
    + apply agree_run. intros d. rewrite runs_parse. reflexivity.
    + intros _. apply agree_run. intros d. rewrite runs_deref. reflexivity.
Qed.

(** Appending byte by byte. *)
Lemma runs_dots off raw : forall c pre, length pre = off -> forall done, c_buf c = pre ++ done ->
  runs (r_dots raw off) c = Some (up_buf (pre ++ done ++ dots raw) c, Ok (done ++ dots raw)).
Proof.
  induction raw as [|b raw IH]; intros c pre Hp done E; cbn [r_dots runs peek poke dots map].
  - rewrite E, !app_nil_r. f_equal. f_equal; [rewrite <- E; destruct c; reflexivity|]. unfold slice.
    rewrite app_length. replace ((N.of_nat off <=? N.of_nat (length pre + length done))%N) with true by lia.
    replace ((N.of_nat (length pre + length done) <=? N.of_nat (length pre + length done))%N) with true by lia. cbn [andb]. f_equal.
    rewrite !Nnat.Nat2N.id, <- Hp, skipn_app, Nat.sub_diag, skipn_all. cbn [app skipn].
    replace (N.to_nat (N.of_nat (length pre + length done) - N.of_nat (length pre))) with (length done) by lia. apply firstn_all.
  - rewrite (IH _ pre Hp (done ++ [if beq b x5f then x2e else b])).
    + rewrite <- !app_assoc. destruct c; reflexivity.
    + cbn. rewrite E, <- app_assoc. reflexivity.
Qed.

(** The part of each getter behind the detection. *)
Ltac reads := intros d; cbn [runs peek then_]; unfold with_bit; cbn [runs peek then_].
Lemma reading_agrees T g : agrees (reading T g) (run_getter T g).
Proof.
  assert (BV : agrees (r_browser_version_string T) (get_browser_version_string T)).
  { apply agree_first, agree_run. reads. unfold read_browser_version, mbind, mget, mlift, mret. destruct (0 <? c_clientVersion d)%N eqn:E; [|reflexivity].
    cbn [runs peek]. destruct (slice64 _ (c_clientVersion d)); reflexivity. }
  assert (EV : agrees (r_engine_version_string T) (get_engine_version_string T)).
  { apply agree_first, agree_run. reads. unfold read_engine_version, mbind, mget, mlift, mret. destruct (0 <? c_engineVersion d)%N eqn:E; [|reflexivity].
    cbn [runs peek]. reflexivity. }
  assert (OV : agrees (r_os_version_string T) (get_os_version_string T)).
  { apply agree_first, agree_run. reads. unfold read_os_version, mbind, mget, mlift, mret, append_buf, mmod. destruct (0 <? c_osVersion d)%N eqn:E; [|reflexivity].
    cbn [runs peek]. destruct (slice64 _ (c_osVersion d)) as [raw|]; [|reflexivity]. cbn [then_]. destruct (index_byte raw x5f); [|reflexivity].
    cbn [runs peek]. rewrite (runs_dots _ raw d (c_buf d) eq_refl []) by (rewrite app_nil_r; reflexivity). reflexivity. }
  destruct g; cbn [reading run_getter]; try apply agree_map; try exact BV; try exact EV; try exact OV.
  - apply agree_first, agree_run. reads. reflexivity.
  - apply agree_first, agree_run. reads. unfold read_browser, mbind, mget, mlift, mret. destruct (negb (c_hint d =? 0)%N) eqn:E.
    + destruct (amap_get (hr_idx T) (c_hint d)) as [he|]; [|reflexivity]. cbn [runs]. destruct (0 <? he)%N; reflexivity.
    + cbn [runs peek]. destruct (0 <? c_clientName d)%N eqn:E2; [|reflexivity]. cbn [runs peek]. rewrite E2. reflexivity.
  - exact (agree_version OfClient _ _ BV).
  - apply agree_first, agree_run. reads. unfold read_engine, mbind, mget, mlift, mret. destruct (check_bit (c_bits d) flagEngineForceBlink); [reflexivity|].
    cbn [runs peek]. destruct (0 <? c_engineName d)%N; reflexivity.
  - exact (agree_version OfEngine _ _ EV).
  - apply agree_first, agree_run. reads. unfold read_device_type, mbind, mget, mlift, mret. destruct (check_bit (c_bits d) flagDeviceForceDesktop); reflexivity.
  - apply agree_first, agree_run. reads. unfold read_brand, mbind, mget, mlift, mret. destruct (negb (c_brand d =? 0)%N) eqn:E; [|reflexivity].
    cbn [runs peek]. destruct (slice64 _ (c_brand d)); reflexivity.
  - apply agree_first, agree_run. reads. unfold read_model, mbind, mget, mlift, mret. destruct (negb (c_model d =? 0)%N) eqn:E; [|reflexivity].
    cbn [runs peek]. destruct (slice64 _ (c_model d)); reflexivity.
  - apply agree_first, agree_run. reads. unfold read_os, mbind, mget, mlift, mret. destruct (negb (c_osName d =? 0)%N) eqn:E; [|reflexivity].
    cbn [runs peek]. destruct (check_bit (c_bits d) flagOSBufSrc); cbn [runs peek]; destruct (slice64 _ (c_osName d)); reflexivity.
  - exact (agree_version OfOS _ _ OV).
  - apply agree_run. reads. reflexivity.
Qed.

(** ** Reading only *)
Fixpoint quiet {A} (s : steps A) (c : ctx) : option (res A) :=
  match s with
  | Stop r => Some r
  | Read l k => quiet (k (peek l c)) c
  | Write _ _ _ | Detect _ _ => None
  end.
Lemma quiet_runs {A} (s : steps A) : forall c r, quiet s c = Some r -> runs s c = Some (c, r).
Proof. induction s as [r0|l k IH|l v k IH|p k IH]; intros c r H; cbn [quiet runs] in *; [injection H as ->; reflexivity|exact (IH _ _ _ H)|discriminate|discriminate]. Qed.
Lemma quiet_then {A B} (s : steps A) (f : A -> steps B) : forall c, quiet (then_ s f) c =
  match quiet s c with Some (Ok a) => quiet (f a) c | Some Panic => Some Panic | None => None end.
Proof. induction s as [[a|]|l k IH|l v k IH|p k IH]; intros c; cbn [then_ quiet]; auto. Qed.
Lemma leaf_cold {A} (p : prog A) : leaf p (run_cold p).
Proof. induction p as [a|key k IH|key e p IH]; cbn [run_cold]; [constructor|apply (Leaf_get key k None), IH|apply Leaf_set, IH]. Qed.

Definition calm {A} (s : steps A) (c : ctx) : Prop := quiet s c <> None.
Lemma calm_map {A B} (f : A -> B) s c : calm s c -> calm (r_map f s) c.
Proof. unfold calm, r_map. rewrite quiet_then. destruct (quiet s c) as [[a|]|]; cbn [quiet]; congruence. Qed.
Lemma calm_first {A} flag p (k : steps A) c : check_bit (c_bits c) flag = true -> calm k c -> calm (checked_first flag p k) c.
Proof. unfold calm, checked_first. cbn [quiet peek]. intros ->. auto. Qed.
Lemma calm_version w text c : v_p (ver w c) = true -> calm (r_version w text) c.
Proof. unfold calm, r_version. cbn [quiet peek]. intros ->. discriminate. Qed.

Definition harmless (T : tables) (c : ctx) (g : getter) : Prop := g = GOSVersionString -> plain_version T c.
Ltac quiets := unfold calm; cbn [quiet peek then_]; unfold with_bit; cbn [quiet peek then_].
Lemma settled_calm T c g : settled_ctx c -> harmless T c g -> calm (reading T g) c.
Proof.
  intros (F & PC & PE & PO) HV.
  assert (FC : check_bit (c_bits c) flagClientDetect = true) by (apply F; cbn; auto).
  assert (FD : check_bit (c_bits c) flagDeviceDetect = true) by (apply F; cbn; auto).
  assert (FO : check_bit (c_bits c) flagOSDetect = true) by (apply F; cbn; auto).
  destruct g; cbn [reading]; try apply calm_map.
  - apply calm_first; [exact FC|]. quiets. discriminate.
  - apply calm_first; [exact FC|]. quiets. destruct (negb (c_hint c =? 0)%N).
    + destruct (amap_get (hr_idx T) (c_hint c)); cbn [quiet]; discriminate.
    + cbn [quiet peek]. destruct (0 <? c_clientName c)%N; cbn [quiet peek]; discriminate.
  - apply calm_version. exact PC.
  - apply calm_first; [exact FC|]. quiets. destruct (0 <? c_clientVersion c)%N; cbn [quiet peek]; [|discriminate].
    destruct (slice64 _ (c_clientVersion c)); cbn [quiet]; discriminate.
  - apply calm_first; [exact FC|]. quiets. destruct (check_bit (c_bits c) flagEngineForceBlink); cbn [quiet peek]; [discriminate|].
    destruct (0 <? c_engineName c)%N; cbn [quiet peek]; discriminate.
  - apply calm_version. exact PE.
  - apply calm_first; [exact FC|]. quiets. destruct (0 <? c_engineVersion c)%N; cbn [quiet peek]; discriminate.
  - apply calm_first; [exact FD|]. quiets. destruct (check_bit (c_bits c) flagDeviceForceDesktop); cbn [quiet peek]; discriminate.
  - apply calm_first; [exact FD|]. quiets. destruct (negb (c_brand c =? 0)%N); cbn [quiet peek]; [|discriminate]. destruct (slice64 _ (c_brand c)); cbn [quiet]; discriminate.
  - apply calm_first; [exact FD|]. quiets. destruct (negb (c_model c =? 0)%N); cbn [quiet peek]; [|discriminate]. destruct (slice64 _ (c_model c)); cbn [quiet]; discriminate.
  - apply calm_first; [exact FO|]. quiets. destruct (negb (c_osName c =? 0)%N); cbn [quiet peek]; [|discriminate].
    destruct (check_bit (c_bits c) flagOSBufSrc); cbn [quiet peek]; destruct (slice64 _ (c_osName c)); cbn [quiet]; discriminate.
  - apply calm_version. exact PO.
  - apply calm_first; [exact FO|]. specialize (HV eq_refl). unfold plain_version in HV. revert HV.
    cbn [run_getter]. unfold pmap, get_os_version_string, pbind, ensure. rewrite FO. cbn [prog_bind]. unfold plift. cbn [prog_bind].
    unfold read_os_version, mbind, mget, mlift, mret, append_buf, mmod. quiets. destruct (0 <? c_osVersion c)%N; [|discriminate]. cbn [quiet peek].
    destruct (slice64 _ (c_osVersion c)) as [raw|]; [|discriminate]. cbn [then_]. destruct (index_byte raw x5f) eqn:E; [|discriminate].
    cbn. intros HV. exfalso. assert (L := f_equal (fun x => length (c_buf x)) HV). cbn in L. rewrite app_length in L. unfold dots in L. rewrite map_length in L.
    destruct raw; [discriminate|]. cbn in L. lia.
  - unfold calm. discriminate.
Qed.
Lemma settled_answer T c g : settled_ctx c -> harmless T c g -> quiet (reading T g) c = Some (answer T c g).
Proof.
  intros S H. pose proof (settled_calm T c g S H) as Q. unfold calm in Q. destruct (quiet (reading T g) c) as [r|] eqn:E; [|contradiction]. f_equal.
  apply quiet_runs in E. unfold answer. pose proof (leaf_cold (run_getter T g c)) as L. destruct (run_cold (run_getter T g c)) as [c' r'].
  apply (reading_agrees T g) in L. apply (runs_ends _ _ _ E) in L. injection L as _ ->. reflexivity.
Qed.

(** ** Goroutines on a settled context *)
Definition on_course (T : tables) (c : ctx) (calls : list getter) (g : gorout) : Prop :=
  exists done, g_got g = map (answer T c) done /\
    match g_now g with
    | None => calls = done ++ g_todo g
    | Some s => exists x, calls = done ++ x :: g_todo g /\ quiet s c = Some (answer T c x)
    end.
Definition reads_only (tr : list (nat * access)) : Prop := forall i x, In (i, x) tr -> exists l, x = Reads l.

Lemma go1_course T c calls g o c' g' : settled_ctx c -> (forall x, In x calls -> harmless T c x) -> on_course T c calls g ->
  go1 T c g o c' g' -> c' = c /\ on_course T c calls g' /\ (forall x, o = Some x -> exists l, x = Reads l).
Proof.
  intros S V (done & Hg & HC) H. destruct H as [c x gs got|c r gs got|c l k gs got|c l v k gs got|c p k gs got c' r L]; cbn [g_now g_todo g_got] in *.
  - split; [reflexivity|]. split; [|discriminate]. exists done. cbn [g_now g_todo g_got]. split; [exact Hg|]. exists x. split; [exact HC|].
    apply settled_answer; [exact S|]. apply V. rewrite HC. apply in_elt.
  - destruct HC as (x & HC & Q). split; [reflexivity|]. split; [|discriminate]. exists (done ++ [x]). cbn [g_now g_todo g_got]. cbn in Q. injection Q as ->.
    split; [rewrite map_app, Hg; reflexivity|rewrite <- app_assoc; exact HC].
  - destruct HC as (x & HC & Q). split; [reflexivity|]. split; [|intros y E; injection E as <-; eauto]. exists done. cbn [g_now g_todo g_got]. split; [exact Hg|].
    exists x. split; [exact HC|exact Q].
  - destruct HC as (x & HC & Q). discriminate.
  - destruct HC as (x & HC & Q). discriminate.
Qed.

Lemma together_course T c calls : settled_ctx c -> (forall gs x, In gs calls -> In x gs -> harmless T c x) ->
  forall tr c' gos, together T (all_start c calls) tr (c', gos) -> c' = c /\ Forall2 (on_course T c) calls gos /\ reads_only tr.
Proof.
  intros S V. assert (G : forall s tr s', together T s tr s' -> s = all_start c calls -> fst s' = c /\ Forall2 (on_course T c) calls (snd s') /\ reads_only tr).
  - intros s tr s' H. induction H as [s|s tr c0 a b g o c1 g' H IH H1]; intros ->.
    + cbn. split; [reflexivity|]. split; [|intros i x []]. clear V. induction calls as [|gs calls IH]; cbn; [constructor|]. constructor; [|exact IH].
      exists []. cbn. auto.
    + destruct (IH eq_refl) as (E0 & F & R). cbn [fst snd] in *. subst c0. apply Forall2_app_inv_r in F as (ca & cb & Fa & Fb & ->). inversion Fb as [|gs g0 cb' b' Hg Fb']; subst.
      destruct (go1_course T _ gs g o c1 g' S) as (-> & Hg' & HR); [intros x Hx; apply (V gs x); [apply in_elt|exact Hx]|exact Hg|exact H1|].
      split; [reflexivity|]. split; [apply Forall2_app; [exact Fa|constructor; [exact Hg'|exact Fb']]|].
      destruct o as [x|]; [|exact R]. intros i y Hi. apply in_app_iff in Hi as [Hi|[E|[]]]; [exact (R i y Hi)|]. injection E as <- <-. apply HR. reflexivity.
  - intros tr c' gos H. exact (G _ _ _ H eq_refl).
Qed.
Lemma reads_no_clash tr : reads_only tr -> ~ clash tr.
Proof.
  intros R (i & j & x & y & l & _ & Hx & _ & C & _). destruct (R i x Hx) as (l' & ->). destruct C; discriminate.
Qed.
Theorem readers T c calls tr c' gos : settled_ctx c -> (forall gs, In gs calls -> In GOSVersionString gs -> plain_version T c) ->
  together T (all_start c calls) tr (c', gos) -> c' = c /\ ~ clash tr /\ Forall2 (answered_by T c) calls gos.
Proof.
  intros S V H. destruct (together_course T c calls S) with (tr := tr) (c' := c') (gos := gos) as (-> & F & R); [|exact H|].
  - intros gs x Hgs Hx ->. exact (V gs Hgs Hx).
  - split; [reflexivity|]. split; [exact (reads_no_clash _ R)|]. clear -F. induction F as [|calls0 g calls gos HF _ IHF]; constructor; [|exact IHF]. clear IHF. destruct HF as (done & E & HC).
    destruct (g_now g) as [s|] eqn:N.
    + destruct HC as (x & HC & _). exists done, (x :: g_todo g). split; [exact HC|]. split; [exact E|]. rewrite N. discriminate.
    + exists done, (g_todo g). split; [exact HC|]. split; [exact E|]. auto.
Qed.

(** Every getter but GetModel returns, in every consistent environment, the value of a lone call; scripts and
    interleavings. *)
From Verif Require Import Proof_Base Model_CacheEntry Model_Version Model_Ctx Model_Parse Model_Cache Spec_Cache Spec_Getters
  Proof_Local Proof_Version Proof_Safe Proof_Cache.

Lemma reparse b : parse (fst (parse version_zero b)) b = parse version_zero b.
Proof.
  destruct (parse version_zero b) as [v []] eqn:E; cbn [fst].
  - rewrite parse_parsed; [congruence|]. eapply parse_success_p; eassumption.
  - eapply parse_fail_again; eassumption.
Qed.

Definition rmap {A B} (f : A -> B) (r : res A) : res B := match r with Ok a => Ok (f a) | Panic => Panic end.

Section Getters.
Variable T : tables.
Variables mC mD : N.

Notation good := (good T mC mD).
Notation G := (G T mC mD).
Notation no_panics := (no_panics T mC mD).

Lemma safe_parse_device ua h c :
  no_panics ua -> good ua h c -> bit flagDeviceDetect c = false ->
  safe G (parse_device T c) (fun x => good ua h (fst x) /\ bit flagDeviceDetect (fst x) = true /\ snd x <> Panic).
Proof.
  intros NP Gc B.
  assert (Body : safe G (pdefer (device_body T) (fun _ => finish flagDeviceDetect) c)
    (fun x => good ua h (fst x) /\ bit flagDeviceDetect (fst x) = true /\ snd x <> Panic)).
  { unfold pdefer. apply safe_bind. eapply safe_mono; [|apply safe_device_body; eassumption].
    intros [c1 r]. cbn [fst snd]. intros [Good1 Hr].
    cbn [finish pbind plift mmod prog_bind pcset safe].
    assert (Es : get_user_agent (set_flag flagDeviceDetect c1) = ua).
    { unfold get_user_agent. apply Good1. }
    split.
    - rewrite Es. apply row_of_ctx. apply Good1.
    - cbn [fst snd]. split; [exact Good1|]. split; [|exact Hr].
      unfold bit, set_flag. cbn. apply check_set_same. }
  unfold parse_device. cbn [pbind pcget prog_bind]. cbn [safe]. intros o Ho.
  destruct o as [e|]; [|exact Body].
  destruct (check_bit (e_bits e) flagDeviceDetect) eqn:Eb; [|exact Body].
  cbn [plift mmod pbind prog_bind pret safe fst snd].
  split; [|split; [exact Eb|discriminate]].
  assert (Es : c_src c = ua) by apply Gc.
  unfold get_user_agent in Ho. rewrite Es in Ho. apply from_cache_good; [exact Gc|]. apply Ho. reflexivity.
Qed.

Definition safe_detect (flag : N) (parse : P bool) : Prop :=
  forall ua h c, no_panics ua -> good ua h c ->
  safe G (ensure flag parse c) (fun x => (good ua h (fst x) /\ bit flag (fst x) = true) /\ snd x = Ok tt).

Lemma safe_detect_client : safe_detect flagClientDetect (parse_client T).
Proof.
  intros ua h c NP Gc. apply (safe_ensure T mC mD _ _ (fun c => good ua h c /\ bit flagClientDetect c = true)); [auto|].
  intros B. eapply safe_mono; [|apply safe_parse_client; eauto]. cbn. tauto.
Qed.
Lemma safe_detect_device : safe_detect flagDeviceDetect (parse_device T).
Proof.
  intros ua h c NP Gc. apply (safe_ensure T mC mD _ _ (fun c => good ua h c /\ bit flagDeviceDetect c = true)); [auto|].
  intros B. eapply safe_mono; [|apply safe_parse_device; eauto]. cbn. tauto.
Qed.
Lemma safe_detect_os : safe_detect flagOSDetect (parse_os T).
Proof.
  intros ua h c NP Gc. apply (safe_ensure T mC mD _ _ (fun c => good ua h c /\ bit flagOSDetect c = true)); [auto|].
  intros B. eapply safe_mono; [|apply safe_parse_os; eauto]. cbn. tauto.
Qed.

(** A detection followed by a read. *)
Lemma safe_read {A} flag parse (read : M A) ua h c (fin : res A) :
  safe_detect flag parse -> no_panics ua -> good ua h c ->
  (forall c1, good ua h c1 -> bit flag c1 = true -> snd (read c1) = fin /\ good ua h (fst (read c1)) /\ bit flag (fst (read c1)) = true) ->
  safe G ((ensure flag parse ;; plift read)%p c) (fun x => good ua h (fst x) /\ bit flag (fst x) = true /\ snd x = fin).
Proof.
  intros SD NP Gc H. unfold pbind. apply safe_bind. eapply safe_mono; [|apply SD; eassumption].
  intros [c1 r]. cbn [fst snd]. intros [[G1 B1] ->]. unfold plift. cbn [safe].
  destruct (H c1 G1 B1) as (H1 & H2 & H3). auto.
Qed.

(** A read that does not change the context. *)
Definition pure_read {A X} (V : ctx -> X) (read : M A) : Prop :=
  forall c c', V c = V c' -> snd (read c) = snd (read c') /\ fst (read c) = c.

Definition client_hint_view (c : ctx) := (client_view c, c_hint c).

Ltac pure_tac :=
  intros c c' E; unf; cbv [mbind mget mlift mret];
  repeat match goal with
         | E : (_, _) = (_, _) |- _ => injection E; clear E; intros
         end.

Ltac pure_done := repeat match goal with
  | H : ?f ?c = ?f ?c' |- context [?f ?c] => first [rewrite H | fail 1] end.

Lemma pure_client_type : pure_read client_view (mget c_clientType).
Proof. intros c c' E. unf. cbn. split; [congruence|reflexivity]. Qed.

Lemma pure_browser : pure_read client_hint_view (read_browser T).
Proof.
  intros c c' E. unfold client_hint_view in E. unf. injection E as E1 E2 E3 E4 E5 E6 E7 E8 E9 E10.
  cbv [read_browser mbind mget mlift mret]. rewrite E4, E10.
  destruct (negb (c_hint c' =? 0)%N).
  - destruct (amap_get (hr_idx T) (c_hint c')) as [e|]; [|split; reflexivity].
    destruct (0 <? e)%N; split; reflexivity.
  - destruct (0 <? c_clientName c')%N; [|split; reflexivity].
    destruct (0 <? c_clientName c')%N; split; reflexivity.
Qed.

Lemma pure_browser_version : pure_read client_view (read_browser_version T).
Proof.
  intros c c' E. unf. injection E as E1 E2 E3 E4 E5 E6 E7 E8 E9.
  cbv [read_browser_version mbind mget mlift mret]. rewrite E5.
  destruct (0 <? c_clientVersion c')%N; [|split; reflexivity]. rewrite E1, E8.
  destruct (slice64 _ _); split; reflexivity.
Qed.

Lemma pure_engine : pure_read client_view (read_engine T).
Proof.
  intros c c' E. unf. injection E as E1 E2 E3 E4 E5 E6 E7 E8 E9.
  cbv [read_engine mbind mget mlift mret]. rewrite E9.
  destruct (check_bit (c_bits c') flagEngineForceBlink); [split; reflexivity|]. rewrite E6.
  destruct (0 <? c_engineName c')%N; split; reflexivity.
Qed.

Lemma pure_engine_version : pure_read client_view read_engine_version.
Proof.
  intros c c' E. unf. injection E as E1 E2 E3 E4 E5 E6 E7 E8 E9.
  cbv [read_engine_version mbind mget mlift mret]. rewrite E7.
  destruct (0 <? c_engineVersion c')%N; [|split; reflexivity]. rewrite E1. split; reflexivity.
Qed.

Lemma pure_device_type : pure_read device_view read_device_type.
Proof.
  intros c c' E. unf. injection E as E1 E2 E3 E4 E5 E6.
  cbv [read_device_type mbind mget mlift mret]. rewrite E5.
  destruct (check_bit (c_bits c') flagDeviceForceDesktop); [split; reflexivity|]. rewrite E3. split; reflexivity.
Qed.

Lemma pure_brand : pure_read device_view (read_brand T).
Proof.
  intros c c' E. unf. injection E as E1 E2 E3 E4 E5 E6.
  cbv [read_brand mbind mget mlift mret]. rewrite E4.
  destruct (negb (c_brand c' =? 0)%N); [|split; reflexivity]. rewrite E6.
  destruct (slice64 _ _); split; reflexivity.
Qed.

Lemma read_os_version_view c c' :
  os_view c = os_view c' ->
  snd (read_os_version T c) = snd (read_os_version T c') /\
  exists b, fst (read_os_version T c) = up_buf (c_buf c ++ b) c /\
    ((b = [] /\ fst (read_os_version T c) = c) \/ snd (read_os_version T c) = Ok b).
Proof.
  assert (Nil : up_buf (c_buf c ++ []) c = c) by (rewrite app_nil_r; destruct c; reflexivity).
  intros E. unf. injection E as E1 E2 E3 E4 E5.
  cbv [read_os_version mbind mget mlift mret append_buf mmod]. rewrite E3.
  destruct (0 <? c_osVersion c')%N; [|split; [reflexivity|exists []; rewrite Nil; auto]]. rewrite E1, E5.
  destruct (slice64 _ _) as [raw|]; [|split; [reflexivity|exists []; rewrite Nil; auto]].
  destruct (index_byte raw x5f); (split; [reflexivity|]).
  - exists (dots raw). split; [reflexivity|right; reflexivity].
  - exists []. rewrite Nil. auto.
Qed.

Lemma good_up_buf ua h b c : good ua h c -> good ua h (up_buf b c).
Proof.
  intros (E1 & E2 & E3 & E4 & V1 & V2 & V3 & P).
  split; [exact E1|]. split; [exact E2|]. split; [exact E3|]. split; [exact E4|].
  split; [exact V1|]. split; [exact V2|]. split; [exact V3|].
  eapply parts_ok_ext; [|exact P]. reflexivity.
Qed.

Lemma good_device_view ua h c :
  good ua h c -> bit flagDeviceDetect c = true -> device_view c = (ua, mD, device_part (fin_device T mC mD ua)).
Proof.
  intros (E1 & _ & E3 & _ & _ & _ & _ & _ & _ & P3) B. unfold part_ok in P3. rewrite B in P3.
  unfold device_view. rewrite P3, E1, E3. reflexivity.
Qed.

(** A context holding the final device part. *)
Definition dev_ctx (ua : bytes) : ctx :=
  up_src ua (up_maskD mD (fin_device T mC mD ua)).
Lemma dev_ctx_view ua : device_view (dev_ctx ua) = (ua, mD, device_part (fin_device T mC mD ua)).
Proof. reflexivity. Qed.

(** The value of each getter in terms of the three detections. *)
Definition final (ua : bytes) (h : N) (g : getter) : res value :=
  match g with
  | GClientType => Ok (VN (c_clientType (fin_client T mC mD ua)))
  | GBrowser => rmap VB (snd (read_browser T (up_hint h (fin_client T mC mD ua))))
  | GBrowserVersion => rmap (fun b => VV (fst (parse version_zero b))) (fin_bvs T mC mD ua)
  | GBrowserVersionString => rmap VB (fin_bvs T mC mD ua)
  | GEngine => rmap VB (snd (read_engine T (fin_client T mC mD ua)))
  | GEngineVersion => rmap (fun b => VV (fst (parse version_zero b))) (fin_evs T mC mD ua)
  | GEngineVersionString => rmap VB (fin_evs T mC mD ua)
  | GDeviceType => rmap VN (snd (read_device_type (dev_ctx ua)))
  | GBrand => rmap VB (snd (read_brand T (dev_ctx ua)))
  | GModel => Panic (* not covered *)
  | GOS => rmap VB (fin_osname T mC mD ua)
  | GOSVersion => rmap (fun b => VV (fst (parse version_zero b))) (fin_ovs T mC mD ua)
  | GOSVersionString => rmap VB (fin_ovs T mC mD ua)
  | GUserAgent => Ok (VB ua)
  end.

Lemma safe_pmap {A B} (f : A -> B) (p : P A) c (Q : ctx -> Prop) (r : res A) :
  safe G (p c) (fun x => Q (fst x) /\ snd x = r) -> safe G (pmap f p c) (fun x => Q (fst x) /\ snd x = rmap f r).
Proof.
  intros S. unfold pmap, pbind. apply safe_bind. eapply safe_mono; [|exact S].
  intros [c1 r1]. cbn [fst snd]. intros [Hq ->]. destruct r; cbn; auto.
Qed.

Lemma safe_drop {A} (p : prog (ctx * res A)) (Q : ctx -> Prop) (R : ctx -> Prop) r :
  safe G p (fun x => Q (fst x) /\ R (fst x) /\ snd x = r) -> safe G p (fun x => Q (fst x) /\ snd x = r).
Proof. apply safe_mono. tauto. Qed.

(** Version getters. *)
Lemma safe_version (proj : ctx -> version) (upd : version -> ctx -> ctx) (gs : P bytes) ua h c (raw : res bytes) :
  (forall v c, proj (upd v c) = v) ->
  (forall c v, good ua h c -> ver_ok v raw -> good ua h (upd v c)) ->
  (forall c, good ua h c -> ver_ok (proj c) raw) ->
  good ua h c ->
  (safe G (gs c) (fun x => (good ua h (fst x) /\ proj (fst x) = proj c) /\ snd x = raw)) ->
  safe G ((fun c => if v_p (proj c) then Ret (c, Ok (proj c))
          else (raw <- gs ;;
                plift (mmod (fun c => upd (fst (parse (proj c) raw)) c)) ;;
                plift (mget proj))%p c) c)
       (fun x => good ua h (fst x) /\ snd x = rmap (fun b => fst (parse version_zero b)) raw).
Proof.
  intros PU GU VU Gc S. cbv beta. destruct (v_p (proj c)) eqn:Ep.
  - cbn [safe fst snd]. split; [exact Gc|].
    destruct (VU c Gc) as [E|(b & -> & E)]; [rewrite E in Ep; discriminate|]. cbn [rmap]. rewrite E. reflexivity.
  - unfold pbind. apply safe_bind. eapply safe_mono; [|exact S].
    intros [c1 r1]. cbn [fst snd]. intros [[G1 E1] ->].
    destruct raw as [b|]; cbn [rmap]; [|cbn; auto].
    cbn [plift mmod prog_bind mget safe fst snd].
    assert (Ev : fst (parse (proj c1) b) = fst (parse version_zero b)).
    { destruct (VU c1 G1) as [->|(b' & Eb & ->)]; [reflexivity|].
      injection Eb as <-. rewrite reparse. reflexivity. }
    rewrite Ev, PU. split; [|reflexivity]. apply GU; [exact G1|]. right. eauto.
Qed.

(** Reads and detections leave the parsed versions alone. *)
Definition vers (c : ctx) := (c_cver c, c_ever c, c_over c).

Definition keeps_vers {A} (p : prog (ctx * res A)) (c : ctx) : Prop :=
  safe (fun _ _ => True) p (fun x => vers (fst x) = vers c).

Lemma safe_and {A} (G1 G2 : bytes -> entry -> Prop) (p : prog A) (Q1 Q2 : A -> Prop) :
  (forall k e, G1 k e -> G2 k e) -> safe G1 p Q1 -> safe G2 p Q2 -> safe G1 p (fun x => Q1 x /\ Q2 x).
Proof.
  intros H. induction p as [a|k f IH|k e p IH]; cbn; [auto| |].
  - intros S1 S2 o Ho. apply IH; [apply S1; exact Ho|]. apply S2. intros e He. apply H. auto.
  - intros [A1 S1] [_ S2]. auto.
Qed.

Lemma keeps_finish flag c : keeps_vers (finish flag c) c.
Proof. unfold keeps_vers, finish. cbn. auto. Qed.

Lemma keeps_detect_m flag (m : M bool) c :
  (forall c, vers (fst (m c)) = vers c) ->
  keeps_vers ((o <- pcget get_user_agent ;;
   match o with
   | Some e =>
       if check_bit (e_bits e) flag then plift (mmod (from_cache e)) ;; pret true
       else pdefer (plift m) (fun _ => finish flag)
   | None => pdefer (plift m) (fun _ => finish flag)
   end)%p c) c.
Proof.
  intros H. unfold keeps_vers, pbind, pcget. cbn [prog_bind safe]. intros o _.
  assert (Body : safe (fun _ _ => True) (pdefer (plift m) (fun _ => finish flag) c) (fun x => vers (fst x) = vers c)).
  { unfold pdefer, plift. cbn [prog_bind]. specialize (H c). destruct (m c) as [c1 r]. cbn. split; auto. }
  destruct o as [e|]; [|exact Body]. destruct (check_bit (e_bits e) flag); [|exact Body].
  cbn. reflexivity.
Qed.

Lemma vers_client c : vers (fst (client_try T client_classes c)) = vers c.
Proof.
  pose proof (proj2 (local_client_try T client_classes) c) as H. unfold client_rest, env_part in H. unfold vers. congruence.
Qed.
Lemma vers_os c : vers (fst (eval_os T c)) = vers c.
Proof. pose proof (proj2 (local_eval_os T) c) as H. unfold os_rest, env_part in H. unfold vers. congruence. Qed.

Lemma keeps_ensure flag parse c : keeps_vers (parse c) c -> keeps_vers (ensure flag parse c) c.
Proof.
  intros H. unfold ensure. destruct (check_bit (c_bits c) flag); [cbn; reflexivity|].
  unfold keeps_vers, pbind. apply safe_bind. eapply safe_mono; [|exact H].
  intros [c1 [a|]] E; cbn in *; exact E.
Qed.

Lemma keeps_read {A} flag parse (read : M A) c :
  keeps_vers (parse c) c -> (forall c, vers (fst (read c)) = vers c) ->
  keeps_vers ((ensure flag parse ;; plift read)%p c) c.
Proof.
  intros H R. unfold keeps_vers, pbind. apply safe_bind. eapply safe_mono; [|apply keeps_ensure; exact H].
  intros [c1 [a|]] E; cbn in *; [|exact E]. rewrite R. exact E.
Qed.

Lemma keeps_bvs c : keeps_vers (get_browser_version_string T c) c.
Proof.
  apply keeps_read; [apply (keeps_detect_m flagClientDetect); apply vers_client|].
  intros c1. rewrite (proj2 (pure_browser_version c1 c1 eq_refl)). reflexivity.
Qed.
Lemma keeps_evs c : keeps_vers (get_engine_version_string T c) c.
Proof.
  apply keeps_read; [apply (keeps_detect_m flagClientDetect); apply vers_client|].
  intros c1. rewrite (proj2 (pure_engine_version c1 c1 eq_refl)). reflexivity.
Qed.
Lemma keeps_ovs c : keeps_vers (get_os_version_string T c) c.
Proof.
  apply keeps_read; [apply (keeps_detect_m flagOSDetect); apply vers_os|].
  intros c1. destruct (proj2 (read_os_version_view c1 c1 eq_refl)) as (b & -> & _). reflexivity.
Qed.

(** Pure reads, one group at a time. *)
Lemma safe_client_read {A} (read : M A) ua h c :
  no_panics ua -> good ua h c -> pure_read client_view read ->
  safe G ((ensure flagClientDetect (parse_client T) ;; plift read)%p c)
       (fun x => good ua h (fst x) /\ snd x = snd (read (fin_client T mC mD ua))).
Proof.
  intros NP Gc PR. eapply safe_drop with (R := fun c => bit flagClientDetect c = true).
  apply safe_read; auto using safe_detect_client.
  intros c1 G1 B1. destruct (PR c1 _ (good_client_view T mC mD ua h c1 G1 B1)) as [R1 R2]. rewrite R2. auto.
Qed.

Lemma safe_browser ua h c :
  no_panics ua -> good ua h c ->
  safe G (get_browser T c) (fun x => good ua h (fst x) /\ snd x = snd (read_browser T (up_hint h (fin_client T mC mD ua)))).
Proof.
  intros NP Gc. eapply safe_drop with (R := fun c => bit flagClientDetect c = true).
  apply safe_read; auto using safe_detect_client.
  intros c1 G1 B1.
  assert (E : client_hint_view c1 = client_hint_view (up_hint h (fin_client T mC mD ua))).
  { unfold client_hint_view. f_equal; [exact (good_client_view T mC mD ua h c1 G1 B1)|apply G1]. }
  destruct (pure_browser c1 _ E) as [R1 R2]. rewrite R2. auto.
Qed.

Lemma safe_device_read {A} (read : M A) ua h c :
  no_panics ua -> good ua h c -> pure_read device_view read ->
  safe G ((ensure flagDeviceDetect (parse_device T) ;; plift read)%p c)
       (fun x => good ua h (fst x) /\ snd x = snd (read (dev_ctx ua))).
Proof.
  intros NP Gc PR. eapply safe_drop with (R := fun c => bit flagDeviceDetect c = true).
  apply safe_read; auto using safe_detect_device.
  intros c1 G1 B1.
  assert (E : device_view c1 = device_view (dev_ctx ua)) by (rewrite dev_ctx_view; eapply good_device_view; eauto).
  destruct (PR c1 _ E) as [R1 R2]. rewrite R2. auto.
Qed.

Lemma safe_ovs ua h c :
  no_panics ua -> good ua h c ->
  safe G (get_os_version_string T c) (fun x => good ua h (fst x) /\ snd x = fin_ovs T mC mD ua).
Proof.
  intros NP Gc. eapply safe_drop with (R := fun c => bit flagOSDetect c = true).
  apply safe_read; auto using safe_detect_os.
  intros c1 G1 B1. destruct (read_os_version_view c1 _ (good_os_view T mC mD ua h c1 G1 B1)) as [R1 (b & R2 & _)].
  rewrite R2. split; [exact R1|]. split; [apply good_up_buf; exact G1|exact B1].
Qed.

Lemma safe_vers {A} (p : prog (ctx * res A)) c (proj : ctx -> version) (Q : ctx -> Prop) r :
  (forall c c', vers c = vers c' -> proj c = proj c') ->
  keeps_vers p c -> safe G p (fun x => Q (fst x) /\ snd x = r) ->
  safe G p (fun x => (Q (fst x) /\ proj (fst x) = proj c) /\ snd x = r).
Proof.
  intros HP K S. eapply safe_mono; [|exact (safe_and _ _ _ _ _ (fun _ _ _ => I) S K)].
  cbn. intros x [[H1 H2] H3]. auto.
Qed.

Theorem safe_getter ua h c g :
  no_panics ua -> good ua h c -> g <> GModel ->
  safe G (run_getter T g c) (fun x => good ua h (fst x) /\ snd x = final ua h g).
Proof.
  intros NP Gc Hg. destruct g; try congruence; cbn [run_getter final].
  - apply (safe_pmap VN (get_client_type T) c (good ua h) (Ok (c_clientType (fin_client T mC mD ua)))).
    apply (safe_client_read (mget c_clientType)); auto using pure_client_type.
  - apply safe_pmap. apply safe_browser; auto.
  - assert (S : safe G (get_browser_version T c)
      (fun x => good ua h (fst x) /\ snd x = rmap (fun b => fst (parse version_zero b)) (fin_bvs T mC mD ua))).
    { apply (safe_version c_cver up_cver (get_browser_version_string T)).
      - reflexivity.
      - intros c1 v (E1 & E2 & E3 & E4 & V1 & V2 & V3 & P) Hv.
        split; [exact E1|]. split; [exact E2|]. split; [exact E3|]. split; [exact E4|].
        split; [exact Hv|]. split; [exact V2|]. split; [exact V3|].
        eapply parts_ok_ext; [|exact P]. reflexivity.
      - intros c1 G1. apply G1.
      - exact Gc.
      - apply safe_vers; [unfold vers; congruence|apply keeps_bvs|].
        apply (safe_client_read (read_browser_version T)); auto using pure_browser_version. }
    pose proof (safe_pmap VV _ _ _ _ S) as S'. eapply safe_mono; [|exact S'].
    intros x [H1 H2]. split; [exact H1|]. rewrite H2. destruct (fin_bvs T mC mD ua); reflexivity.
  - apply safe_pmap. apply (safe_client_read (read_browser_version T)); auto using pure_browser_version.
  - apply safe_pmap. apply (safe_client_read (read_engine T)); auto using pure_engine.
  - assert (S : safe G (get_engine_version T c)
      (fun x => good ua h (fst x) /\ snd x = rmap (fun b => fst (parse version_zero b)) (fin_evs T mC mD ua))).
    { apply (safe_version c_ever up_ever (get_engine_version_string T)).
      - reflexivity.
      - intros c1 v (E1 & E2 & E3 & E4 & V1 & V2 & V3 & P) Hv.
        split; [exact E1|]. split; [exact E2|]. split; [exact E3|]. split; [exact E4|].
        split; [exact V1|]. split; [exact Hv|]. split; [exact V3|].
        eapply parts_ok_ext; [|exact P]. reflexivity.
      - intros c1 G1. apply G1.
      - exact Gc.
      - apply safe_vers; [unfold vers; congruence|apply keeps_evs|].
        apply (safe_client_read read_engine_version); auto using pure_engine_version. }
    pose proof (safe_pmap VV _ _ _ _ S) as S'. eapply safe_mono; [|exact S'].
    intros x [H1 H2]. split; [exact H1|]. rewrite H2. destruct (fin_evs T mC mD ua); reflexivity.
  - apply safe_pmap. apply (safe_client_read read_engine_version); auto using pure_engine_version.
  - apply safe_pmap. apply (safe_device_read read_device_type); auto using pure_device_type.
  - apply safe_pmap. apply (safe_device_read (read_brand T)); auto using pure_brand.
  - apply safe_pmap. eapply safe_drop with (R := fun c => bit flagOSDetect c = true). apply safe_get_os; auto.
  - assert (S : safe G (get_os_version T c)
      (fun x => good ua h (fst x) /\ snd x = rmap (fun b => fst (parse version_zero b)) (fin_ovs T mC mD ua))).
    { apply (safe_version c_over up_over (get_os_version_string T)).
      - reflexivity.
      - intros c1 v (E1 & E2 & E3 & E4 & V1 & V2 & V3 & P) Hv.
        split; [exact E1|]. split; [exact E2|]. split; [exact E3|]. split; [exact E4|].
        split; [exact V1|]. split; [exact V2|]. split; [exact Hv|].
        eapply parts_ok_ext; [|exact P]. reflexivity.
      - intros c1 G1. apply G1.
      - exact Gc.
      - apply safe_vers; [unfold vers; congruence|apply keeps_ovs|].
        apply safe_ovs; auto. }
    pose proof (safe_pmap VV _ _ _ _ S) as S'. eapply safe_mono; [|exact S'].
    intros x [H1 H2]. split; [exact H1|]. rewrite H2. destruct (fin_ovs T mC mD ua); reflexivity.
  - apply safe_pmap. apply safe_ovs; auto.
  - cbn. split; [exact Gc|]. do 2 f_equal. apply Gc.
Qed.

Lemma good_fresh ua h : good ua h (fresh_ctx mC mD h ua).
Proof.
  split; [reflexivity|]. split; [reflexivity|]. split; [reflexivity|]. split; [reflexivity|].
  split; [now left|]. split; [now left|]. split; [now left|]. split; [|split]; reflexivity.
Qed.

Lemma final_alone ua h g : no_panics ua -> g <> GModel -> final ua h g = alone T mC mD h ua g.
Proof.
  intros NP Hg. unfold alone.
  pose proof (safe_cold _ _ _ (safe_getter ua h _ g NP (good_fresh ua h) Hg)) as [_ H]. congruence.
Qed.

(** The hypothesis on lone calls gives the one on detections. *)
Lemma run_cold_pmap {A B} (f : A -> B) (p : P A) c :
  snd (run_cold (pmap f p c)) = rmap f (snd (run_cold (p c))).
Proof.
  unfold pmap, pbind. rewrite run_cold_bind. destruct (run_cold (p c)) as [c1 [a|]]; reflexivity.
Qed.

Lemma run_cold_detect_m flag (m : M bool) c (k : P unit) :
  check_bit (c_bits c) flag = false ->
  run_cold (ensure flag ((o <- pcget get_user_agent ;;
   match o with
   | Some e =>
       if check_bit (e_bits e) flag then plift (mmod (from_cache e)) ;; pret true
       else pdefer (plift m) (fun _ => finish flag)
   | None => pdefer (plift m) (fun _ => finish flag)
   end)%p) c) = (set_flag flag (fst (m c)), rmap (fun _ => tt) (snd (m c))).
Proof.
  intros E. unfold ensure. rewrite E. unfold pbind. rewrite run_cold_bind. cbn [pcget prog_bind run_cold].
  unfold pdefer, plift. cbn [prog_bind]. destruct (m c) as [c1 [b|]]; cbn; reflexivity.
Qed.

Lemma detects_no_panics ua : detects T mC mD ua -> no_panics ua.
Proof.
  intros (H1 & H2 & H3). unfold alone, run_getter in *. rewrite run_cold_pmap in H1. rewrite run_cold_pmap in H2. rewrite run_cold_pmap in H3.
  fold (c0 mC mD ua) in *.
  assert (NP1 : snd (client_try T client_classes (c0 mC mD ua)) <> Panic).
  { intros E. apply H1. unfold get_client_type, pbind. rewrite run_cold_bind. unfold parse_client.
    rewrite (run_cold_detect_m flagClientDetect _ _ (pret tt)) by reflexivity. rewrite E. reflexivity. }
  assert (Eos : run_cold (get_os T (c0 mC mD ua)) =
    run_cold (match (set_flag flagOSDetect (fin_os T mC mD ua), rmap (fun _ => tt) (snd (eval_os T (c0 mC mD ua)))) with
              | (c', Ok a) => plift (read_os T) c'
              | (c', Panic) => Ret (c', Panic) end)).
  { unfold get_os, pbind. rewrite run_cold_bind. unfold parse_os.
    rewrite (run_cold_detect_m flagOSDetect _ _ (pret tt)) by reflexivity. reflexivity. }
  assert (NP2 : snd (eval_os T (c0 mC mD ua)) <> Panic).
  { intros E. apply H3. rewrite Eos, E. reflexivity. }
  assert (NP4 : snd (read_os T (fin_os T mC mD ua)) <> Panic).
  { intros E. apply H3. rewrite Eos. destruct (snd (eval_os T (c0 mC mD ua))) as [b|]; [|reflexivity].
    cbn [rmap plift run_cold].
    destruct (read_os_ext T (set_flag flagOSDetect (fin_os T mC mD ua)) (fin_os T mC mD ua)) as [R _]; [view_tac|].
    rewrite R, E. reflexivity. }
  split; [exact NP1|]. split; [exact NP2|]. split; [|exact NP4].
  intros E. apply H2. unfold get_device_type, pbind. rewrite run_cold_bind. unfold ensure.
  rewrite (eq_refl : check_bit (c_bits (c0 mC mD ua)) flagDeviceDetect = false).
  unfold pbind. rewrite run_cold_bind. unfold parse_device, pbind. cbn [pcget prog_bind run_cold].
  unfold pdefer. rewrite run_cold_bind. destruct (run_cold (device_body T (c0 mC mD ua))) as [c1 r]. cbn [snd] in E. subst r.
  reflexivity.
Qed.

(** Scripts. *)
Lemma good_set_ua ua h ua' c : good ua h c -> good ua' 0 (set_user_agent ua' c).
Proof.
  intros (E1 & E2 & E3 & _).
  split; [reflexivity|]. split; [exact E2|]. split; [exact E3|]. split; [reflexivity|].
  split; [now left|]. split; [now left|]. split; [now left|]. split; [|split]; reflexivity.
Qed.

Lemma good_set_hint ua h s c : good ua h c -> good ua (match s with [] => h | _ => fnv1 s end) (set_requested_with s c).
Proof.
  intros Gc. unfold set_requested_with. destruct s as [|b s]; [exact Gc|]. cbn [length Nat.ltb Nat.leb].
  destruct Gc as (E1 & E2 & E3 & _ & V1 & V2 & V3 & P).
  split; [exact E1|]. split; [exact E2|]. split; [exact E3|]. split; [reflexivity|].
  split; [exact V1|]. split; [exact V2|]. split; [exact V3|].
  eapply parts_ok_ext; [|exact P]. reflexivity.
Qed.

Lemma good_recycle c : good [] 0 (recycle mC mD c).
Proof.
  split; [reflexivity|]. split; [reflexivity|]. split; [reflexivity|]. split; [reflexivity|].
  split; [now left|]. split; [now left|]. split; [now left|]. split; [|split]; reflexivity.
Qed.

(** ** Keys: a getter only asks for the row of its own user agent, and keeps the inputs *)
Definition env (c : ctx) : bytes * N * N := (c_src c, c_maskC c, c_maskD c).
Fixpoint keyed {A} (k : bytes * N * N) (p : prog (ctx * res A)) : Prop :=
  match p with
  | Ret x => env (fst x) = k
  | CGet k' f => k' = fst (fst k) /\ forall o, keyed k (f o)
  | CSet k' _ p' => k' = fst (fst k) /\ keyed k p'
  end.

Definition keyedP {A} (p : P A) : Prop := forall c, keyed (env c) (p c).

Lemma keyed_bind {A B} k (p : prog (ctx * res A)) (f : ctx * res A -> prog (ctx * res B)) :
  keyed k p -> (forall x, env (fst x) = k -> keyed k (f x)) -> keyed k (prog_bind p f).
Proof.
  intros H Hf. induction p as [a|k' g IH|k' e p IH]; cbn in *; [apply Hf; exact H| |].
  - destruct H as [H1 H2]. split; [exact H1|]. intros o. apply IH. apply H2.
  - destruct H as [H1 H2]. split; [exact H1|]. apply IH. exact H2.
Qed.

Lemma keyed_pret {A} (a : A) : keyedP (pret a).
Proof. intros c. reflexivity. Qed.
Lemma keyed_pbind {A B} (p : P A) (f : A -> P B) : keyedP p -> (forall a, keyedP (f a)) -> keyedP (pbind p f).
Proof.
  intros H Hf c. unfold pbind. apply keyed_bind; [apply H|].
  intros [c1 [a|]] E; cbn in E; [|exact E]. rewrite <- E. apply Hf.
Qed.
Lemma keyed_plift {A} (m : M A) : (forall c, env (fst (m c)) = env c) -> keyedP (plift m).
Proof. intros H c. cbn. apply H. Qed.
Lemma keyed_pcget : keyedP (pcget get_user_agent).
Proof. intros c. cbn. split; [reflexivity|]. reflexivity. Qed.
Lemma keyed_pdefer {A} (p : P A) f : keyedP p -> (forall r, keyedP (f r)) -> keyedP (pdefer p f).
Proof.
  intros H Hf c. unfold pdefer. apply keyed_bind; [apply H|].
  intros [c1 r] E; cbn in E. apply keyed_bind; [rewrite <- E; apply Hf|].
  intros [c2 [u|]] E2; exact E2.
Qed.
Lemma keyed_finish flag : keyedP (finish flag).
Proof. intros c. cbn. auto. Qed.

Lemma keyed_detect flag (body : P bool) :
  keyedP body ->
  keyedP (o <- pcget get_user_agent ;;
   match o with
   | Some e =>
       if check_bit (e_bits e) flag then plift (mmod (from_cache e)) ;; pret true
       else pdefer body (fun _ => finish flag)
   | None => pdefer body (fun _ => finish flag)
   end)%p.
Proof.
  intros H. apply keyed_pbind; [apply keyed_pcget|].
  intros [e|]; [|apply keyed_pdefer; auto using keyed_finish].
  destruct (check_bit (e_bits e) flag); [|apply keyed_pdefer; auto using keyed_finish].
  apply keyed_pbind; [apply keyed_plift; reflexivity|]. intros _. apply keyed_pret.
Qed.

Lemma keyed_ensure flag parse : keyedP parse -> keyedP (ensure flag parse).
Proof.
  intros H c. unfold ensure. destruct (check_bit (c_bits c) flag); [reflexivity|].
  apply (keyed_pbind parse (fun _ => pret tt)); [exact H|]. intros _. apply keyed_pret.
Qed.

Lemma src_client {A} (m : M A) : local client_view client_rest m -> forall c, env (fst (m c)) = env c.
Proof. intros [_ H] c. specialize (H c). unfold client_rest, env_part in H. unfold env. congruence. Qed.
Lemma src_os {A} (m : M A) : local os_view os_rest m -> forall c, env (fst (m c)) = env c.
Proof. intros [_ H] c. specialize (H c). unfold os_rest, env_part in H. unfold env. congruence. Qed.
Lemma src_device {A} (m : M A) : local device_view device_rest m -> forall c, env (fst (m c)) = env c.
Proof. intros [_ H] c. specialize (H c). unfold device_rest, env_part in H. unfold env. congruence. Qed.

Lemma keyed_parse_client : keyedP (parse_client T).
Proof. apply (keyed_detect flagClientDetect). apply keyed_plift. apply src_client. apply local_client_try. Qed.
Lemma keyed_parse_os : keyedP (parse_os T).
Proof. apply (keyed_detect flagOSDetect). apply keyed_plift. apply src_os. apply local_eval_os. Qed.

Lemma keyed_read {A} flag parse (read : M A) :
  keyedP parse -> (forall c, env (fst (read c)) = env c) -> keyedP (ensure flag parse ;; plift read)%p.
Proof. intros H R. apply keyed_pbind; [apply keyed_ensure; exact H|]. intros _. apply keyed_plift. exact R. Qed.

Lemma keyed_get_os : keyedP (get_os T).
Proof.
  apply keyed_read; [apply keyed_parse_os|]. intros c. rewrite (proj2 (read_os_ext T c c eq_refl)). reflexivity.
Qed.

Lemma keyed_eval_device idx def : keyedP (eval_device T idx def).
Proof.
  apply keyed_pdefer; [apply keyed_plift, src_device, local_eval_device_body|].
  intros r. unfold force_desktop.
  assert (K : keyedP (if idx =? dpNotebook
     then os <- get_os T ;; (if in_list os desktopOS then plift (mmod (set_flag flagDeviceForceDesktop)) else pret tt)
     else pret tt)%p).
  { destruct (idx =? dpNotebook); [|apply keyed_pret].
    apply keyed_pbind; [apply keyed_get_os|]. intros os. destruct (in_list os desktopOS); [|apply keyed_pret].
    apply keyed_plift. reflexivity. }
  destruct r as [[n|]|]; [apply keyed_pret|exact K|exact K].
Qed.

Lemma keyed_device_try l : keyedP (device_try T l).
Proof.
  induction l as [|[[b idx] def] l IH]; cbn [device_try]; [apply keyed_pret|].
  apply keyed_pbind; [apply keyed_plift; reflexivity|]. intros mask.
  destruct (negb (N.land mask b =? 0)%N); [|exact IH].
  apply keyed_pbind; [apply keyed_eval_device|]. intros [typ|]; [|exact IH].
  apply keyed_pbind; [apply keyed_plift; reflexivity|]. intros _. apply keyed_pret.
Qed.

Lemma keyed_parse_device : keyedP (parse_device T).
Proof.
  apply (keyed_detect flagDeviceDetect). apply keyed_pbind; [apply keyed_device_try|].
  intros []; [apply keyed_pret|]. apply keyed_plift, src_device, local_device_fallback.
Qed.

Lemma keyed_version (proj : ctx -> version) (upd : version -> ctx -> ctx) (gs : P bytes) :
  (forall v c, env (upd v c) = env c) -> keyedP gs ->
  keyedP (fun c => if v_p (proj c) then Ret (c, Ok (proj c))
          else (raw <- gs ;;
                plift (mmod (fun c => upd (fst (parse (proj c) raw)) c)) ;;
                plift (mget proj))%p c).
Proof.
  intros H K c. cbv beta. destruct (v_p (proj c)); [reflexivity|].
  apply (keyed_pbind gs (fun raw => (plift (mmod (fun c => upd (fst (parse (proj c) raw)) c)) ;; plift (mget proj))%p)); [exact K|].
  intros raw. apply keyed_pbind; [apply keyed_plift; intros; apply H|]. intros _. apply keyed_plift. reflexivity.
Qed.

Lemma src_pure {A X} (V : ctx -> X) (read : M A) : pure_read V read -> forall c, env (fst (read c)) = env c.
Proof. intros H c. rewrite (proj2 (H c c eq_refl)). reflexivity. Qed.

Lemma src_read_model c : env (fst (read_model c)) = env c.
Proof.
  cbv [read_model mbind mget mlift mret].
  repeat match goal with |- context [if ?b then _ else _] => destruct b
                       | |- context [match ?r with Ok _ => _ | Panic => _ end] => destruct r end; reflexivity.
Qed.

Lemma keyed_bvs : keyedP (get_browser_version_string T).
Proof. apply keyed_read; [apply keyed_parse_client|]. eapply src_pure. apply pure_browser_version. Qed.
Lemma keyed_evs : keyedP (get_engine_version_string T).
Proof. apply keyed_read; [apply keyed_parse_client|]. eapply src_pure. apply pure_engine_version. Qed.
Lemma keyed_ovs : keyedP (get_os_version_string T).
Proof.
  apply keyed_read; [apply keyed_parse_os|]. intros c1.
  destruct (proj2 (read_os_version_view c1 c1 eq_refl)) as (b & -> & _). reflexivity.
Qed.

Lemma keyed_pmap {A B} (f : A -> B) (p : P A) : keyedP p -> keyedP (pmap f p).
Proof. intros H. apply keyed_pbind; [exact H|]. intros a. apply keyed_pret. Qed.

Theorem keyed_getter g : keyedP (run_getter T g).
Proof.
  destruct g; cbn [run_getter]; try apply keyed_pmap.
  - apply keyed_read; [apply keyed_parse_client|]. eapply src_pure. apply pure_client_type.
  - apply keyed_read; [apply keyed_parse_client|]. eapply src_pure. apply pure_browser.
  - apply (keyed_version c_cver up_cver); [reflexivity|apply keyed_bvs].
  - apply keyed_bvs.
  - apply keyed_read; [apply keyed_parse_client|]. eapply src_pure. apply pure_engine.
  - apply (keyed_version c_ever up_ever); [reflexivity|apply keyed_evs].
  - apply keyed_evs.
  - apply keyed_read; [apply keyed_parse_device|]. eapply src_pure. apply pure_device_type.
  - apply keyed_read; [apply keyed_parse_device|]. eapply src_pure. apply pure_brand.
  - apply keyed_read; [apply keyed_parse_device|]. apply src_read_model.
  - apply keyed_get_os.
  - apply (keyed_version c_over up_over); [reflexivity|apply keyed_ovs].
  - apply keyed_ovs.
  - intros c. reflexivity.
Qed.

(** A thread only uses keys among [uas]. *)
Fixpoint keys_in {A} (uas : list bytes) (p : prog A) : Prop :=
  match p with
  | Ret _ => True
  | CGet k f => In k uas /\ forall o, keys_in uas (f o)
  | CSet k _ p' => In k uas /\ keys_in uas p'
  end.

Lemma keys_bind {A B} uas k (p : prog (ctx * res A)) (f : ctx * res A -> prog B) :
  In (fst (fst k)) uas -> keyed k p -> (forall x, env (fst x) = k -> keys_in uas (f x)) -> keys_in uas (prog_bind p f).
Proof.
  intros Hk H Hf. induction p as [a|k' g IH|k' e p IH]; cbn in *; [apply Hf; exact H| |].
  - destruct H as [-> H2]. split; [exact Hk|]. intros o. apply IH. apply H2.
  - destruct H as [-> H2]. split; [exact Hk|]. apply IH. exact H2.
Qed.

Lemma keys_map {A B} uas (p : prog A) (f : A -> B) :
  keys_in uas p -> keys_in uas (prog_bind p (fun a => Ret (f a))).
Proof.
  intros H. induction p as [a|k' g IH|k' e p IH]; cbn in *; [exact I| |].
  - destruct H as [H1 H2]. split; [exact H1|]. intros o. apply IH. apply H2.
  - destruct H as [H1 H2]. split; [exact H1|]. apply IH. exact H2.
Qed.

Lemma keys_script uas l : forall c, incl (asked l (c_src c)) uas -> keys_in uas (script T mC mD l c).
Proof.
  induction l as [|[ua'|s| |g] l IH]; intros c H; cbn [script asked] in *.
  - exact I.
  - apply IH. exact H.
  - apply IH. unfold set_requested_with. destruct (0 <? length s)%nat; exact H.
  - apply IH. exact H.
  - apply (keys_bind uas (env c)); [apply H; now left|apply keyed_getter|].
    intros x E. apply keys_map. apply IH. replace (c_src (fst x)) with (c_src c) by (unfold env in E; congruence).
    intros u Hu. apply H. now right.
Qed.

(** ** Scripts, some of whose user agents may make a detection panic.  Rows of such user agents are unconstrained. *)
Definition G' (k : bytes) (e : entry) : Prop := no_panics k -> row_ok T mC mD k e.

Lemma no_panics_dec ua : no_panics ua \/ ~ no_panics ua.
Proof.
  assert (D : forall A (r : res A), r <> Panic \/ ~ r <> Panic).
  { intros A [a|]; [left; discriminate|right; intros H; apply H; reflexivity]. }
  unfold no_panics, Proof_Safe.no_panics.
  destruct (D _ (snd (client_try T client_classes (c0 mC mD ua)))); [|right; tauto].
  destruct (D _ (snd (eval_os T (c0 mC mD ua)))); [|right; tauto].
  destruct (D _ (snd (run_cold (device_body T (c0 mC mD ua))))); [|right; tauto].
  destruct (D _ (snd (read_os T (fin_os T mC mD ua)))); [left; tauto|right; tauto].
Qed.

(** For a user agent whose detections do not panic the two guarantees agree. *)
Lemma safe_keyed_G' {A} ua k (p : prog (ctx * res A)) Q :
  no_panics ua -> fst (fst k) = ua -> keyed k p -> safe G p Q -> safe G' p (fun x => Q x /\ env (fst x) = k).
Proof.
  intros NP <-. revert Q. induction p as [a|k' g IH|k' e p IH]; cbn; intros Q K S.
  - auto.
  - destruct K as [-> K]. intros o Ho. apply IH; [apply K|]. apply S. intros e E. apply (Ho e E NP).
  - destruct K as [-> K]. destruct S as [S1 S2]. split; [intros _; exact S1|]. auto.
Qed.

Lemma keyed_safe_G' {A} k (p : prog (ctx * res A)) :
  ~ no_panics (fst (fst k)) -> keyed k p -> safe G' p (fun x => env (fst x) = k).
Proof.
  intros NP. induction p as [a|k' g IH|k' e p IH]; cbn; intros K.
  - exact K.
  - destruct K as [-> K]. intros o _. apply IH. apply K.
  - destruct K as [-> K]. split; [intros H; contradiction|]. auto.
Qed.

(** GetModel keeps the context good, too. *)
Lemma safe_getter_any ua h c g :
  no_panics ua -> good ua h c ->
  safe G (run_getter T g c) (fun x => good ua h (fst x) /\ (g <> GModel -> snd x = final ua h g)).
Proof.
  intros NP Gc. destruct g.
  10: { cbn [run_getter]. unfold pmap, get_model, pbind. apply safe_bind. apply safe_bind.
    eapply safe_mono; [|apply (safe_ensure T mC mD flagDeviceDetect (parse_device T) (good ua h) c)].
    - intros [c1 r]. cbn [fst snd]. intros [G1 ->]. cbn [safe plift].
      assert (E : fst (read_model c1) = c1).
      { cbv [read_model mbind mget mlift mret].
        repeat match goal with |- context [if ?b then _ else _] => destruct b
                             | |- context [match ?r with Ok _ => _ | Panic => _ end] => destruct r end; reflexivity. }
      destruct (read_model c1) as [c2 [b|]]; cbn [fst] in E; subst c2; cbn; split; auto; congruence.
    - intros _. exact Gc.
    - intros B. eapply safe_mono; [|exact (safe_parse_device ua h c NP Gc B)]. cbn. tauto. }
  all: eapply safe_mono; [|apply safe_getter; [exact NP|exact Gc|discriminate]]; intros x [H1 H2]; auto.
Qed.

(** The state of a context between two actions. *)
Definition weak (ua : bytes) (h : N) (c : ctx) : Prop := env c = (ua, mC, mD) /\ (no_panics ua -> good ua h c).

Lemma weak_set_ua ua h ua' c : weak ua h c -> weak ua' 0 (set_user_agent ua' c).
Proof.
  intros [E _]. unfold env in E.
  split; [unfold env; cbn; congruence|]. intros _.
  split; [reflexivity|]. split; [cbn; congruence|]. split; [cbn; congruence|]. split; [reflexivity|].
  split; [now left|]. split; [now left|]. split; [now left|]. split; [|split]; reflexivity.
Qed.

Lemma weak_set_hint ua h s c : weak ua h c -> weak ua (match s with [] => h | _ => fnv1 s end) (set_requested_with s c).
Proof.
  intros [E H]. split; [|intros NP; apply good_set_hint; auto].
  unfold set_requested_with. destruct (0 <? length s)%nat; exact E.
Qed.

Lemma weak_recycle c : weak [] 0 (recycle mC mD c).
Proof. split; [reflexivity|]. intros _. apply good_recycle. Qed.

Definition ok_call (x : bytes * N * getter) (r : res value) : Prop :=
  detects T mC mD (fst (fst x)) -> snd x <> GModel -> as_alone T mC mD x r.

Theorem safe_script l : forall ua h c, weak ua h c ->
  safe G' (script T mC mD l c) (fun rs => Forall2 ok_call (calls l ua h) rs).
Proof.
  induction l as [|[ua'|s| |g] l IH]; intros ua h c W; cbn [script calls].
  - constructor.
  - apply IH. eapply weak_set_ua; eassumption.
  - apply IH. apply weak_set_hint; assumption.
  - apply IH. apply weak_recycle.
  - assert (Env : fst (fst (env c)) = ua) by (destruct W as [E _]; rewrite E; reflexivity).
    apply safe_bind. destruct (no_panics_dec ua) as [NP|NP].
    + pose proof (safe_keyed_G' ua (env c) _ _ NP Env (keyed_getter g c) (safe_getter_any ua h c g NP (proj2 W NP))) as S.
      eapply safe_mono; [|exact S]. intros [c1 r]. cbn [fst snd]. intros [[G1 R] E1]. apply safe_bind.
      eapply safe_mono; [|apply (IH ua h c1)].
      * intros rs F. cbn [safe]. constructor; [|exact F].
        intros _ Hg. cbn [as_alone fst snd] in *. rewrite (R Hg). apply final_alone; assumption.
      * split; [rewrite E1; exact (proj1 W)|]. intros _. exact G1.
    + assert (NP' : ~ no_panics (fst (fst (env c)))) by (rewrite Env; exact NP).
      pose proof (keyed_safe_G' (env c) _ NP' (keyed_getter g c)) as S.
      eapply safe_mono; [|exact S]. intros [c1 r]. cbn [fst snd]. intros E1. apply safe_bind.
      eapply safe_mono; [|apply (IH ua h c1)].
      * intros rs F. cbn [safe]. constructor; [|exact F].
        intros D _. cbn [fst] in D. exfalso. apply NP. apply detects_no_panics. exact D.
      * split; [rewrite E1; exact (proj1 W)|]. intros H. contradiction.
Qed.

(** ** Interleavings *)
Definition cache_inv (uas : list bytes) (st : cstate) : Prop :=
  Inv st /\ forall hk e, lookup st hk = Some e -> exists u, In u uas /\ fnv1 u = hk /\ G' u e.

Lemma cache_inv_empty uas : cache_inv uas cs_empty.
Proof. split; [apply Inv_empty|]. cbn. discriminate. Qed.

Lemma row_ok_stamp u e hk ts : G' u e -> G' u (with_stamp e hk ts).
Proof. intros H. exact H. Qed.

Lemma cache_inv_get uas st k now :
  collision_free uas -> In k uas -> cache_inv uas st ->
  cache_inv uas (fst (cache_get st k now)) /\
  forall e, option_map (cs_heap (fst (cache_get st k now))) (snd (cache_get st k now)) = Some e -> G' k e.
Proof.
  intros CF Hk [I R]. pose proof (get_spec st k now I) as S.
  destruct (cache_get st k now) as [st' r]. cbn [fst snd]. destruct S as (I' & S & O).
  destruct (lookup st (fnv1 k)) as [e|] eqn:L.
  - destruct S as (p & -> & Hp & L').
    assert (Ok0 : G' k e).
    { destruct (R _ _ L) as (u & Hu & Eu & Ru). rewrite (CF u k Hu Hk Eu) in Ru. exact Ru. }
    split.
    + split; [exact I'|]. intros hk e' L2. destruct (N.eq_dec hk (fnv1 k)) as [->|N].
      * rewrite L' in L2. injection L2 as <-. exists k. split; [exact Hk|]. split; [reflexivity|]. apply row_ok_stamp. exact Ok0.
      * apply R. rewrite <- O by exact N. exact L2.
    + intros e'. cbn [option_map]. rewrite Hp. intros E. injection E as <-. apply row_ok_stamp. exact Ok0.
  - destruct S as [-> ->]. split; [split; assumption|discriminate].
Qed.

Lemma cache_inv_set uas st st' k e now :
  In k uas -> G' k e -> cache_inv uas st -> cstep st (OSet k e now) = Ok st' -> cache_inv uas st'.
Proof.
  intros Hk He [I R] E. destruct (set_fresh st k e now I) as (st1 & E1 & I1 & L1 & O1).
  rewrite E in E1. injection E1 as <-. split; [exact I1|].
  intros hk e' L2. destruct (N.eq_dec hk (fnv1 k)) as [->|N].
  - rewrite L1 in L2. injection L2 as <-. exists k. auto using row_ok_stamp.
  - apply R. rewrite <- O1 by exact N. exact L2.
Qed.

Lemma cache_inv_clean uas st now : cache_inv uas st -> cache_inv uas (cache_clean st now).
Proof.
  intros [I R]. destruct (clean_spec st now I) as (I' & C & _). split; [exact I'|].
  intros hk e L. specialize (C hk). destruct (lookup st hk) as [e0|] eqn:L0.
  - destruct C as [C|[C _]]; rewrite C in L; [injection L as <-; apply R; exact L0|discriminate].
  - rewrite C in L. discriminate.
Qed.

Definition thread_ok (uas : list bytes) (want : list (bytes * N * getter)) (p : prog (list (res value))) : Prop :=
  keys_in uas p /\ safe G' p (fun rs => Forall2 ok_call want rs).

Definition conf_inv (uas : list bytes) (wants : list (list (bytes * N * getter))) (cf : config) : Prop :=
  cache_inv uas (cf_cache cf) /\ Forall2 (thread_ok uas) wants (cf_threads cf).

Lemma conf_step uas wants cf cf' :
  collision_free uas -> conf_inv uas wants cf -> conc_step cf cf' -> conf_inv uas wants cf'.
Proof.
  intros CF [CI TI] S. destruct S as [st ts1 ts2 key k now|st st' ts1 ts2 key e p now E|st ts now];
    unfold conf_inv in *; cbn [cf_cache cf_threads] in *.
  - apply Forall2_app_inv_r in TI as (w1 & w2 & F1 & F2 & ->).
    inversion F2 as [|w x w' x' H F3]; subst. destruct H as [[Hk K] Sf]. cbn [safe] in Sf.
    destruct (cache_inv_get uas st key now CF Hk CI) as [CI' Row].
    split; [exact CI'|]. apply Forall2_app; [exact F1|]. constructor; [|exact F3].
    split; [apply K|]. apply Sf. exact Row.
  - apply Forall2_app_inv_r in TI as (w1 & w2 & F1 & F2 & ->).
    inversion F2 as [|w x w' x' H F3]; subst. destruct H as [[Hk K] [Hg Sf]].
    split; [eapply cache_inv_set; eassumption|]. apply Forall2_app; [exact F1|]. constructor; [|exact F3].
    split; assumption.
  - split; [apply cache_inv_clean; exact CI|exact TI].
Qed.

Lemma conf_run uas wants cf cf' :
  collision_free uas -> conf_inv uas wants cf -> conc_run cf cf' -> conf_inv uas wants cf'.
Proof.
  intros CF I0 R. induction R as [c|c1 c2 c3 R IH St]; [exact I0|].
  exact (conf_step uas wants c2 c3 CF (IH I0) St).
Qed.

Theorem interleaving scripts cf i rs l :
  collision_free (concat (map (fun l => asked l []) scripts)) ->
  conc_run (start T mC mD scripts) cf ->
  nth_error (cf_threads cf) i = Some (Ret rs) -> nth_error scripts i = Some l ->
  Forall2 ok_call (calls l [] 0) rs.
Proof.
  intros CF R Hi Hl.
  set (uas := concat (map (fun l => asked l []) scripts)) in *.
  assert (I0 : conf_inv uas (map (fun l => calls l [] 0) scripts) (start T mC mD scripts)).
  { split; [apply cache_inv_empty|]. unfold start. cbn [cf_threads].
    assert (Inc : forall l, In l scripts -> incl (asked l []) uas).
    { intros l0 H u Hu. unfold uas. apply in_concat. exists (asked l0 []). split; [|exact Hu].
      apply in_map_iff. eauto. }
    clearbody uas. clear R Hi Hl CF.
    induction scripts as [|l0 scripts IH]; cbn [map]; [constructor|]. constructor.
    - split; [apply keys_script; apply Inc; now left|]. apply safe_script. apply weak_recycle.
    - apply IH. intros. apply Inc. now right. }
  destruct (conf_run _ _ _ _ CF I0 R) as [_ TI].
  assert (nth_error (map (fun l => calls l [] 0) scripts) i = Some (calls l [] 0)) as W.
  { rewrite nth_error_map, Hl. reflexivity. }
  clear - TI Hi W. revert i Hi W. induction TI as [|w p ws ps [_ S] F IH]; intros [|i] Hi W; cbn in *; try discriminate.
  - injection Hi as ->. injection W as ->. exact S.
  - eapply IH; eassumption.
Qed.

(** No goroutine can get stuck: every configuration that can be reached can be continued, by goroutine steps alone,
    to one in which all goroutines have finished. *)
Lemma conc_trans c1 c2 c3 : conc_run c1 c2 -> conc_run c2 c3 -> conc_run c1 c3.
Proof. intros R1 R2. induction R2; [exact R1|]. econstructor; [apply IHR2; exact R1|eassumption]. Qed.

Lemma thread_completes (p : prog (list (res value))) : forall st ts1 ts2,
  Inv st -> exists st' rs, Inv st' /\ conc_run (mkConf st (ts1 ++ p :: ts2)) (mkConf st' (ts1 ++ Ret rs :: ts2)).
Proof.
  induction p as [a|k f IH|k e p IH]; intros st ts1 ts2 Iv.
  - exists st, a. split; [exact Iv|constructor].
  - pose proof (get_spec st k 0%Z Iv) as H.
    assert (I1 : Inv (fst (cache_get st k 0%Z))) by (destruct (cache_get st k 0%Z); cbn; tauto).
    destruct (IH (option_map (cs_heap (fst (cache_get st k 0%Z))) (snd (cache_get st k 0%Z))) _ ts1 ts2 I1) as (st' & rs & I' & R).
    exists st', rs. split; [exact I'|]. eapply conc_trans; [|exact R]. econstructor; [constructor|]. apply Step_get.
  - destruct (set_fresh st k e 0%Z Iv) as (st1 & E1 & I1 & _).
    destruct (IH st1 ts1 ts2 I1) as (st' & rs & I' & R). exists st', rs. split; [exact I'|].
    eapply conc_trans; [|exact R]. econstructor; [constructor|]. eapply Step_set. exact E1.
Qed.

Lemma threads_complete ts2 : forall st ts1,
  Inv st -> Forall finished ts1 ->
  exists cf, conc_run (mkConf st (ts1 ++ ts2)) cf /\ Forall finished (cf_threads cf) /\
    length (cf_threads cf) = length (ts1 ++ ts2).
Proof.
  induction ts2 as [|p ts2 IH]; intros st ts1 Iv F.
  - rewrite app_nil_r. exists (mkConf st ts1). split; [constructor|]. auto.
  - destruct (thread_completes p st ts1 ts2 Iv) as (st' & rs & I' & R).
    destruct (IH st' (ts1 ++ [Ret rs]) I') as (cf & R2 & F2 & L).
    { apply Forall_app. split; [exact F|]. constructor; [now exists rs|constructor]. }
    exists cf. split; [|split; [exact F2|]].
    + eapply conc_trans; [exact R|]. rewrite <- app_assoc in R2. exact R2.
    + rewrite L, !app_length. cbn. lia.
Qed.

Lemma start_inv scripts cf : conc_run (start T mC mD scripts) cf -> Inv (cf_cache cf).
Proof.
  intros R. remember (start T mC mD scripts) as s eqn:Es. induction R as [|c1 c2 c3 R IH St]; [subst; apply Inv_empty|].
  specialize (IH Es). destruct St as [st ts1 ts2 key k now|st st' ts1 ts2 key e p now E|st ts now]; cbn [cf_cache] in *.
  - pose proof (get_spec st key now IH) as H. destruct (cache_get st key now) as [st1 r]. cbn. tauto.
  - destruct (set_fresh st key e now IH) as (st1 & E1 & I1 & _). congruence.
  - apply clean_spec. exact IH.
Qed.

Theorem interleaving_completes scripts cf :
  conc_run (start T mC mD scripts) cf -> exists cf', conc_run cf cf' /\ Forall finished (cf_threads cf').
Proof.
  intros R. pose proof (start_inv _ _ R) as Iv. destruct cf as [st ts].
  destruct (threads_complete ts st [] Iv (Forall_nil _)) as (cf' & R' & F & _). eauto.
Qed.
End Getters.

(** A goroutine running by itself. *)
Lemma run_seq_conc (p : prog (list (res value))) : forall st rs st',
  run_seq p st = Ok (rs, st') -> conc_run (mkConf st [p]) (mkConf st' [Ret rs]).
Proof.
  induction p as [a|k f IH|k e p IH]; intros st rs st' E; cbn [run_seq] in E.
  - injection E as <- <-. constructor.
  - destruct (cache_get st k 0) as [st1 r] eqn:Eg. eapply conc_trans; [|eapply IH; exact E].
    econstructor; [constructor|].
    pose proof (Step_get st [] [] k f 0%Z) as S. rewrite Eg in S. exact S.
  - destruct (cstep st (OSet k e 0)) as [st1|] eqn:Es; [|discriminate]. cbn [rbind] in E.
    eapply conc_trans; [|eapply IH; exact E]. econstructor; [constructor|].
    exact (Step_set st st1 [] [] k e p 0%Z Es).
Qed.

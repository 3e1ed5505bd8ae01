(** Rely/guarantee reasoning about the getters: if every row the cache returns is consistent with the analysis of the
    user agent, every value returned is that of a lone call and every row written is consistent. *)
From Verif Require Import Proof_Base Model_CacheEntry Model_Version Model_Ctx Model_Parse Spec_Getters Proof_Local Proof_Version.

(** [safe G p Q]: with a cache returning only rows satisfying [G], [p] writes only rows satisfying [G] and its result
    satisfies [Q]. *)
Fixpoint safe {A} (G : bytes -> entry -> Prop) (p : prog A) (Q : A -> Prop) : Prop :=
  match p with
  | Ret a => Q a
  | CGet k f => forall o, (forall e, o = Some e -> G k e) -> safe G (f o) Q
  | CSet k e p' => G k e /\ safe G p' Q
  end.

Lemma safe_mono {A} G (p : prog A) (Q Q' : A -> Prop) : (forall a, Q a -> Q' a) -> safe G p Q -> safe G p Q'.
Proof.
  intros H. induction p as [a|k f IH|k e p IH]; cbn; [apply H| |].
  - intros S o Ho. apply IH. apply S. exact Ho.
  - intros [G1 S]. split; [exact G1|apply IH; exact S].
Qed.

Lemma safe_bind {A B} G (p : prog A) (f : A -> prog B) Q :
  safe G p (fun a => safe G (f a) Q) -> safe G (prog_bind p f) Q.
Proof.
  induction p as [a|k g IH|k e p IH]; cbn; [auto| |].
  - intros S o Ho. apply IH. apply S. exact Ho.
  - intros [G1 S]. split; [exact G1|apply IH; exact S].
Qed.

(** The cold run is one of the runs covered. *)
Lemma safe_cold {A} G (p : prog A) Q : safe G p Q -> Q (run_cold p).
Proof.
  induction p as [a|k g IH|k e p IH]; cbn; [auto| |].
  - intros S. apply IH. apply S. discriminate.
  - intros [_ S]. apply IH. exact S.
Qed.

Lemma run_cold_bind {A B} (p : prog A) (f : A -> prog B) : run_cold (prog_bind p f) = run_cold (f (run_cold p)).
Proof. induction p as [a|k g IH|k e p IH]; cbn; [reflexivity| |]; auto. Qed.

(** Device classes other than the notebook class do not touch the cache. *)
Section Safe.
Variable T : tables.

Fixpoint dev_try (l : list (N * nat * N)) : M bool :=
  (match l with
   | [] => mret false
   | (bit, idx, def) :: l' =>
       mask <- mget c_maskD ;;
       if negb (N.land mask bit =? 0)%N then
         o <- eval_device_body T idx def ;;
         match o with
         | Some typ => mmod (up_deviceType typ) ;; mret true
         | None => dev_try l'
         end
       else dev_try l'
   end)%m.

Definition first7 : list (N * nat * N) :=
  [(DeviceTypeCamera, dpCamera, DeviceTypeCamera);
   (DeviceTypeCarBrowser, dpCarBrowser, DeviceTypeCarBrowser);
   (DeviceTypeConsole, dpConsole, DeviceTypeConsole);
   (DeviceTypePortableMediaPlayer, dpPortableMediaPlayer, DeviceTypeNotebook);
   (DeviceTypeShellTV, dpShellTV, DeviceTypeShellTV);
   (DeviceTypeTV, dpTV, DeviceTypeTV);
   (DeviceTypeMobile, dpMobile, DeviceTypeMobile)].
Definition notebook_class : N * nat * N := (DeviceTypeNotebook, dpNotebook, DeviceTypeNotebook).

Lemma device_classes_split : device_classes = first7 ++ [notebook_class].
Proof. reflexivity. Qed.

Lemma local_dev_try l : local device_view device_rest (dev_try l).
Proof.
  induction l as [|[[b i] d] l IH]; cbn [dev_try]; [apply local_ret|].
  repeat (first [exact IH | apply local_eval_device_body | local_step]).
Qed.

Lemma eval_device_plain idx def c : idx <> dpNotebook -> eval_device T idx def c = Ret (eval_device_body T idx def c).
Proof.
  intros H. unfold eval_device, pdefer, plift, force_desktop. cbn [prog_bind].
  destruct (eval_device_body T idx def c) as [c1 [[t|]|]]; cbn [prog_bind pret]; try reflexivity;
    rewrite (proj2 (Nat.eqb_neq idx dpNotebook) H); reflexivity.
Qed.

Lemma device_try_app l1 l2 c :
  Forall (fun x => snd (fst x) <> dpNotebook) l1 ->
  device_try T (l1 ++ l2) c =
  match dev_try l1 c with
  | (c1, Ok false) => device_try T l2 c1
  | (c1, r) => Ret (c1, r)
  end.
Proof.
  revert c; induction l1 as [|[[b i] d] l1 IH]; intros c F; [reflexivity|].
  inversion F as [|? ? Hi F' E1]; subst. cbn [app device_try dev_try].
  unfold pbind at 1, plift, mget, mbind. cbn [prog_bind].
  destruct (negb (N.land (c_maskD c) b =? 0)%N).
  - unfold pbind. rewrite eval_device_plain by exact Hi. cbn [prog_bind]. unfold mbind.
    destruct (eval_device_body T i d c) as [c1 [[t|]|]]; try reflexivity.
    apply IH. exact F'.
  - apply IH. exact F'.
Qed.

Lemma first7_plain : Forall (fun x => snd (fst x) <> dpNotebook) first7.
Proof. unfold first7. repeat constructor; cbn; discriminate. Qed.

(** A class without a match leaves the context alone. *)
Lemma eval_device_body_none idx def c c' : eval_device_body T idx def c = (c', Ok None) -> c' = c.
Proof.
  unfold eval_device_body, mbind, mlift, mget, mret.
  destruct (index (dr_idx T) (N.of_nat idx)) as [ir|]; [|congruence].
  destruct (zindex ir _); [|congruence].
  destruct (device_loop T (c_src c) ir) as [[x|]|]; [| |congruence].
  - destruct (device_hit T x def c) as [c1 [t|]]; cbn; congruence.
  - cbn. congruence.
Qed.

Lemma dev_try_none l : forall c c', dev_try l c = (c', Ok false) -> c' = c.
Proof.
  induction l as [|[[b i] d] l IH]; intros c c' E; cbn [dev_try] in E.
  - unfold mret in E. congruence.
  - unfold mbind at 1, mget in E. destruct (negb (N.land (c_maskD c) b =? 0)%N); [|apply IH; exact E].
    unfold mbind, mmod, mret in E. destruct (eval_device_body T i d c) as [c1 [[t|]|]] eqn:E1; cbn in E; try congruence.
    apply eval_device_body_none in E1. subst c1. apply IH. exact E.
Qed.

(** ** Consistency *)
Variables mC mD : N.

Definition c0 (ua : bytes) : ctx := fresh_ctx mC mD 0 ua.
Definition zero_client : ctx := fresh_ctx 0 0 0 [].

(** The contexts after the three detections, run alone. *)
Definition fin_client (ua : bytes) : ctx := fst (client_try T client_classes (c0 ua)).
Definition fin_os (ua : bytes) : ctx := fst (eval_os T (c0 ua)).
Definition fin_device (ua : bytes) : ctx := fst (run_cold (device_body T (c0 ua))).

Definition part_ok {X} (part : ctx -> X) (flag : N) (fin c : ctx) : Prop :=
  if bit flag c then part c = part fin else part c = part (fresh_ctx 0 0 0 []).

Definition parts_ok (ua : bytes) (c : ctx) : Prop :=
  part_ok client_part flagClientDetect (fin_client ua) c /\
  part_ok os_part flagOSDetect (fin_os ua) c /\
  part_ok device_part flagDeviceDetect (fin_device ua) c.

(** A row is consistent with [ua]. *)
Definition row_ok (ua : bytes) (e : entry) : Prop := parts_ok ua (from_cache e (c0 ua)).

(** The textual versions are those of the analysis. *)
Definition ver_ok (v : version) (raw : res bytes) : Prop :=
  v = version_zero \/ exists b, raw = Ok b /\ v = fst (parse version_zero b).

Definition fin_bvs (ua : bytes) : res bytes := snd (read_browser_version T (fin_client ua)).
Definition fin_evs (ua : bytes) : res bytes := snd (read_engine_version (fin_client ua)).
Definition fin_ovs (ua : bytes) : res bytes := snd (read_os_version T (fin_os ua)).

Definition good (ua : bytes) (h : N) (c : ctx) : Prop :=
  c_src c = ua /\ c_maskC c = mC /\ c_maskD c = mD /\ c_hint c = h /\
  ver_ok (c_cver c) (fin_bvs ua) /\ ver_ok (c_ever c) (fin_evs ua) /\ ver_ok (c_over c) (fin_ovs ua) /\
  parts_ok ua c.

Definition no_panics (ua : bytes) : Prop :=
  snd (client_try T client_classes (c0 ua)) <> Panic /\
  snd (eval_os T (c0 ua)) <> Panic /\
  snd (run_cold (device_body T (c0 ua))) <> Panic /\
  snd (read_os T (fin_os ua)) <> Panic.

(** Transport of [parts_ok] along equal views. *)
Lemma part_ok_ext {X} (part : ctx -> X) flag fin c c' :
  part c' = part c -> bit flag c' = bit flag c -> part_ok part flag fin c -> part_ok part flag fin c'.
Proof. unfold part_ok. intros E1 E2. rewrite E1, E2. auto. Qed.

Definition all_parts (c : ctx) :=
  (client_part c, os_part c, device_part c, (bit flagClientDetect c, bit flagOSDetect c, bit flagDeviceDetect c)).

Lemma parts_ok_ext ua c c' : all_parts c' = all_parts c -> parts_ok ua c -> parts_ok ua c'.
Proof.
  unfold all_parts. intros E (H1 & H2 & H3).
  split; [|split]; (eapply part_ok_ext; [| |eassumption]); congruence.
Qed.

Lemma row_of_ctx ua c : parts_ok ua c -> row_ok ua (from_ctx c).
Proof.
  apply parts_ok_ext. destruct c. reflexivity.
Qed.

Lemma from_cache_good ua h c e : good ua h c -> row_ok ua e -> good ua h (from_cache e c).
Proof.
  intros (E1 & E2 & E3 & E4 & V1 & V2 & V3 & _) R.
  split; [exact E1|]. split; [exact E2|]. split; [exact E3|]. split; [exact E4|].
  split; [exact V1|]. split; [exact V2|]. split; [exact V3|].
  eapply parts_ok_ext; [|exact R]. reflexivity.
Qed.

Definition G (k : bytes) (e : entry) : Prop := row_ok k e.

Lemma part_ok_set {X} (part : ctx -> X) flag fin c :
  part (set_flag flag c) = part c -> part c = part fin -> part_ok part flag fin (set_flag flag c).
Proof.
  intros E1 E2. unfold part_ok, bit, set_flag. cbn. rewrite check_set, N.eqb_refl. cbn.
  change (part (set_flag flag c) = part fin). congruence.
Qed.

(** ** OS *)
Lemma safe_parse_os ua h c :
  no_panics ua -> good ua h c -> bit flagOSDetect c = false ->
  safe G (parse_os T c) (fun x => good ua h (fst x) /\ bit flagOSDetect (fst x) = true /\ snd x <> Panic).
Proof.
  intros NP Gc B.
  assert (Body : safe G (pdefer (plift (eval_os T)) (fun _ => finish flagOSDetect) c)
    (fun x => good ua h (fst x) /\ bit flagOSDetect (fst x) = true /\ snd x <> Panic)).
  { pose proof Gc as (E1 & E2 & E3 & E4 & V1 & V2 & V3 & P1 & P2 & P3).
    unfold part_ok in P2. rewrite B in P2.
    destruct (local_eval_os T) as [L1 L2].
    assert (Ev : os_view c = os_view (c0 ua)).
    { unfold os_view. rewrite E1, P2. reflexivity. }
    destruct (L1 _ _ Ev) as [R1 R2]. specialize (L2 c).
    fold (fin_os ua) in R2.
    unfold pdefer, plift. cbn [prog_bind].
    destruct (eval_os T c) as [c1 r] eqn:Er. cbn [fst snd] in *.
    cbn [finish pbind plift mmod prog_bind pcset safe].
    assert (K1 : env_part c1 = env_part c) by (unfold os_rest in L2; congruence).
    assert (K2 : client_part c1 = client_part c) by (unfold os_rest in L2; congruence).
    assert (K3 : device_part c1 = device_part c) by (unfold os_rest in L2; congruence).
    assert (K4 : c_model c1 = c_model c) by (unfold os_rest in L2; congruence).
    assert (K5 : c_buf c1 = c_buf c) by (unfold os_rest in L2; congruence).
    assert (K6 : bit flagClientDetect c1 = bit flagClientDetect c) by (unfold os_rest in L2; congruence).
    assert (K7 : bit flagOSDetect c1 = bit flagOSDetect c) by (unfold os_rest in L2; congruence).
    assert (K8 : bit flagDeviceDetect c1 = bit flagDeviceDetect c) by (unfold os_rest in L2; congruence).
    assert (S2 : os_part c1 = os_part (fin_os ua)) by (unfold os_view in R2; congruence).
    assert (Good1 : good ua h (set_flag flagOSDetect c1)).
    { unfold env_part in K1.
      split; [cbn; congruence|]. split; [cbn; congruence|]. split; [cbn; congruence|]. split; [cbn; congruence|].
      split; [cbn; congruence|]. split; [cbn; congruence|]. split; [cbn; congruence|].
      split; [|split].
      - eapply part_ok_ext; [| |exact P1]; revert K2 K6; view_tac.
      - apply part_ok_set; [view_tac|]. congruence.
      - eapply part_ok_ext; [| |exact P3]; revert K3 K8; view_tac. }
    split.
    - assert (Es : get_user_agent (set_flag flagOSDetect c1) = ua).
      { unfold get_user_agent. apply Good1. }
      rewrite Es. apply row_of_ctx. apply Good1.
    - cbn [fst snd]. split; [exact Good1|]. split.
      + unfold bit, set_flag. cbn. apply check_set_same.
      + rewrite R1. apply NP. }
  unfold parse_os. cbn [pbind pcget prog_bind].
  cbn [safe]. intros o Ho.
  destruct o as [e|]; [|exact Body].
  destruct (check_bit (e_bits e) flagOSDetect) eqn:Eb; [|exact Body].
  cbn [plift mmod pbind prog_bind pret safe fst snd].
  split; [|split; [exact Eb|discriminate]].
  assert (Es : c_src c = ua) by apply Gc.
  unfold get_user_agent in Ho. rewrite Es in Ho. apply from_cache_good; [exact Gc|]. apply Ho. reflexivity.
Qed.

Lemma read_os_ext c c' : os_view c = os_view c' -> snd (read_os T c) = snd (read_os T c') /\ fst (read_os T c) = c.
Proof.
  intros E. unfold os_view, os_part, bit in E. injection E as A1 A2 A3 A4 A5.
  cbv [read_os mbind mget mlift mret]. rewrite A2.
  destruct (negb (c_osName c' =? 0)%N); [|split; reflexivity]. rewrite A1, A4.
  destruct (slice64 _ _); split; reflexivity.
Qed.

Lemma good_os_view ua h c : good ua h c -> bit flagOSDetect c = true -> os_view c = os_view (fin_os ua).
Proof.
  intros (E1 & _ & _ & _ & _ & _ & _ & _ & P2 & _) B. unfold part_ok in P2. rewrite B in P2.
  unfold os_view. rewrite P2, E1.
  destruct (local_eval_os T) as [_ L2]. specialize (L2 (c0 ua)). fold (fin_os ua) in L2.
  assert (Es : c_src (fin_os ua) = c_src (c0 ua)) by (unfold os_rest, env_part in L2; congruence).
  rewrite Es. reflexivity.
Qed.

Definition fin_osname (ua : bytes) : res bytes := snd (read_os T (fin_os ua)).

Lemma safe_ensure flag (parse : P bool) (Q : ctx -> Prop) c :
  (bit flag c = true -> Q c) ->
  (bit flag c = false -> safe G (parse c) (fun x => Q (fst x) /\ snd x <> Panic)) ->
  safe G (ensure flag parse c) (fun x => Q (fst x) /\ snd x = Ok tt).
Proof.
  intros H1 H2. unfold ensure. unfold bit in *. destruct (check_bit (c_bits c) flag).
  - cbn. auto.
  - unfold pbind. apply safe_bind. eapply safe_mono; [|apply H2; reflexivity].
    intros [c1 [b|]]; cbn; [tauto|]. intros [_ H]. congruence.
Qed.

Lemma safe_get_os ua h c :
  no_panics ua -> good ua h c ->
  safe G (get_os T c) (fun x => good ua h (fst x) /\ bit flagOSDetect (fst x) = true /\ snd x = fin_osname ua).
Proof.
  intros NP Gc. unfold get_os, pbind. apply safe_bind.
  eapply safe_mono; [|apply (safe_ensure _ _ (fun c => good ua h c /\ bit flagOSDetect c = true))].
  - intros [c1 r]. cbn [fst snd]. intros [[G1 B1] ->]. unfold plift. cbn [safe].
    destruct (read_os_ext c1 (fin_os ua) (good_os_view ua h c1 G1 B1)) as [R1 R2]. rewrite R2. auto.
  - auto.
  - intros B. eapply safe_mono; [|apply safe_parse_os; eauto]. cbn. tauto.
Qed.

(** ** Client *)
Lemma safe_parse_client ua h c :
  no_panics ua -> good ua h c -> bit flagClientDetect c = false ->
  safe G (parse_client T c) (fun x => good ua h (fst x) /\ bit flagClientDetect (fst x) = true /\ snd x <> Panic).
Proof.
  intros NP Gc B.
  assert (Body : safe G (pdefer (plift (client_try T client_classes)) (fun _ => finish flagClientDetect) c)
    (fun x => good ua h (fst x) /\ bit flagClientDetect (fst x) = true /\ snd x <> Panic)).
  { pose proof Gc as (E1 & E2 & E3 & E4 & V1 & V2 & V3 & P1 & P2 & P3).
    unfold part_ok in P1. rewrite B in P1.
    destruct (local_client_try T client_classes) as [L1 L2].
    assert (Ev : client_view c = client_view (c0 ua)).
    { unfold client_view. rewrite E1, E2, P1. reflexivity. }
    destruct (L1 _ _ Ev) as [R1 R2]. specialize (L2 c).
    fold (fin_client ua) in R2.
    unfold pdefer, plift. cbn [prog_bind].
    destruct (client_try T client_classes c) as [c1 r] eqn:Er. cbn [fst snd] in *.
    cbn [finish pbind plift mmod prog_bind pcset safe].
    assert (K1 : env_part c1 = env_part c) by (unfold client_rest in L2; congruence).
    assert (K2 : os_part c1 = os_part c) by (unfold client_rest in L2; congruence).
    assert (K3 : device_part c1 = device_part c) by (unfold client_rest in L2; congruence).
    assert (K4 : c_model c1 = c_model c) by (unfold client_rest in L2; congruence).
    assert (K5 : c_buf c1 = c_buf c) by (unfold client_rest in L2; congruence).
    assert (K6 : bit flagClientDetect c1 = bit flagClientDetect c) by (unfold client_rest in L2; congruence).
    assert (K7 : bit flagOSDetect c1 = bit flagOSDetect c) by (unfold client_rest in L2; congruence).
    assert (K8 : bit flagDeviceDetect c1 = bit flagDeviceDetect c) by (unfold client_rest in L2; congruence).
    assert (S2 : client_part c1 = client_part (fin_client ua)) by (unfold client_view in R2; congruence).
    assert (Good1 : good ua h (set_flag flagClientDetect c1)).
    { unfold env_part in K1.
      split; [cbn; congruence|]. split; [cbn; congruence|]. split; [cbn; congruence|]. split; [cbn; congruence|].
      split; [cbn; congruence|]. split; [cbn; congruence|]. split; [cbn; congruence|].
      split; [|split].
      - apply part_ok_set; [view_tac|]. congruence.
      - eapply part_ok_ext; [| |exact P2]; revert K2 K7; view_tac.
      - eapply part_ok_ext; [| |exact P3]; revert K3 K8; view_tac. }
    split.
    - assert (Es : get_user_agent (set_flag flagClientDetect c1) = ua).
      { unfold get_user_agent. apply Good1. }
      rewrite Es. apply row_of_ctx. apply Good1.
    - cbn [fst snd]. split; [exact Good1|]. split.
      + unfold bit, set_flag. cbn. apply check_set_same.
      + rewrite R1. apply NP. }
  unfold parse_client. cbn [pbind pcget prog_bind].
  cbn [safe]. intros o Ho.
  destruct o as [e|]; [|exact Body].
  destruct (check_bit (e_bits e) flagClientDetect) eqn:Eb; [|exact Body].
  cbn [plift mmod pbind prog_bind pret safe fst snd].
  split; [|split; [exact Eb|discriminate]].
  assert (Es : c_src c = ua) by apply Gc.
  unfold get_user_agent in Ho. rewrite Es in Ho. apply from_cache_good; [exact Gc|]. apply Ho. reflexivity.
Qed.

Lemma good_client_view ua h c :
  good ua h c -> bit flagClientDetect c = true -> client_view c = client_view (fin_client ua).
Proof.
  intros (E1 & E2 & _ & _ & _ & _ & _ & P1 & _ & _) B. unfold part_ok in P1. rewrite B in P1.
  destruct (local_client_try T client_classes) as [_ L2]. specialize (L2 (c0 ua)). fold (fin_client ua) in L2.
  assert (Es : c_src (fin_client ua) = c_src (c0 ua)) by (unfold client_rest, env_part in L2; congruence).
  assert (Em : c_maskC (fin_client ua) = c_maskC (c0 ua)) by (unfold client_rest, env_part in L2; congruence).
  unfold client_view. rewrite P1, Es, Em, E1, E2. reflexivity.
Qed.

(** ** Device *)

(** device_parser.go:117-133 is idempotent: the vendor loop overwrites with what the user agent alone determines. *)
Definition vendor_effect (o : option N) (c : ctx) : ctx :=
  match o with Some b => set_flag flagVendorFragment (up_brand b c) | None => c end.

Lemma vendor_inner_effect brand js : forall src,
  exists o r, forall c, c_src c = src ->
    snd (vendor_inner T brand js c) = r /\ device_part (fst (vendor_inner T brand js c)) = device_part (vendor_effect o c) /\
    device_rest (fst (vendor_inner T brand js c)) = device_rest c.
Proof.
  induction js as [|j js IH]; intros src; cbn [vendor_inner].
  - exists None, (Ok tt). intros c _. repeat split; reflexivity.
  - destruct (IH src) as (o & r & H).
    destruct (index (vr_re T) j) as [re|] eqn:E.
    + unfold mbind, mlift, mget, mmod, mret.
      destruct (re_match re src) eqn:Em.
      * exists (match o with Some b => Some b | None => Some brand end), r. intros c Hc. rewrite Hc, Em.
        destruct (H (set_flag flagVendorFragment (up_brand brand c)) Hc) as (H1 & H2 & H3).
        split; [exact H1|]. split.
        -- rewrite H2. destruct o; cbn [vendor_effect]; view_tac.
        -- rewrite H3. view_tac.
      * exists o, r. intros c Hc. rewrite Hc, Em. apply H. exact Hc.
    + exists None, Panic. intros c _. unfold mbind, mlift. repeat split; reflexivity.
Qed.

Lemma vendor_loop_effect l : forall src,
  exists o r, forall c, c_src c = src ->
    snd (vendor_loop T l c) = r /\ device_part (fst (vendor_loop T l c)) = device_part (vendor_effect o c).
Proof.
  induction l as [|v l IH]; intros src; cbn [vendor_loop].
  - exists None, (Ok tt). intros c _. split; reflexivity.
  - destruct (vendor_inner_effect (vt_brand64 v)
      (nrange (fst (e_decode (vt_range64 v))) (snd (e_decode (vt_range64 v)))) src) as (o1 & r1 & H1).
    destruct (IH src) as (o2 & r2 & H2).
    destruct r1 as [[]|].
    + exists (match o2 with Some b => Some b | None => o1 end), r2. intros c Hc.
      destruct (H1 c Hc) as (A1 & A2 & A3). unfold mbind.
      destruct (vendor_inner T _ _ c) as [c1 q] eqn:E1. cbn [fst snd] in *. subst q.
      assert (Hc1 : c_src c1 = src). { unf. congruence. }
      destruct (H2 c1 Hc1) as (B1 & B2). split; [exact B1|].
      rewrite B2. destruct o2 as [b|]; [|exact A2].
      cbn [vendor_effect]. destruct o1; revert A2; cbn [vendor_effect]; view_tac.
    + exists o1, Panic. intros c Hc. destruct (H1 c Hc) as (A1 & A2 & A3). unfold mbind.
      destruct (vendor_inner T _ _ c) as [c1 q] eqn:E1. cbn [fst snd] in *. subst q. cbn [fst snd]. auto.
Qed.

(** From a blank device part or from the final one, the fallback ends in the same part. *)
Lemma fallback_idem c c' c2 :
  device_part c = device_part (fresh_ctx 0 0 0 []) \/ device_part c = device_part (set_flag flagDeviceForceDesktop (fresh_ctx 0 0 0 [])) ->
  c_src c' = c_src c ->
  fst (device_fallback T c) = c2 ->
  device_part c' = device_part c2 ->
  device_part (fst (device_fallback T c')) = device_part c2.
Proof.
  intros Z Es E2 E. subst c2. revert E. unfold device_fallback, mbind, mget, mret, mmod. rewrite Es.
  destruct (re_match (re_tablet T) (c_src c)).
  { cbn [fst snd]. view_tac. }
  destruct (re_match (re_mobile T) (c_src c)).
  { cbn [fst snd]. view_tac. }
  destruct (vendor_loop_effect (vr_idx T) (c_src c)) as (o & r & H).
  assert (Eb : (c_brand c =? 0)%N = true).
  { apply N.eqb_eq. unf. destruct Z as [Z|Z]; injection Z; intros; assumption. }
  rewrite Eb. unfold eval_vendor. destruct (H c eq_refl) as (H1 & H2).
  intros E.
  assert (E' : device_part c' = device_part (vendor_effect o c)).
  { rewrite <- H2. destruct (vendor_loop T (vr_idx T) c) as [x [y|]]; exact E. }
  clear E.
  destruct (c_brand c' =? 0)%N eqn:Eb'.
  - destruct (H c' Es) as (H3 & H4).
    transitivity (device_part (vendor_effect o c)).
    + transitivity (device_part (vendor_effect o c')).
      * rewrite <- H4. destruct (vendor_loop T (vr_idx T) c') as [x [y|]]; reflexivity.
      * destruct o; cbn [vendor_effect] in *; [|exact E']. revert E'. view_tac.
    + rewrite <- H2. destruct (vendor_loop T (vr_idx T) c) as [x [y|]]; reflexivity.
  - cbn [fst snd]. rewrite E'. rewrite <- H2. destruct (vendor_loop T (vr_idx T) c) as [x [y|]]; reflexivity.
Qed.

Definition notebook_on : bool := negb (N.land mD DeviceTypeNotebook =? 0)%N.

(** The result of the device detection as a function of the OS name. *)
Definition after_os (os : bytes) (c : ctx) : ctx * res bool :=
  device_fallback T (if in_list os desktopOS then set_flag flagDeviceForceDesktop c else c).

Lemma run_cold_try_notebook c os c3 :
  eval_device_body T dpNotebook DeviceTypeNotebook c = (c, Ok None) ->
  run_cold (get_os T c) = (c3, Ok os) ->
  c_maskD c = mD -> notebook_on = true ->
  run_cold (device_try T [notebook_class] c) =
  ((if in_list os desktopOS then set_flag flagDeviceForceDesktop c3 else c3), Ok false).
Proof.
  intros E1 E2 Em On. cbn [device_try notebook_class]. unfold pbind at 1, plift, mget. cbn [prog_bind].
  rewrite Em. fold notebook_on. rewrite On.
  unfold eval_device, pdefer, plift, pbind. cbn [prog_bind]. rewrite E1. cbn [force_desktop Nat.eqb dpNotebook].
  rewrite !run_cold_bind. unfold pbind. rewrite !run_cold_bind, E2. cbn [run_cold prog_bind].
  destruct (in_list os desktopOS); reflexivity.
Qed.

Lemma cold_body c :
  run_cold (device_body T c) =
  run_cold (match run_cold (match dev_try first7 c with
                            | (c1, Ok false) => device_try T [notebook_class] c1
                            | (c1, r) => Ret (c1, r)
                            end) with
            | (c', Ok ok) => (if ok then pret true else plift (device_fallback T)) c'
            | (c', Panic) => Ret (c', Panic)
            end).
Proof.
  unfold device_body, pbind at 1. rewrite run_cold_bind, device_classes_split, device_try_app by apply first7_plain.
  reflexivity.
Qed.

(** Any run of [device_body] whose OS look-ups are consistent ends in the final device part. *)
Lemma safe_device_body ua h c :
  no_panics ua -> good ua h c -> bit flagDeviceDetect c = false ->
  safe G (device_body T c) (fun x => good ua h (set_flag flagDeviceDetect (fst x)) /\ snd x <> Panic).
Proof.
  intros NP Gc B. pose proof Gc as (E1 & E2 & E3 & E4 & V1 & V2 & V3 & P1 & P2 & P3).
  unfold part_ok in P3. rewrite B in P3.
  assert (Ev : device_view c = device_view (c0 ua)).
  { unfold device_view. rewrite E1, E3, P3. reflexivity. }
  (* from a context with unchanged rest and the final device part *)
  assert (Fin : forall h c1 c2, good ua h c1 -> device_rest c2 = device_rest c1 -> device_part c2 = device_part (fin_device ua) ->
    good ua h (set_flag flagDeviceDetect c2)).
  { intros h1 c1 c2 (A1 & A2 & A3 & A4 & A5 & A6 & A7 & A8 & A9 & _) K D.
    assert (K1 : env_part c2 = env_part c1) by (unfold device_rest in K; congruence).
    assert (K2 : client_part c2 = client_part c1) by (unfold device_rest in K; congruence).
    assert (K3 : os_part c2 = os_part c1) by (unfold device_rest in K; congruence).
    assert (K4 : bit flagClientDetect c2 = bit flagClientDetect c1) by (unfold device_rest in K; congruence).
    assert (K5 : bit flagOSDetect c2 = bit flagOSDetect c1) by (unfold device_rest in K; congruence).
    assert (K6 : bit flagDeviceDetect c2 = bit flagDeviceDetect c1) by (unfold device_rest in K; congruence).
    unfold env_part in K1.
    split; [cbn; congruence|]. split; [cbn; congruence|]. split; [cbn; congruence|]. split; [cbn; congruence|].
    split; [cbn; congruence|]. split; [cbn; congruence|]. split; [cbn; congruence|].
    split; [|split].
    - eapply part_ok_ext; [| |exact A8]; revert K2 K4; view_tac.
    - eapply part_ok_ext; [| |exact A9]; revert K3 K5; view_tac.
    - apply part_ok_set; [view_tac|]. exact D. }
  destruct NP as (NP1 & NP2 & NP3 & NP4).
  pose proof (cold_body (c0 ua)) as Cold. symmetry in Cold.
  unfold device_body, pbind at 1. rewrite device_classes_split, device_try_app by apply first7_plain.
  destruct (local_dev_try first7) as [L1 L2]. destruct (L1 _ _ Ev) as [R1 R2].
  pose proof (L2 c) as K. clear L1 L2.
  destruct (dev_try first7 c) as [c1 r] eqn:D1. destruct (dev_try first7 (c0 ua)) as [d1 r'] eqn:D2.
  cbn [fst snd] in R1, R2, K. subst r'.
  destruct r as [[]|].
  - (* a class before the notebooks matched *)
    cbn [run_cold prog_bind] in *. cbn [safe fst snd]. split; [|discriminate].
    eapply Fin; [exact Gc|exact K|]. unfold fin_device. rewrite <- Cold. cbn. unfold device_view in R2. congruence.
  - (* none did *)
    apply dev_try_none in D1. apply dev_try_none in D2. subst c1 d1.
    destruct notebook_on eqn:On.
    + (* the notebook class *)
      destruct (local_eval_device_body T dpNotebook DeviceTypeNotebook) as [L1 L2].
      destruct (L1 _ _ Ev) as [S1 S2]. specialize (L2 c). clear L1.
      destruct (eval_device_body T dpNotebook DeviceTypeNotebook c) as [c1 r] eqn:N1.
      destruct (eval_device_body T dpNotebook DeviceTypeNotebook (c0 ua)) as [d1 r'] eqn:N2.
      cbn [fst snd] in S1, S2, L2. subst r'.
      destruct r as [[typ|]|].
      * (* matched *)
        cbn [device_try notebook_class] in *. unfold pbind, plift, mget in *. cbn [prog_bind] in *.
        rewrite E3. rewrite (eq_refl : c_maskD (c0 ua) = mD) in Cold. fold notebook_on in Cold |- *. rewrite On in *.
        unfold eval_device, pdefer, plift in *. cbn [prog_bind] in *. rewrite N1. rewrite N2 in Cold.
        cbn [force_desktop pret prog_bind mmod] in *. cbn [safe fst snd]. cbn [run_cold pret] in Cold.
        split; [|discriminate]. eapply Fin; [exact Gc| |].
        -- revert L2. view_tac.
        -- unfold fin_device. rewrite <- Cold. cbn [fst]. revert S2. view_tac.
      * (* not matched: GetOS *)
        pose proof (eval_device_body_none _ _ _ _ N1). pose proof (eval_device_body_none _ _ _ _ N2). subst c1 d1.
        assert (Cos : exists c3, run_cold (get_os T (c0 ua)) = (c3, fin_osname ua) /\ good ua 0 c3 /\ device_part c3 = device_part (fresh_ctx 0 0 0 [])).
        { assert (Good0 : good ua 0 (c0 ua)).
          { split; [reflexivity|]. split; [reflexivity|]. split; [reflexivity|]. split; [reflexivity|].
            split; [now left|]. split; [now left|]. split; [now left|]. split; [|split]; reflexivity. }
          pose proof (safe_cold _ _ _ (safe_get_os ua 0 (c0 ua) (conj NP1 (conj NP2 (conj NP3 NP4))) Good0)) as (A1 & A2 & A3).
          exists (fst (run_cold (get_os T (c0 ua)))). split; [rewrite <- A3; apply surjective_pairing|]. split; [exact A1|].
          unfold get_os, pbind. rewrite run_cold_bind. unfold ensure.
          rewrite (eq_refl : check_bit (c_bits (c0 ua)) flagOSDetect = false).
          unfold pbind. rewrite run_cold_bind. unfold parse_os, pcget, pbind. cbn [prog_bind run_cold].
          unfold pdefer, plift. cbn [prog_bind].
          destruct (local_eval_os T) as [_ L3]. specialize (L3 (c0 ua)).
          destruct (eval_os T (c0 ua)) as [c2 q]. cbn [fst] in L3.
          unfold finish, pbind, plift, mmod, pcset. cbn [prog_bind run_cold].
          destruct q as [b|]; cbn [prog_bind run_cold pret].
          - destruct (read_os_ext (set_flag flagOSDetect c2) _ eq_refl) as [_ RO].
            unfold plift. cbn [run_cold]. rewrite RO. unfold os_rest in L3.
            transitivity (device_part c2); [view_tac|]. transitivity (device_part (c0 ua)); [congruence|reflexivity].
          - unfold os_rest in L3.
            transitivity (device_part c2); [view_tac|]. transitivity (device_part (c0 ua)); [congruence|reflexivity]. }
        destruct Cos as (c3 & Cos & Good3 & Zero3).
        destruct (fin_osname ua) as [os|] eqn:Fos; [|unfold fin_osname in Fos; congruence].
        rewrite (run_cold_try_notebook (c0 ua) os c3 N2 Cos eq_refl On) in Cold.
        cbn [prog_bind] in Cold. unfold plift in Cold. cbn [run_cold] in Cold.
        fold (after_os os c3) in Cold.
        (* the actual run *)
        apply safe_bind. cbn [device_try notebook_class]. unfold pbind at 1, plift, mget. cbn [prog_bind].
        rewrite E3. fold notebook_on. rewrite On.
        unfold eval_device, pdefer, plift, pbind. cbn [prog_bind]. rewrite N1. cbn [force_desktop Nat.eqb dpNotebook].
        apply safe_bind. apply safe_bind. unfold pbind. apply safe_bind.
        eapply safe_mono; [|exact (safe_get_os ua h c (conj NP1 (conj NP2 (conj NP3 NP4))) Gc)].
        intros [c4 r4]. cbn [fst snd]. intros (G4 & B4 & ->). rewrite Fos.
        set (c5 := if in_list os desktopOS then set_flag flagDeviceForceDesktop c4 else c4).
        set (c3' := if in_list os desktopOS then set_flag flagDeviceForceDesktop c3 else c3) in *.
        assert (Goal : good ua h (set_flag flagDeviceDetect (fst (device_fallback T c5))) /\ snd (device_fallback T c5) <> Panic).
        { assert (Src5 : c_src c5 = ua).
          { unfold c5. destruct (in_list os desktopOS); cbn; apply G4. }
          assert (Src3 : c_src c3' = ua).
          { unfold c3'. destruct (in_list os desktopOS); cbn; apply Good3. }
          destruct (local_device_fallback T) as [F1 F2].
          assert (Mask5 : c_maskD c5 = c_maskD c3').
          { unfold c5, c3'. destruct (in_list os desktopOS); cbn; transitivity mD; try apply G4; symmetry; apply Good3. }
          assert (NPf : snd (device_fallback T c3') <> Panic).
          { intros Hp. apply NP3. rewrite <- Cold. exact Hp. }
          pose proof G4 as (_ & _ & _ & _ & _ & _ & _ & _ & _ & P4). unfold part_ok in P4.
          assert (FD : device_part (fst (device_fallback T c3')) = device_part (fin_device ua)).
          { unfold fin_device. rewrite <- Cold. reflexivity. }
          assert (Rest5 : device_rest (fst (device_fallback T c5)) = device_rest c4).
          { rewrite F2. unfold c5. destruct (in_list os desktopOS); [view_tac|reflexivity]. }
          destruct (bit flagDeviceDetect c4) eqn:B5.
          - (* the row brought the finished device part *)
            assert (D5 : device_part c5 = device_part (fst (device_fallback T c3'))).
            { rewrite FD. unfold c5. destruct (in_list os desktopOS) eqn:Ei; [|exact P4].
              (* the final part has the force bit *)
              assert (Fb : bit flagDeviceForceDesktop (fin_device ua) = true).
              { assert (Fb3 : bit flagDeviceForceDesktop (fst (device_fallback T c3')) = true).
                { unfold device_fallback, mbind, mget, mret, mmod.
                  assert (Fb0 : bit flagDeviceForceDesktop c3' = true).
                  { unfold c3', bit, set_flag. cbn. apply check_set_same. }
                  destruct (re_match (re_tablet T) (c_src c3')); [exact Fb0|].
                  destruct (re_match (re_mobile T) (c_src c3')); [exact Fb0|].
                  destruct (c_brand c3' =? 0)%N; [|exact Fb0].
                  unfold eval_vendor. destruct (vendor_loop_effect (vr_idx T) (c_src c3')) as (o & r & Ho).
                  destruct (Ho c3' eq_refl) as (_ & Ho2).
                  assert (X : bit flagDeviceForceDesktop (fst (vendor_loop T (vr_idx T) c3')) = bit flagDeviceForceDesktop c3').
                  { transitivity (bit flagDeviceForceDesktop (vendor_effect o c3')).
                    - revert Ho2. unf. congruence.
                    - destruct o; cbn [vendor_effect]; view_tac. }
                  destruct (vendor_loop T (vr_idx T) c3') as [x [y|]]; cbn [fst] in *; congruence. }
                revert FD Fb3. unf. congruence. }
              revert P4 Fb. view_tac. }
            split.
            + eapply Fin; [exact G4|exact Rest5|].
              rewrite <- FD. eapply fallback_idem; [|rewrite Src5, Src3; reflexivity|reflexivity|exact D5].
              unfold c3'. destruct (in_list os desktopOS); [right|left; exact Zero3]. revert Zero3. view_tac.
            + (* panic only depends on the user agent *)
              unfold device_fallback, mbind, mget, mret, mmod in NPf |- *. rewrite Src5. rewrite Src3 in NPf.
              destruct (re_match (re_tablet T) ua); [discriminate|].
              destruct (re_match (re_mobile T) ua); [discriminate|].
              assert (Eb : (c_brand c3' =? 0)%N = true).
              { apply N.eqb_eq. unfold c3'. destruct (in_list os desktopOS); cbn; revert Zero3; unf;
                  intros Z; injection Z; intros; assumption. }
              rewrite Eb in NPf. destruct (c_brand c5 =? 0)%N; [|discriminate].
              unfold eval_vendor in *. destruct (vendor_loop_effect (vr_idx T) ua) as (o & r & Ho).
              destruct (Ho c3' Src3) as (Hr3 & _). destruct (Ho c5 Src5) as (Hr5 & _).
              destruct (vendor_loop T (vr_idx T) c3') as [x [y|]], (vendor_loop T (vr_idx T) c5) as [x' [y'|]]; cbn [fst snd] in *;
                congruence.
          - (* the device part is still blank *)
            assert (V5 : device_view c5 = device_view c3').
            { unfold device_view. rewrite Src5, Src3, Mask5. f_equal.
              unfold c5, c3'. destruct (in_list os desktopOS); revert P4 Zero3; view_tac. }
            destruct (F1 _ _ V5) as [X1 X2]. split; [|rewrite X1; exact NPf].
            eapply Fin; [exact G4|exact Rest5|]. unfold device_view in X2. congruence. }
        unfold c5 in Goal. unfold plift, mmod, pret. destruct (in_list os desktopOS); cbn [prog_bind safe]; exact Goal.
      * (* panic: excluded *)
        exfalso. apply NP3. rewrite <- Cold.
        assert (X : snd (run_cold (device_try T [notebook_class] (c0 ua))) = Panic).
        { cbn [device_try notebook_class]. unfold pbind at 1, plift, mget. cbn [prog_bind].
          rewrite (eq_refl : c_maskD (c0 ua) = mD). fold notebook_on. rewrite On.
          unfold pbind at 1. rewrite run_cold_bind. unfold eval_device, pdefer, plift. cbn [prog_bind]. rewrite N2.
          rewrite run_cold_bind. destruct (run_cold (force_desktop T dpNotebook Panic d1)) as [c5 [u|]]; reflexivity. }
        destruct (run_cold (device_try T [notebook_class] (c0 ua))) as [c5 q]. cbn [snd] in X. subst q. reflexivity.
    + (* notebooks are off *)
      cbn [device_try notebook_class] in *. unfold pbind, plift, mget in *. cbn [prog_bind] in *.
      rewrite E3. rewrite (eq_refl : c_maskD (c0 ua) = mD) in Cold. fold notebook_on in Cold |- *. rewrite On in *.
      cbn [pret prog_bind run_cold] in *. cbn [safe].
      destruct (local_device_fallback T) as [F1 F2]. destruct (F1 _ _ Ev) as [X1 X2].
      split.
      * eapply Fin; [exact Gc|apply F2|]. unfold fin_device. rewrite <- Cold. unfold device_view in X2. congruence.
      * rewrite X1. rewrite Cold. exact NP3.
  - exfalso. apply NP3. rewrite <- Cold. reflexivity.
Qed.
End Safe.

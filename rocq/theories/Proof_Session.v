(** Proof of C92: filters count from the first getter of their kind on. *)
From Verif Require Import Proof_Base Model_CacheEntry Model_Version Model_Ctx Model_Parse Spec_Getters
  Proof_Local Proof_Version Proof_Safe Proof_Getters Proof_Private Proof_Repeat Spec_Session.
Open Scope nat_scope.

(** ** Other filters on the same context *)
Definition remask (a b : option N) (c : ctx) : ctx :=
  mkCtx (c_bits c) (c_src c) (c_buf c) (or_else a (c_maskC c)) (or_else b (c_maskD c)) (c_hint c) (c_clientType c) (c_clientName c)
    (c_clientVersion c) (c_cver c) (c_engineName c) (c_engineVersion c) (c_ever c) (c_deviceType c) (c_brand c)
    (c_model c) (c_osName c) (c_osVersion c) (c_over c).

Section Blind.
Variable T : tables.
Variables a b : option N.
Notation f := (remask a b).

Definition blind {A} (m : M A) : Prop := forall c, m (f c) = (f (fst (m c)), snd (m c)).
Lemma blind_ret {A} (x : A) : blind (mret x).
Proof. intros c. reflexivity. Qed.
Lemma blind_lift {A} (r : res A) : blind (mlift r).
Proof. intros c. reflexivity. Qed.
Lemma blind_bind {A B} (m : M A) (k : A -> M B) : blind m -> (forall x, blind (k x)) -> blind (mbind m k).
Proof.
  intros H K c. unfold mbind. rewrite (H c). destruct (m c) as [c1 [x|]]; cbn [fst snd]; [apply K|reflexivity].
Qed.
Lemma blind_get {A} (g : ctx -> A) : (forall c, g (f c) = g c) -> blind (mget g).
Proof. intros H c. unfold mget. rewrite H. reflexivity. Qed.
Lemma blind_mod (g : ctx -> ctx) : (forall c, g (f c) = f (g c)) -> blind (mmod g).
Proof. intros H c. unfold mmod. rewrite H. reflexivity. Qed.
Lemma blind_if {A} (q : bool) (m1 m2 : M A) : blind m1 -> blind m2 -> blind (if q then m1 else m2).
Proof. destruct q; auto. Qed.

Ltac bstep :=
  first
  [ apply blind_bind; [|intro]
  | apply blind_ret | apply blind_lift
  | apply blind_get; reflexivity
  | apply blind_mod; reflexivity
  | apply blind_if
  | match goal with |- blind (match ?x with _ => _ end) => destruct x end ].

Lemma blind_eval_engine cri : blind (eval_engine T cri).
Proof. unfold eval_engine. repeat bstep. Qed.
Lemma blind_client_version x re : blind (client_version x re).
Proof. unfold client_version. repeat bstep. Qed.
Lemma blind_client_loop ir : blind (client_loop T ir).
Proof. induction ir as [|v ir IH]; cbn [client_loop]; repeat first [exact IH | apply blind_client_version | bstep]. Qed.
Lemma blind_eval_client idx : blind (eval_client T idx).
Proof. unfold eval_client. repeat first [apply blind_client_loop | apply blind_eval_engine | bstep]. Qed.
Lemma blind_client_try l : a = None -> blind (client_try T l).
Proof.
  intros Ha. induction l as [|[t i] l IH]; cbn [client_try]; [bstep|]. apply blind_bind.
  - apply blind_get. rewrite Ha. reflexivity.
  - intros m. repeat first [exact IH | apply blind_eval_client | bstep].
Qed.

Lemma blind_os_ver_loop rv : blind (os_ver_loop T rv).
Proof. induction rv as [|v rv IH]; cbn [os_ver_loop]; repeat first [exact IH | bstep]. Qed.
Lemma blind_os_eval_ver r : blind (os_eval_ver T r).
Proof. unfold os_eval_ver. repeat first [apply blind_os_ver_loop | bstep]. Qed.
Lemma blind_os_hit x re : blind (os_hit T x re).
Proof. unfold os_hit. repeat first [apply blind_os_eval_ver | bstep]. Qed.
Lemma blind_os_loop mac na r : blind (os_loop T mac na r).
Proof. induction r as [|v r IH]; cbn [os_loop]; repeat first [exact IH | apply blind_os_hit | bstep]. Qed.
Lemma blind_eval_os : blind (eval_os T).
Proof. unfold eval_os. repeat first [apply blind_os_loop | bstep]. Qed.

Lemma blind_append x : blind (append_buf x).
Proof. unfold append_buf. bstep. Qed.
Lemma blind_len : blind buf_len.
Proof. unfold buf_len. bstep. Qed.
Ltac dev := repeat first [apply blind_append | apply blind_len | bstep].
Lemma blind_mne1_loop fuel : forall raw src m p, blind (mne1_loop fuel raw src m p).
Proof.
  induction fuel as [|fuel IH]; intros; cbn [mne1_loop]; repeat first [apply IH | apply blind_append | apply blind_len | bstep].
Qed.
Lemma blind_buf_mne e : blind (device_buf_mne T e).
Proof. unfold device_buf_mne. dev. Qed.
Lemma blind_buf_mne1 e re : blind (device_buf_mne1 T e re).
Proof. unfold device_buf_mne1. repeat first [apply blind_mne1_loop | apply blind_append | apply blind_len | bstep]. Qed.
Lemma blind_model_loop x def is_ : blind (model_loop T x def is_).
Proof.
  induction is_ as [|i is_ IH]; cbn [model_loop]; repeat first [exact IH | apply blind_buf_mne | apply blind_buf_mne1 | bstep].
Qed.
Lemma blind_device_hit x def : blind (device_hit T x def).
Proof.
  unfold device_hit. repeat first [apply blind_model_loop | apply blind_buf_mne | apply blind_buf_mne1 | bstep].
Qed.
Lemma blind_eval_device_body idx def : blind (eval_device_body T idx def).
Proof. unfold eval_device_body. repeat first [apply blind_device_hit | bstep]. Qed.
Lemma blind_vendor_inner x js : blind (vendor_inner T x js).
Proof. induction js as [|j js IH]; cbn [vendor_inner]; repeat first [exact IH | bstep]. Qed.
Lemma blind_vendor_loop l : blind (vendor_loop T l).
Proof. induction l as [|v l IH]; cbn [vendor_loop]; repeat first [exact IH | apply blind_vendor_inner | bstep]. Qed.
Lemma blind_device_fallback : blind (device_fallback T).
Proof. unfold device_fallback. repeat first [apply blind_vendor_loop | bstep]. Qed.

(** Programs, without a cache. *)
Definition blindP {A} (p : P A) : Prop := forall c, run_cold (p (f c)) = (f (fst (run_cold (p c))), snd (run_cold (p c))).
Lemma blindP_ret {A} (x : A) : blindP (pret x).
Proof. intros c. reflexivity. Qed.
Lemma blindP_at {A B} (p : P A) (k : A -> P B) c :
  run_cold (p (f c)) = (f (fst (run_cold (p c))), snd (run_cold (p c))) -> (forall x, blindP (k x)) ->
  run_cold (pbind p k (f c)) = (f (fst (run_cold (pbind p k c))), snd (run_cold (pbind p k c))).
Proof.
  intros H K. unfold pbind. rewrite !run_cold_bind, H. destruct (run_cold (p c)) as [c1 [x|]]; cbn [fst snd]; [apply K|reflexivity].
Qed.
Lemma blindP_bind {A B} (p : P A) (k : A -> P B) : blindP p -> (forall x, blindP (k x)) -> blindP (pbind p k).
Proof. intros H K c. apply blindP_at; auto. Qed.
Lemma blindP_lift {A} (m : M A) : blind m -> blindP (plift m).
Proof. intros H c. cbn [plift run_cold]. apply H. Qed.
Lemma blindP_defer {A} (p : P A) k : blindP p -> (forall r, blindP (k r)) -> blindP (pdefer p k).
Proof.
  intros H K c. unfold pdefer. rewrite !run_cold_bind, H. destruct (run_cold (p c)) as [c1 r]. cbn [fst snd].
  rewrite !run_cold_bind, K. destruct (run_cold (k r c1)) as [c2 [[]|]]; reflexivity.
Qed.
Lemma blindP_finish flag : blindP (finish flag).
Proof. intros c. reflexivity. Qed.
Lemma blindP_detect flag (body : P bool) : blindP body ->
  blindP (o <- pcget get_user_agent ;;
   match o with
   | Some e =>
       if check_bit (e_bits e) flag then plift (mmod (from_cache e)) ;; pret true
       else pdefer body (fun _ => finish flag)
   | None => pdefer body (fun _ => finish flag)
   end)%p.
Proof.
  intros H c. unfold pbind. rewrite !run_cold_bind. cbn [pcget prog_bind run_cold].
  apply (blindP_defer body _ H (fun _ => blindP_finish flag)).
Qed.
Lemma blindP_ensure flag parse : blindP parse -> blindP (ensure flag parse).
Proof.
  intros H c. unfold ensure. change (c_bits (f c)) with (c_bits c). destruct (check_bit (c_bits c) flag); [reflexivity|].
  apply (blindP_bind parse _ H (fun _ => blindP_ret tt)).
Qed.
Lemma blind_parse_os : blindP (parse_os T).
Proof. apply blindP_detect. apply blindP_lift, blind_eval_os. Qed.
Lemma blind_read_os : blind (read_os T).
Proof. unfold read_os. repeat bstep. Qed.
Lemma blind_get_os : blindP (get_os T).
Proof. apply blindP_bind; [apply blindP_ensure, blind_parse_os|]. intros _. apply blindP_lift, blind_read_os. Qed.
Lemma blind_eval_device idx def : blindP (eval_device T idx def).
Proof.
  apply blindP_defer; [apply blindP_lift, blind_eval_device_body|]. intros r. unfold force_desktop.
  assert (K : blindP (if idx =? dpNotebook
         then os <- get_os T ;; (if in_list os desktopOS then plift (mmod (set_flag flagDeviceForceDesktop)) else pret tt)
         else pret tt)%p).
  { destruct (idx =? dpNotebook); [|apply blindP_ret]. apply blindP_bind; [apply blind_get_os|]. intros os.
    destruct (in_list os desktopOS); [apply blindP_lift, blind_mod; reflexivity|apply blindP_ret]. }
  destruct r as [[n|]|]; [apply blindP_ret|exact K|exact K].
Qed.
Lemma blind_device_try l : b = None -> blindP (device_try T l).
Proof.
  intros Hb. induction l as [|[[x i] d] l IH]; cbn [device_try]; [apply blindP_ret|]. apply blindP_bind.
  - apply blindP_lift, blind_get. rewrite Hb. reflexivity.
  - intros m. destruct (negb _); [|exact IH]. apply blindP_bind; [apply blind_eval_device|]. intros [typ|]; [|exact IH].
    apply blindP_bind; [apply blindP_lift, blind_mod; reflexivity|]. intros _. apply blindP_ret.
Qed.
Lemma blind_device_body : b = None -> blindP (device_body T).
Proof.
  intros Hb. apply blindP_bind; [apply blind_device_try; exact Hb|]. intros []; [apply blindP_ret|].
  apply blindP_lift, blind_device_fallback.
Qed.
Lemma blind_parse_device : b = None -> blindP (parse_device T).
Proof. intros Hb. apply blindP_detect, blind_device_body, Hb. Qed.
Lemma blind_parse_client : a = None -> blindP (parse_client T).
Proof. intros Ha. apply blindP_detect, blindP_lift, blind_client_try, Ha. Qed.

(** Getters: a filter matters only as long as its detection has not been carried out. *)
Definition same_at {A} (p : P A) (c : ctx) : Prop := run_cold (p (f c)) = (f (fst (run_cold (p c))), snd (run_cold (p c))).
Lemma same_pmap {A B} (g : A -> B) (p : P A) c : same_at p c -> same_at (pmap g p) c.
Proof. intros H. apply blindP_at; [exact H|]. intros x. apply blindP_ret. Qed.
Lemma same_ensure flag parse c : blindP parse \/ bit flag c = true -> same_at (ensure flag parse) c.
Proof.
  intros [H|H]; [apply blindP_ensure, H|]. unfold same_at. rewrite !ensure_done by exact H. reflexivity.
Qed.
Lemma same_read {A} flag parse (read : M A) c :
  same_at (ensure flag parse) c -> blind read -> same_at (ensure flag parse ;; plift read)%p c.
Proof. intros H R. apply blindP_at; [exact H|]. intros _. apply blindP_lift, R. Qed.
Lemma same_version (proj : ctx -> version) (upd : version -> ctx -> ctx) (gs : P bytes) c :
  (forall c, proj (f c) = proj c) -> (forall v c, upd v (f c) = f (upd v c)) -> same_at gs c ->
  same_at (fun c => if v_p (proj c) then Ret (c, Ok (proj c))
          else (raw <- gs ;;
                plift (mmod (fun c => upd (fst (parse (proj c) raw)) c)) ;;
                plift (mget proj))%p c) c.
Proof.
  intros H1 H2 H. unfold same_at. rewrite H1. destruct (v_p (proj c)); [cbn; rewrite ?H1; reflexivity|].
  apply blindP_at; [exact H|]. intros raw. apply blindP_bind.
  - apply blindP_lift, blind_mod. intros c1. rewrite H1, H2. reflexivity.
  - intros _. apply blindP_lift, blind_get, H1.
Qed.
Theorem same_getter g c :
  (a = None \/ bit flagClientDetect c = true) -> (b = None \/ bit flagDeviceDetect c = true) -> same_at (run_getter T g) c.
Proof.
  intros HC HD.
  assert (C : same_at (ensure flagClientDetect (parse_client T)) c).
  { apply same_ensure. destruct HC as [H|H]; [left; apply blind_parse_client, H|right; exact H]. }
  assert (D : same_at (ensure flagDeviceDetect (parse_device T)) c).
  { apply same_ensure. destruct HD as [H|H]; [left; apply blind_parse_device, H|right; exact H]. }
  assert (O : same_at (ensure flagOSDetect (parse_os T)) c) by (apply same_ensure; left; apply blind_parse_os).
  assert (BV : same_at (get_browser_version_string T) c).
  { apply same_read; [exact C|]. unfold read_browser_version. repeat bstep. }
  assert (EV : same_at (get_engine_version_string T) c).
  { apply same_read; [exact C|]. unfold read_engine_version. repeat bstep. }
  assert (OV : same_at (get_os_version_string T) c).
  { apply same_read; [exact O|]. unfold read_os_version. repeat first [apply blind_append|bstep]. }
  destruct g; cbn [run_getter]; try apply same_pmap; auto.
  - apply same_read; [exact C|]. bstep.
  - apply same_read; [exact C|]. unfold read_browser. apply blind_bind; [bstep|intro h]. apply blind_bind; [bstep|intro cn].
    repeat bstep.
  - apply (same_version c_cver up_cver); [reflexivity|reflexivity|exact BV].
  - apply same_read; [exact C|]. unfold read_engine. repeat bstep.
  - apply (same_version c_ever up_ever); [reflexivity|reflexivity|exact EV].
  - apply same_read; [exact D|]. unfold read_device_type. repeat bstep.
  - apply same_read; [exact D|]. unfold read_brand. repeat bstep.
  - apply same_read; [exact D|]. unfold read_model. repeat bstep.
  - apply same_read; [exact O|]. apply blind_read_os.
  - apply (same_version c_over up_over); [reflexivity|reflexivity|exact OV].
  - reflexivity.
Qed.
End Blind.

(** ** What getters of one kind leave alone *)
Section Keep.
Variable T : tables.
Context {X : Type} (K : ctx -> X).
Definition keeps {A} (p : P A) : Prop := forall c, K (fst (run_cold (p c))) = K c.
Lemma keeps_ret {A} (x : A) : keeps (pret x).
Proof. intros c. reflexivity. Qed.
Lemma keeps_bind {A B} (p : P A) (k : A -> P B) : keeps p -> (forall x, keeps (k x)) -> keeps (pbind p k).
Proof.
  intros H Hk c. unfold pbind. rewrite run_cold_bind. specialize (H c). destruct (run_cold (p c)) as [c1 [x|]]; cbn [fst] in *; [|exact H].
  rewrite Hk. exact H.
Qed.
Lemma keeps_lift {A} (m : M A) : (forall c, K (fst (m c)) = K c) -> keeps (plift m).
Proof. intros H c. apply H. Qed.
Lemma keeps_defer {A} (p : P A) k : keeps p -> (forall r, keeps (k r)) -> keeps (pdefer p k).
Proof.
  intros H Hk c. unfold pdefer. rewrite run_cold_bind. specialize (H c). destruct (run_cold (p c)) as [c1 r]. cbn [fst] in *.
  rewrite run_cold_bind. specialize (Hk r c1). destruct (run_cold (k r c1)) as [c2 q]. cbn [fst run_cold] in *. congruence.
Qed.
Lemma keeps_detect' flag (body : P bool) : keeps body -> (forall c, K (set_flag flag c) = K c) ->
  keeps (ensure flag (o <- pcget get_user_agent ;;
   match o with
   | Some e =>
       if check_bit (e_bits e) flag then plift (mmod (from_cache e)) ;; pret true
       else pdefer body (fun _ => finish flag)
   | None => pdefer body (fun _ => finish flag)
   end)%p).
Proof.
  intros H F c. unfold ensure. destruct (check_bit (c_bits c) flag); [reflexivity|].
  unfold pbind. rewrite !run_cold_bind. cbn [pcget prog_bind run_cold].
  assert (D : K (fst (run_cold (pdefer body (fun _ => finish flag) c))) = K c).
  { apply keeps_defer; [exact H|]. intros _ c1. cbn. apply F. }
  destruct (run_cold (pdefer body (fun _ => finish flag) c)) as [c1 [x|]]; exact D.
Qed.
Lemma keeps_pmap {A B} (g : A -> B) (p : P A) : keeps p -> keeps (pmap g p).
Proof. intros H. apply keeps_bind; [exact H|]. intros x. apply keeps_ret. Qed.
Lemma keeps_version (proj : ctx -> version) (upd : version -> ctx -> ctx) (gs : P bytes) :
  (forall v c, K (upd v c) = K c) -> keeps gs ->
  keeps (fun c => if v_p (proj c) then Ret (c, Ok (proj c))
          else (raw <- gs ;;
                plift (mmod (fun c => upd (fst (parse (proj c) raw)) c)) ;;
                plift (mget proj))%p c).
Proof.
  intros H G c. cbv beta. destruct (v_p (proj c)); [reflexivity|].
  apply keeps_bind; [exact G|]. intros raw. apply keeps_bind; [apply keeps_lift; intros c1; apply H|]. intros _. apply keeps_lift. reflexivity.
Qed.
Lemma keeps_pure {A Y} (V : ctx -> Y) (read : M A) : pure_read V read -> keeps (plift read).
Proof. intros H. apply keeps_lift. intros c. rewrite (proj2 (H c c eq_refl)). reflexivity. Qed.

(** Operating systems. *)
Hypothesis Kos : forall c, K (fst (eval_os T c)) = K c.
Hypothesis Fos : forall c, K (set_flag flagOSDetect c) = K c.
Hypothesis Kover : forall v c, K (up_over v c) = K c.
Hypothesis Kbuf : forall x c, K (up_buf x c) = K c.
Lemma keeps_os : keeps (ensure flagOSDetect (parse_os T)).
Proof. apply keeps_detect'; [apply keeps_lift, Kos|exact Fos]. Qed.
Lemma keeps_get_os : keeps (get_os T).
Proof.
  apply keeps_bind; [apply keeps_os|]. intros _. apply keeps_lift. intros c. rewrite (proj2 (read_os_ext T c c eq_refl)). reflexivity.
Qed.
Lemma keeps_ovs : keeps (get_os_version_string T).
Proof.
  apply keeps_bind; [apply keeps_os|]. intros _. apply keeps_lift. intros c.
  destruct (proj2 (read_os_version_view T c c eq_refl)) as (x & -> & _). apply Kbuf.
Qed.
Lemma keeps_os_getter g : group g = Some flagOSDetect -> keeps (run_getter T g).
Proof.
  destruct g; cbn [group]; try discriminate; intros _; cbn [run_getter]; apply keeps_pmap.
  - apply keeps_get_os.
  - apply (keeps_version c_over up_over); [exact Kover|apply keeps_ovs].
  - apply keeps_ovs.
Qed.

(** Devices. *)
Hypothesis Kdev : forall idx def c, K (fst (eval_device_body T idx def c)) = K c.
Hypothesis Kfall : forall c, K (fst (device_fallback T c)) = K c.
Hypothesis Ktype : forall x c, K (up_deviceType x c) = K c.
Hypothesis Fdev : forall c, K (set_flag flagDeviceDetect c) = K c.
Hypothesis Fdesk : forall c, K (set_flag flagDeviceForceDesktop c) = K c.
Lemma keeps_device : keeps (ensure flagDeviceDetect (parse_device T)).
Proof.
  apply keeps_detect'; [|exact Fdev]. apply keeps_bind.
  - generalize device_classes. intros l.
    induction l as [|[[x idx] d] l IH]; cbn [device_try]; [apply keeps_ret|]. apply keeps_bind; [apply keeps_lift; reflexivity|].
    intros m. destruct (negb _); [|exact IH]. apply keeps_bind.
    + apply keeps_defer; [apply keeps_lift, Kdev|]. intros r. unfold force_desktop.
      assert (Q : keeps (if idx =? dpNotebook
         then os <- get_os T ;; (if in_list os desktopOS then plift (mmod (set_flag flagDeviceForceDesktop)) else pret tt)
         else pret tt)%p).
      { destruct (idx =? dpNotebook); [|apply keeps_ret]. apply keeps_bind; [apply keeps_get_os|]. intros os.
        destruct (in_list os desktopOS); [apply keeps_lift; exact Fdesk|apply keeps_ret]. }
      destruct r as [[n|]|]; [apply keeps_ret|exact Q|exact Q].
    + intros [typ|]; [|exact IH]. apply keeps_bind; [apply keeps_lift; intros c; apply Ktype|]. intros _. apply keeps_ret.
  - intros []; [apply keeps_ret|]. apply keeps_lift, Kfall.
Qed.
Lemma keeps_device_getter g : group g = Some flagDeviceDetect -> keeps (run_getter T g).
Proof.
  destruct g; cbn [group]; try discriminate; intros _; cbn [run_getter]; apply keeps_pmap; (apply keeps_bind; [apply keeps_device|]); intros _.
  - apply (keeps_pure device_view), pure_device_type.
  - apply (keeps_pure device_view), pure_brand.
  - apply keeps_lift. intros c. rewrite read_model_id. reflexivity.
Qed.
End Keep.

Section KeepC.
Variable T : tables.
Context {X : Type} (K : ctx -> X).
Hypothesis Kcl : forall c, K (fst (client_try T client_classes c)) = K c.
Hypothesis Fcl : forall c, K (set_flag flagClientDetect c) = K c.
Hypothesis Kcver : forall v c, K (up_cver v c) = K c.
Hypothesis Kever : forall v c, K (up_ever v c) = K c.
Lemma keeps_client_getter g : group g = Some flagClientDetect -> keeps K (run_getter T g).
Proof.
  assert (C : keeps K (ensure flagClientDetect (parse_client T))) by (apply keeps_detect'; [apply keeps_lift, Kcl|exact Fcl]).
  assert (BV : keeps K (get_browser_version_string T)).
  { apply keeps_bind; [exact C|]. intros _. apply (keeps_pure K client_view), pure_browser_version. }
  assert (EV : keeps K (get_engine_version_string T)).
  { apply keeps_bind; [exact C|]. intros _. apply (keeps_pure K client_view), pure_engine_version. }
  destruct g; cbn [group]; try discriminate; intros _; cbn [run_getter]; apply keeps_pmap; auto.
  - apply keeps_bind; [exact C|]. intros _. apply (keeps_pure K client_view), pure_client_type.
  - apply keeps_bind; [exact C|]. intros _. apply (keeps_pure K client_hint_view), pure_browser.
  - apply (keeps_version K c_cver up_cver); [exact Kcver|exact BV].
  - apply keeps_bind; [exact C|]. intros _. apply (keeps_pure K client_view), pure_engine.
  - apply (keeps_version K c_ever up_ever); [exact Kever|exact EV].
Qed.
End KeepC.

(** The mark of the client and its versions; the mark of the device. *)
Definition client_mark (c : ctx) := (bit flagClientDetect c, c_cver c, c_ever c).
Lemma mark_os T c : client_mark (fst (eval_os T c)) = client_mark c.
Proof. pose proof (proj2 (local_eval_os T) c) as R. unfold os_rest, env_part in R. unfold client_mark. congruence. Qed.
Lemma mark_device {A} (m : M A) : local device_view device_rest m -> forall c, client_mark (fst (m c)) = client_mark c.
Proof. intros H c. pose proof (proj2 H c) as R. unfold device_rest, env_part in R. unfold client_mark. congruence. Qed.
Lemma other_client T g c : group g <> Some flagClientDetect -> client_mark (fst (run_cold (run_getter T g c))) = client_mark c.
Proof.
  intros H. destruct (group g) as [x|] eqn:E; [|destruct g; try discriminate; reflexivity].
  assert (x = flagOSDetect \/ x = flagDeviceDetect) as [->| ->].
  { destruct g; cbn [group] in E; try discriminate E; injection E as E; subst x; auto; exfalso; apply H; reflexivity. }
  - apply (keeps_os_getter T client_mark); auto; try (intros; unfold client_mark; view_tac). apply mark_os.
  - apply (keeps_device_getter T client_mark); auto; try (intros; unfold client_mark; view_tac); [apply mark_os| |];
      intros; apply mark_device; [apply local_eval_device_body|apply local_device_fallback].
Qed.
Lemma other_device T g c : group g <> Some flagDeviceDetect -> bit flagDeviceDetect (fst (run_cold (run_getter T g c))) = bit flagDeviceDetect c.
Proof.
  intros H. destruct (group g) as [x|] eqn:E; [|destruct g; try discriminate; reflexivity].
  assert (x = flagOSDetect \/ x = flagClientDetect) as [->| ->].
  { destruct g; cbn [group] in E; try discriminate E; injection E as E; subst x; auto; exfalso; apply H; reflexivity. }
  - apply (keeps_os_getter T (bit flagDeviceDetect)); auto; try (intros; view_tac).
    intros c1. pose proof (proj2 (local_eval_os T) c1) as R. unfold os_rest in R. congruence.
  - apply (keeps_client_getter T (bit flagDeviceDetect)); auto; try (intros; view_tac).
    intros c1. pose proof (proj2 (local_client_try T client_classes) c1) as R. unfold client_rest in R. congruence.
Qed.

(** ** Another filter before the detection *)
Section Transfer.
Variable T : tables.
Variables mC mD : N.

Lemma fin_os_remask a b ua : fin_os T (or_else a mC) (or_else b mD) ua = remask a b (fin_os T mC mD ua).
Proof. unfold fin_os. change (c0 (or_else a mC) (or_else b mD) ua) with (remask a b (c0 mC mD ua)). rewrite blind_eval_os. reflexivity. Qed.
Lemma fin_client_remask b ua : fin_client T mC (or_else b mD) ua = remask None b (fin_client T mC mD ua).
Proof.
  unfold fin_client. change (c0 mC (or_else b mD) ua) with (remask None b (c0 mC mD ua)). rewrite blind_client_try by reflexivity. reflexivity.
Qed.
Lemma fin_device_remask a ua : fin_device T (or_else a mC) mD ua = remask a None (fin_device T mC mD ua).
Proof.
  unfold fin_device. change (c0 (or_else a mC) mD ua) with (remask a None (c0 mC mD ua)). rewrite blind_device_body by reflexivity. reflexivity.
Qed.
Lemma fin_ovs_remask a b ua : fin_ovs T (or_else a mC) (or_else b mD) ua = fin_ovs T mC mD ua.
Proof.
  unfold fin_ovs. rewrite fin_os_remask.
  apply (proj1 (read_os_version_view T (remask a b (fin_os T mC mD ua)) (fin_os T mC mD ua) eq_refl)).
Qed.
Lemma fin_bvs_remask b ua : fin_bvs T mC (or_else b mD) ua = fin_bvs T mC mD ua.
Proof.
  unfold fin_bvs. rewrite fin_client_remask.
  apply (proj1 (pure_browser_version T (remask None b (fin_client T mC mD ua)) (fin_client T mC mD ua) eq_refl)).
Qed.
Lemma fin_evs_remask b ua : fin_evs T mC (or_else b mD) ua = fin_evs T mC mD ua.
Proof.
  unfold fin_evs. rewrite fin_client_remask.
  apply (proj1 (pure_engine_version (remask None b (fin_client T mC mD ua)) (fin_client T mC mD ua) eq_refl)).
Qed.

Lemma other_filter_client m ua h c :
  bit flagClientDetect c = false -> c_cver c = version_zero -> c_ever c = version_zero ->
  good T mC mD ua h c -> md_inv T mC mD ua c ->
  good T m mD ua h (remask (Some m) None c) /\ md_inv T m mD ua (remask (Some m) None c).
Proof.
  intros B V1 V2 (G1 & G2 & G3 & G4 & _ & _ & G7 & P1 & P2 & P3) I. split.
  - split; [exact G1|]. split; [reflexivity|]. split; [exact G3|]. split; [exact G4|].
    split; [left; exact V1|]. split; [left; exact V2|].
    split; [rewrite <- (fin_ovs_remask (Some m) None) in G7; exact G7|].
    split; [|split].
    + unfold part_ok in *. change (bit flagClientDetect (remask (Some m) None c)) with (bit flagClientDetect c). rewrite B in *. exact P1.
    + unfold part_ok in *. rewrite (fin_os_remask (Some m) None). exact P2.
    + unfold part_ok in *. rewrite (fin_device_remask (Some m)). exact P3.
  - unfold md_inv in *. rewrite (fin_device_remask (Some m)). exact I.
Qed.
Lemma other_filter_device m ua h c :
  bit flagDeviceDetect c = false ->
  good T mC mD ua h c -> md_inv T mC mD ua c ->
  good T mC m ua h (remask None (Some m) c) /\ md_inv T mC m ua (remask None (Some m) c).
Proof.
  intros B (G1 & G2 & G3 & G4 & G5 & G6 & G7 & P1 & P2 & P3) I. split.
  - split; [exact G1|]. split; [exact G2|]. split; [reflexivity|]. split; [exact G4|].
    split; [rewrite <- (fin_bvs_remask (Some m)) in G5; exact G5|]. split; [rewrite <- (fin_evs_remask (Some m)) in G6; exact G6|].
    split; [rewrite <- (fin_ovs_remask None (Some m)) in G7; exact G7|].
    split; [|split].
    + unfold part_ok in *. rewrite (fin_client_remask (Some m)). exact P1.
    + unfold part_ok in *. rewrite (fin_os_remask None (Some m)). exact P2.
    + unfold part_ok in *. change (bit flagDeviceDetect (remask None (Some m) c)) with (bit flagDeviceDetect c). rewrite B in *. exact P3.
  - unfold md_inv in *. unfold bit_device in *. change (bit flagDeviceDetect (remask None (Some m) c)) with (bit flagDeviceDetect c). rewrite B in *. exact I.
Qed.
End Transfer.

(** ** Sessions *)
Definition some (o : option N) : bool := match o with Some _ => true | None => false end.
Record inv (T : tables) (s : settings) (c : ctx) : Prop := mkInv {
  iv_client : c_maskC c = s_client s;
  iv_device : c_maskD c = s_device s;
  iv_good : good T (or_else (s_client1 s) (s_client s)) (or_else (s_device1 s) (s_device s)) (s_ua s) (s_header s)
              (remask (s_client1 s) (s_device1 s) c);
  iv_model : md_inv T (or_else (s_client1 s) (s_client s)) (or_else (s_device1 s) (s_device s)) (s_ua s)
              (remask (s_client1 s) (s_device1 s) c);
  iv_bitC : bit flagClientDetect c = some (s_client1 s);
  iv_bitD : bit flagDeviceDetect c = some (s_device1 s);
  iv_vers : s_client1 s = None -> c_cver c = version_zero /\ c_ever c = version_zero;
  iv_vinv : vinv c
}.

Lemma inv_fresh T mC mD ua : inv T (mkSet ua 0 mC mD None None) (fresh_ctx mC mD 0 ua).
Proof.
  split; try reflexivity; cbn [s_client s_device s_client1 s_device1 s_ua s_header or_else].
  - apply good_fresh.
  - intros _. split; reflexivity.
  - split; [|split]; discriminate.
Qed.
Lemma inv_ua T s c ua : inv T s c -> inv T (mkSet ua 0 (s_client s) (s_device s) None None) (set_user_agent ua c).
Proof.
  intros I. change (set_user_agent ua c) with (fresh_ctx (c_maskC c) (c_maskD c) 0 ua).
  rewrite (iv_client _ _ _ I), (iv_device _ _ _ I). apply inv_fresh.
Qed.
Lemma inv_reset T c : inv T at_first (ctx_reset c).
Proof. apply (inv_fresh T ClientTypeAll DeviceTypeAll []). Qed.
Lemma inv_header T s c h : inv T s c ->
  inv T (mkSet (s_ua s) (match h with [] => s_header s | _ => fnv1 h end) (s_client s) (s_device s) (s_client1 s) (s_device1 s)) (set_requested_with h c).
Proof.
  intros I. unfold set_requested_with. destruct h as [|x h]; cbn [length Nat.ltb Nat.leb].
  - destruct s; exact I.
  - destruct I as [I1 I2 I3 I4 I5 I6 I7 I8]. split; try assumption.
    pose proof (good_set_hint T _ _ _ _ (x :: h) _ I3) as G. exact G.
Qed.
Lemma inv_clients T s c m : inv T s c ->
  inv T (mkSet (s_ua s) (s_header s) m (s_device s) (s_client1 s) (s_device1 s)) (filter_client_type m c).
Proof.
  intros [I1 I2 I3 I4 I5 I6 I7 I8]. destruct (s_client1 s) as [x|] eqn:E.
  - split; cbn [s_client s_device s_client1 s_device1 s_ua s_header]; try assumption; try reflexivity.
  - cbn [or_else some] in *. destruct (I7 eq_refl) as [V1 V2].
    assert (B : bit flagClientDetect (remask None (s_device1 s) c) = false) by exact I5.
    destruct (other_filter_client T _ _ m _ _ _ B V1 V2 I3 I4) as [G M].
    split; cbn [s_client s_device s_client1 s_device1 s_ua s_header or_else some]; try assumption; reflexivity.
Qed.
Lemma inv_devices T s c m : inv T s c ->
  inv T (mkSet (s_ua s) (s_header s) (s_client s) m (s_client1 s) (s_device1 s)) (filter_device_type m c).
Proof.
  intros [I1 I2 I3 I4 I5 I6 I7 I8]. destruct (s_device1 s) as [x|] eqn:E.
  - split; cbn [s_client s_device s_client1 s_device1 s_ua s_header]; try assumption; try reflexivity.
  - cbn [or_else some] in *.
    assert (B : bit flagDeviceDetect (remask (s_client1 s) None c) = false) by exact I6.
    destruct (other_filter_device T _ _ m _ _ _ B I3 I4) as [G M].
    split; cbn [s_client s_device s_client1 s_device1 s_ua s_header or_else some]; try assumption; reflexivity.
Qed.

(** One getter. *)
Definition next_set (g : getter) (s : settings) : settings :=
  let mC := or_else (s_client1 s) (s_client s) in
  let mD := or_else (s_device1 s) (s_device s) in
  mkSet (s_ua s) (s_header s) (s_client s) (s_device s)
    (match g with
     | GClientType | GBrowser | GBrowserVersion | GBrowserVersionString | GEngine | GEngineVersion | GEngineVersionString => Some mC
     | _ => s_client1 s
     end)
    (match g with GDeviceType | GBrand | GModel => Some mD | _ => s_device1 s end).
Lemma next_client g s : s_client1 (next_set g s) =
  if match group g with Some f => (f =? flagClientDetect)%N | None => false end then Some (or_else (s_client1 s) (s_client s)) else s_client1 s.
Proof. destruct g; reflexivity. Qed.
Lemma next_device g s : s_device1 (next_set g s) =
  if match group g with Some f => (f =? flagDeviceDetect)%N | None => false end then Some (or_else (s_device1 s) (s_device s)) else s_device1 s.
Proof. destruct g; reflexivity. Qed.
Lemma remask_eq a b a' b' c : or_else a (c_maskC c) = or_else a' (c_maskC c) -> or_else b (c_maskD c) = or_else b' (c_maskD c) ->
  remask a b c = remask a' b' c.
Proof. unfold remask. intros -> ->. reflexivity. Qed.

Lemma keyed_cold {A} k (p : prog (ctx * res A)) : keyed k p -> env (fst (run_cold p)) = k.
Proof. induction p as [x|ua f IH|ua d f IH]; cbn [keyed run_cold]; intros H; [exact H|apply IH, H|apply IH, H]. Qed.
Lemma inv_getter T s c g : inv T s c ->
  detects T (or_else (s_client1 s) (s_client s)) (or_else (s_device1 s) (s_device s)) (s_ua s) ->
  (N.of_nat (length (c_buf (fst (run_cold (run_getter T g c))))) < 4294967296)%N ->
  inv T (next_set g s) (fst (run_cold (run_getter T g c))) /\
  snd (run_cold (run_getter T g c)) = alone T (or_else (s_client1 s) (s_client s)) (or_else (s_device1 s) (s_device s)) (s_header s) (s_ua s) g.
Proof.
  intros [I1 I2 I3 I4 I5 I6 I7 I8] D L. apply detects_no_panics in D.
  set (mC := or_else (s_client1 s) (s_client s)) in *. set (mD := or_else (s_device1 s) (s_device s)) in *.
  set (v := remask (s_client1 s) (s_device1 s) c) in *.
  assert (HC : s_client1 s = None \/ bit flagClientDetect c = true)
    by (rewrite I5; destruct (s_client1 s); cbn; auto).
  assert (HD : s_device1 s = None \/ bit flagDeviceDetect c = true)
    by (rewrite I6; destruct (s_device1 s); cbn; auto).
  pose proof (same_getter T (s_client1 s) (s_device1 s) g c HC HD) as Sm. unfold same_at in Sm. fold v in Sm.
  destruct (step_getter T mC mD _ _ v g D I3 I4) as [M' _].
  pose proof (cold_good T mC mD _ _ v g D I3 I4) as G'.
  assert (R : snd (run_cold (run_getter T g v)) = alone T mC mD (s_header s) (s_ua s) g).
  { assert (Hd : {g = GModel} + {g <> GModel}) by (destruct g; (left; reflexivity) || (right; discriminate)).
    destruct Hd as [Hg|Hg].
    - rewrite Hg in *. destruct (cold_model T mC mD _ _ v D I3 I4) as [_ V]. cbv zeta in V.
      assert (Lz : (zl (c_buf (fst (run_cold (run_getter T GModel v)))) < 4294967296)%Z).
      { rewrite Sm. cbn [fst remask c_buf]. unfold zl. lia. }
      destruct (V Lz) as (t & H1 & -> & Lf). symmetry. apply alone_model; [exact D|exact H1|lia].
    - destruct (safe_cold _ _ _ (safe_getter T mC mD _ _ v g D I3 Hg)) as [_ V]. rewrite V. apply final_alone; assumption. }
  rewrite Sm in M', G', R. cbn [fst snd] in M', G', R. split; [|exact R].
  pose proof (step_vinv T g c I8) as (W & _ & Bg).
  pose proof (other_client T g c) as OC. pose proof (other_device T g c) as OD.
  set (c' := fst (run_cold (run_getter T g c))) in *.
  assert (K : env c' = env c).
  { apply keyed_cold, keyed_getter. }
  clearbody c'. unfold env in K.
  assert (K1 : c_maskC c' = s_client s) by (rewrite <- I1; congruence). assert (K2 : c_maskD c' = s_device s) by (rewrite <- I2; congruence).
  assert (Ev : remask (s_client1 (next_set g s)) (s_device1 (next_set g s)) c' = remask (s_client1 s) (s_device1 s) c').
  { apply remask_eq.
    - rewrite next_client. rewrite K1. match goal with |- context[if ?b then _ else _] => destruct b end; reflexivity.
    - rewrite next_device. rewrite K2. match goal with |- context[if ?b then _ else _] => destruct b end; reflexivity. }
  assert (E1 : or_else (s_client1 (next_set g s)) (s_client (next_set g s)) = mC).
  { rewrite next_client. match goal with |- context[if ?b then _ else _] => destruct b end; reflexivity. }
  assert (E2 : or_else (s_device1 (next_set g s)) (s_device (next_set g s)) = mD).
  { rewrite next_device. match goal with |- context[if ?b then _ else _] => destruct b end; reflexivity. }
  split.
  - exact K1.
  - exact K2.
  - rewrite E1, E2, Ev. exact G'.
  - rewrite E1, E2, Ev. exact M'.
  - rewrite next_client. destruct (group g) as [x|] eqn:Eg.
    + destruct (N.eqb_spec x flagClientDetect) as [->|N]; [exact Bg|].
      assert (X : client_mark c' = client_mark c) by (apply OC; congruence). unfold client_mark in X. rewrite <- I5. congruence.
    + assert (X : client_mark c' = client_mark c) by (apply OC; discriminate). unfold client_mark in X. rewrite <- I5. congruence.
  - rewrite next_device. destruct (group g) as [x|] eqn:Eg.
    + destruct (N.eqb_spec x flagDeviceDetect) as [->|N]; [exact Bg|]. rewrite <- I6. apply OD. congruence.
    + rewrite <- I6. apply OD. discriminate.
  - rewrite next_client. destruct (group g) as [x|] eqn:Eg.
    + destruct (N.eqb_spec x flagClientDetect) as [->|N]; [discriminate|]. intros H.
      assert (X : client_mark c' = client_mark c) by (apply OC; congruence). unfold client_mark in X.
      destruct (I7 H). split; congruence.
    + intros H. assert (X : client_mark c' = client_mark c) by (apply OC; discriminate). unfold client_mark in X.
      destruct (I7 H). split; congruence.
  - exact W.
Qed.

Lemma session_gen T l : forall s c, inv T s c ->
  (forall mC mD h ua g, In (mC, mD, h, ua, g) (in_force l s) -> detects T mC mD ua) -> roomy T l c ->
  fst (session T l c) = map (lone T) (in_force l s).
Proof.
  assert (Tl : forall x l c, (forall g, x <> Ask g) -> roomy T (x :: l) c -> roomy T l (snd (session T [x] c))).
  { intros x l0 c Nx R l1 l2 E. specialize (R (x :: l1) l2). rewrite E in R. specialize (R eq_refl).
    destruct x; try exact R. exfalso. exact (Nx g eq_refl). }
  induction l as [|x l IH]; intros s c I D R; [reflexivity|].
  destruct x as [ua|h|m|m| |g]; cbn [session in_force] in *.
  - apply IH; [apply inv_ua, I|exact D|apply (Tl (SetUA ua)); [discriminate|exact R]].
  - apply IH; [apply inv_header, I|exact D|apply (Tl (SetHeader h)); [discriminate|exact R]].
  - apply IH; [apply inv_clients, I|exact D|apply (Tl (Clients m)); [discriminate|exact R]].
  - apply IH; [apply inv_devices, I|exact D|apply (Tl (Devices m)); [discriminate|exact R]].
  - apply IH; [apply inv_reset|exact D|apply (Tl Clear); [discriminate|exact R]].
  - pose proof (R [Ask g] l eq_refl) as L. cbn [session] in L.
    pose proof (inv_getter T s c g I (D _ _ _ _ _ (or_introl eq_refl))) as St.
    assert (R' : roomy T l (fst (run_cold (run_getter T g c)))).
    { intros l1 l2 E. specialize (R (Ask g :: l1) l2). rewrite E in R. specialize (R eq_refl). cbn [session] in R.
      destruct (run_cold (run_getter T g c)) as [c1 r]. cbn [fst]. destruct (session T l1 c1) as [rs c2]. exact R. }
    destruct (run_cold (run_getter T g c)) as [c1 r]. cbn [fst snd] in *. destruct (St L) as [I' ->].
    specialize (IH (next_set g s) c1 I' (fun mC mD h ua g' H => D mC mD h ua g' (or_intror H)) R').
    destruct (session T l c1) as [rs c2]. cbn [fst map] in *. rewrite IH. reflexivity.
Qed.

Theorem session_settings T l c : c = new_ctx \/ (exists c', c = ctx_reset c') -> smooth T l -> roomy T l c ->
  fst (session T l c) = map (lone T) (in_force l at_first).
Proof.
  intros H D R. apply session_gen; [|exact D|exact R].
  destruct H as [->|[c' ->]]; [apply (inv_fresh T ClientTypeAll DeviceTypeAll [])|apply inv_reset].
Qed.

(** ** For the examples *)
Fixpoint roomyb (T : tables) (l : list use) (c : ctx) : bool :=
  if (N.of_nat (length (c_buf c)) <? 4294967296)%N then
    match l with [] => true | x :: l' => roomyb T l' (snd (session T [x] c)) end
  else false.
Definition same_settings (mC mD : N) (ua : bytes) (l : list use) : bool :=
  forallb (fun x : N * N * N * bytes * getter => let '(mC', mD', _, ua', _) := x in
    if (mC' =? mC)%N then if (mD' =? mD)%N then beqs ua' ua else false else false) (in_force l at_first).
Lemma same_smooth T mC mD ua l : detects T mC mD ua -> same_settings mC mD ua l = true -> smooth T l.
Proof.
  intros D H mC' mD' h ua' g I. unfold same_settings in H. rewrite forallb_forall in H. specialize (H _ I). cbn beta iota in H.
  destruct (N.eqb_spec mC' mC) as [->|]; [|discriminate H]. destruct (N.eqb_spec mD' mD) as [->|]; [|discriminate H].
  apply beqs_eq in H. subst ua'. exact D.
Qed.
Lemma session_app T x l c : snd (session T (x :: l) c) = snd (session T l (snd (session T [x] c))).
Proof.
  destruct x; try reflexivity. cbn [session]. destruct (run_cold (run_getter T g c)) as [c1 r]. cbn [snd].
  destruct (session T l c1). reflexivity.
Qed.
Lemma roomyb_ok T l : forall c, roomyb T l c = true -> roomy T l c.
Proof.
  induction l as [|x l IH]; intros c H l1 l2 E; cbn [roomyb] in H;
    (destruct (N.ltb_spec (N.of_nat (length (c_buf c))) 4294967296) as [L|]; [|discriminate H]).
  - destruct l1; [exact L|discriminate E].
  - destruct l1 as [|y l1]; [exact L|]. injection E as <- E. rewrite session_app. exact (IH _ H _ _ E).
Qed.

Definition is_number (r : res value) (n : N) : bool := match r with Ok (VN m) => (m =? n)%N | _ => false end.
Lemma session_case T mC mD ua l n1 n2 x : detects T mC mD ua ->
  (if same_settings mC mD ua l then if roomyb T l new_ctx then
     match fst (session T l new_ctx) with
     | [a; b; d] => if is_number a n1 then if is_number b n2 then is_bytes d x else false else false
     | _ => false
     end else false else false) = true ->
  smooth T l /\ roomy T l new_ctx /\ fst (session T l new_ctx) = [Ok (VN n1); Ok (VN n2); Ok (VB x)].
Proof.
  intros Dt. destruct (same_settings _ _ ua l) eqn:S; [|discriminate]. destruct (roomyb T l new_ctx) eqn:R; [|discriminate].
  intros H. split; [exact (same_smooth _ _ _ _ _ Dt S)|]. split; [apply roomyb_ok, R|].
  destruct (fst (session T l new_ctx)) as [|a [|b [|d [|]]]]; try discriminate H.
  destruct (is_number a n1) eqn:A; [|discriminate]. destruct (is_number b n2) eqn:B; [|discriminate].
  assert (V : forall r n, is_number r n = true -> r = Ok (VN n)).
  { intros r n Q. destruct r as [[]|]; try discriminate Q. apply N.eqb_eq in Q. subst. reflexivity. }
  rewrite (V _ _ A), (V _ _ B), (is_bytes_ok _ _ H). reflexivity.
Qed.
(** The last answer is not the one with the filters set last. *)
Lemma filter_ignored T mC0 mD0 l g mC mD h ua n m : detects T mC0 mD0 ua ->
  (if same_settings mC0 mD0 ua l then if roomyb T l new_ctx then
     match rev (fst (session T l new_ctx)) with
     | r :: _ => if is_number r n then if is_number (alone T mC mD h ua g) m then negb (n =? m)%N else false else false
     | _ => false
     end else false else false) = true ->
  smooth T l /\ roomy T l new_ctx /\
  exists r, last (fst (session T l new_ctx)) Panic = r /\ r <> alone T mC mD h ua g.
Proof.
  intros Dt. destruct (same_settings _ _ ua l) eqn:S; [|discriminate]. destruct (roomyb T l new_ctx) eqn:R; [|discriminate].
  intros H. split; [exact (same_smooth _ _ _ _ _ Dt S)|]. split; [apply roomyb_ok, R|]. eexists. split; [reflexivity|].
  destruct (rev (fst (session T l new_ctx))) as [|r t] eqn:E; [discriminate|].
  assert (X : fst (session T l new_ctx) = rev t ++ [r]) by (rewrite <- (rev_involutive (fst _)), E; reflexivity).
  rewrite X, last_last. destruct r as [[]|]; try discriminate H.
  destruct (alone T mC mD h ua g) as [[]|]; intros Q; try discriminate Q.
  injection Q as Q. cbn [is_number] in H.
  match type of H with (if ?x then (if ?y then _ else _) else _) = true => destruct x eqn:A; [|discriminate H]; destruct y eqn:B; [|discriminate H] end.
  apply N.eqb_eq in A, B. rewrite <- A, <- B, Q, N.eqb_refl in H. discriminate H.
Qed.

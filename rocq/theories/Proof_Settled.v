(** A context of which every getter has been called is settled. *)
From Verif Require Import Model_Base Model_CacheEntry Model_Version Model_Ctx Model_Parse Model_Readers Spec_Getters Spec_Again Spec_Readers
  Proof_Base Proof_Local Proof_Getters Proof_Again Proof_Readers.
Open Scope nat_scope.

Definition flags : list N := [flagClientDetect; flagDeviceDetect; flagOSDetect].
Definition beyond (c c' : ctx) : Prop :=
  (forall i, In i flags -> check_bit (c_bits c) i = true -> check_bit (c_bits c') i = true) /\
  (forall w, v_p (ver w c) = true -> v_p (ver w c') = true).
Lemma beyond_refl c : beyond c c.
Proof. split; auto. Qed.
Lemma beyond_trans a b c : beyond a b -> beyond b c -> beyond a c.
Proof. intros [A1 A2] [B1 B2]. split; auto. Qed.
Lemma beyond_same c c' : (forall i, In i flags -> check_bit (c_bits c') i = check_bit (c_bits c) i) -> vers c' = vers c -> beyond c c'.
Proof.
  intros H V. split; [intros i Hi; rewrite H by exact Hi; auto|]. unfold vers in V. intros w. destruct w; cbn [ver]; congruence.
Qed.

Definition onward {A} (p : P A) : Prop := forall c, beyond c (fst (run_cold (p c))).
Lemma cold_bind {A B} (p : prog A) (f : A -> prog B) : run_cold (prog_bind p f) = run_cold (f (run_cold p)).
Proof. induction p as [a|key k IH|key e p IH]; cbn; auto. Qed.
Lemma on_bind {A B} (m : P A) (f : A -> P B) : onward m -> (forall a, onward (f a)) -> onward (pbind m f).
Proof.
  intros H F c. unfold pbind. rewrite cold_bind. specialize (H c). destruct (run_cold (m c)) as [c1 [a|]]; cbn [fst] in *; [|exact H].
  exact (beyond_trans _ _ _ H (F a c1)).
Qed.
Lemma on_ret {A} (a : A) : onward (pret a).
Proof. intros c. apply beyond_refl. Qed.
Lemma on_lift {A} (m : M A) : (forall c, beyond c (fst (m c))) -> onward (plift m).
Proof. intros H c. apply H. Qed.
Lemma on_defer {A} (p : P A) d : onward p -> (forall r, onward (d r)) -> onward (pdefer p d).
Proof.
  intros H D c. unfold pdefer. rewrite cold_bind. specialize (H c). destruct (run_cold (p c)) as [c1 r]. cbn [fst] in *. rewrite cold_bind.
  specialize (D r c1). destruct (run_cold (d r c1)) as [c2 r2]. cbn [fst run_cold] in *. exact (beyond_trans _ _ _ H D).
Qed.
Lemma on_set i : onward (plift (mmod (set_flag i))).
Proof.
  intros c. split; [|intros w; destruct w; exact (fun H => H)]. intros j _. cbn. unfold check_bit, set_bit. rewrite N.setbit_eqb. intros ->. apply Bool.orb_true_r.
Qed.
Lemma on_finish i : onward (finish i).
Proof. apply on_bind; [apply on_set|]. intros [] c. apply beyond_refl. Qed.
Lemma on_local {A X Y} (V : ctx -> X) (W : ctx -> Y) (m : M A) : local V W m -> (forall c c', W c' = W c -> beyond c c') -> onward (plift m).
Proof. intros [_ H] K. apply on_lift. intros c. apply K, H. Qed.
Ltac rest := intros c c'; unf; intros H; apply beyond_same; [intros i [<-|[<-|[<-|[]]]]|unfold vers]; congruence.
Lemma on_client {A} (m : M A) : local client_view client_rest m -> onward (plift m).
Proof. intros L. apply (on_local _ _ _ L). rest. Qed.
Lemma on_os {A} (m : M A) : local os_view os_rest m -> onward (plift m).
Proof. intros L. apply (on_local _ _ _ L). rest. Qed.
Lemma on_device {A} (m : M A) : local device_view device_rest m -> onward (plift m).
Proof. intros L. apply (on_local _ _ _ L). rest. Qed.
Lemma on_detect flag (body : P bool) : onward body -> onward (o <- pcget get_user_agent ;;
   match o with
   | Some e => if check_bit (e_bits e) flag then plift (mmod (from_cache e)) ;; pret true else pdefer body (fun _ => finish flag)
   | None => pdefer body (fun _ => finish flag)
   end)%p.
Proof. intros H c. unfold pbind, pcget. cbn [prog_bind run_cold]. apply on_defer; [exact H|]. intros r. apply on_finish. Qed.
Lemma on_ensure flag parse : onward parse -> onward (ensure flag parse).
Proof. intros H c. unfold ensure. destruct (check_bit (c_bits c) flag); [apply beyond_refl|]. apply on_bind; [exact H|]. intros a. apply on_ret. Qed.
Lemma on_read {A} (m : M A) : reader m -> onward (plift m).
Proof. intros R. apply on_lift. intros c. rewrite R. apply beyond_refl. Qed.

Section Settled.
Variable T : tables.
Lemma on_parse_client : onward (parse_client T).
Proof. apply on_detect, on_client, local_client_try. Qed.
Lemma on_parse_os : onward (parse_os T).
Proof. apply on_detect, on_os, local_eval_os. Qed.
Lemma on_get_os : onward (get_os T).
Proof. apply on_bind; [apply on_ensure, on_parse_os|]. intros _. apply on_read, read_os_reader. Qed.
Lemma on_eval_device idx def : onward (eval_device T idx def).
Proof.
  apply on_defer; [apply on_device, local_eval_device_body|]. intros [[t|]|]; unfold force_desktop; try apply on_ret;
    (destruct (idx =? dpNotebook); [|apply on_ret]; apply on_bind; [apply on_get_os|]; intros os; destruct (in_list os desktopOS); [apply on_set|apply on_ret]).
Qed.
Lemma on_device_try l : onward (device_try T l).
Proof.
  induction l as [|[[b idx] def] l IH]; cbn [device_try]; [apply on_ret|]. apply on_bind; [apply on_lift; intros c; apply beyond_refl|].
  intros mask. destruct (negb _); [|exact IH]. apply on_bind; [apply on_eval_device|]. intros [typ|]; [|exact IH].
  apply on_bind; [|intros []; apply on_ret]. apply on_lift. intros c. split; [auto|]. intros w. destruct w; exact (fun H => H).
Qed.
Lemma on_parse_device : onward (parse_device T).
Proof. apply on_detect. apply on_bind; [apply on_device_try|]. intros []; [apply on_ret|]. apply on_device, local_device_fallback. Qed.
Lemma on_map {A B} (f : A -> B) p : onward p -> onward (pmap f p).
Proof. intros H. apply on_bind; [exact H|]. intros a. apply on_ret. Qed.
Lemma parse_keeps_mark v s : v_p v = true -> v_p (fst (parse v s)) = true.
Proof. unfold parse. intros E. rewrite E. exact E. Qed.
Lemma on_version w str : onward str -> onward (fun c => if v_p (ver w c) then Ret (c, Ok (ver w c))
    else (raw <- str ;; plift (mmod (fun c => up_ver w (fst (parse (ver w c) raw)) c)) ;; plift (mget (ver w)))%p c).
Proof.
  intros H c. destruct (v_p (ver w c)); [apply beyond_refl|]. apply on_bind; [exact H|]. intros raw. apply on_bind; [|intros []; apply on_lift; intros d; apply beyond_refl].
  apply on_lift. intros d. cbn [mmod fst]. split; [intros i _; destruct w; exact (fun X => X)|]. intros w' Hw.
  destruct w, w'; cbn [ver up_ver] in *; try exact Hw; apply parse_keeps_mark, Hw.
Qed.
Lemma on_os_version : onward (plift (read_os_version T)).
Proof.
  apply on_lift. intros c. unfold read_os_version, mbind, mget, mlift, mret, append_buf, mmod. destruct (0 <? c_osVersion c)%N; [|apply beyond_refl].
  destruct (slice64 _ _) as [raw|]; [|apply beyond_refl]. destruct (index_byte raw x5f); [|apply beyond_refl]. split; [auto|]. intros w. destruct w; exact (fun H => H).
Qed.
Lemma on_getter g : onward (run_getter T g).
Proof.
  assert (BV : onward (get_browser_version_string T)) by (apply on_bind; [apply on_ensure, on_parse_client|intros _; apply on_read, read_version_reader]).
  assert (EV : onward (get_engine_version_string T)) by (apply on_bind; [apply on_ensure, on_parse_client|intros _; apply on_read, read_ev_reader]).
  assert (OV : onward (get_os_version_string T)) by (apply on_bind; [apply on_ensure, on_parse_os|intros _; apply on_os_version]).
  destruct g; cbn [run_getter]; try apply on_map; try exact BV; try exact EV; try exact OV.
  - apply on_bind; [apply on_ensure, on_parse_client|intros _; apply on_read, r_get].
  - apply on_bind; [apply on_ensure, on_parse_client|intros _; apply on_read, read_browser_reader].
  - exact (on_version OfClient _ BV).
  - apply on_bind; [apply on_ensure, on_parse_client|intros _; apply on_read, read_engine_reader].
  - exact (on_version OfEngine _ EV).
  - apply on_bind; [apply on_ensure, on_parse_device|intros _; apply on_read, read_type_reader].
  - apply on_bind; [apply on_ensure, on_parse_device|intros _; apply on_read, read_brand_reader].
  - apply on_bind; [apply on_ensure, on_parse_device|intros _; apply on_read, read_model_reader].
  - exact on_get_os.
  - exact (on_version OfOS _ OV).
  - apply on_lift. intros c. apply beyond_refl.
Qed.

Lemma on_calls gs : forall c, beyond c (fst (cold_calls T gs c)).
Proof. induction gs as [|g gs IH]; intros c; cbn [cold_calls fst]; [apply beyond_refl|]. exact (beyond_trans _ _ _ (on_getter g c) (IH _)). Qed.

(** What one call leaves behind. *)
Lemma leaves_flag {A} flag parse (m : M A) (f : A -> value) c c1 v : detector T flag parse -> reader m ->
  run_cold (pmap f (ensure flag parse ;; plift m)%p c) = (c1, Ok v) -> check_bit (c_bits c1) flag = true.
Proof.
  intros D R E. pose proof (leaf_cold (pmap f (ensure flag parse ;; plift m)%p c)) as L. rewrite E in L. unfold pmap in L.
  apply leaf_pbind in L as (c2 & a & L1 & L2). apply leaf_ret in L2. injection L2 as -> _. apply leaf_pbind in L1 as (c3 & [] & L1 & L2).
  apply leaf_plift in L2. assert (E2 : c2 = c3) by (rewrite <- (R c3), <- L2; reflexivity). subst c2. exact (Proof_Again.ensured _ _ _ _ _ D L1).
Qed.
Lemma leaves_version w str c c1 v :
  run_cold (pmap VV (fun c => if v_p (ver w c) then Ret (c, Ok (ver w c))
    else (raw <- str ;; plift (mmod (fun c => up_ver w (fst (parse (ver w c) raw)) c)) ;; plift (mget (ver w)))%p c) c) = (c1, Ok v) ->
  v = VV (ver w c1).
Proof.
  unfold pmap, pbind at 1. rewrite cold_bind. destruct (v_p (ver w c)); [cbn; congruence|]. unfold pbind at 1. rewrite cold_bind.
  destruct (run_cold (str c)) as [c2 [raw|]]; cbn; [|discriminate]. congruence.
Qed.
Definition mark (g : getter) (c : ctx) : Prop :=
  match g with
  | GClientType => check_bit (c_bits c) flagClientDetect = true
  | GDeviceType => check_bit (c_bits c) flagDeviceDetect = true
  | GOS => check_bit (c_bits c) flagOSDetect = true
  | GBrowserVersion => v_p (c_cver c) = true
  | GEngineVersion => v_p (c_ever c) = true
  | GOSVersion => v_p (c_over c) = true
  | _ => True
  end.
Lemma leaves_mark g c : went_well (snd (run_cold (run_getter T g c))) -> mark g (fst (run_cold (run_getter T g c))).
Proof.
  destruct (run_cold (run_getter T g c)) as [c1 [v|]] eqn:E; cbn [fst snd went_well]; [|intros []]. intros W. destruct g; cbn [mark]; try exact I; cbn [run_getter] in E.
  - exact (leaves_flag _ _ _ _ _ _ _ (client_flag T) (r_get _) E).
  - pose proof (leaves_version OfClient _ _ _ _ E) as ->. exact W.
  - pose proof (leaves_version OfEngine _ _ _ _ E) as ->. exact W.
  - exact (leaves_flag _ _ _ _ _ _ _ (device_flag T) read_type_reader E).
  - exact (leaves_flag _ _ _ _ _ _ _ (os_flag T) (read_os_reader T) E).
  - pose proof (leaves_version OfOS _ _ _ _ E) as ->. exact W.
Qed.
Lemma mark_beyond g c c' : beyond c c' -> mark g c -> mark g c'.
Proof.
  intros [B V]. destruct g; cbn [mark]; auto; try (apply B; cbn; auto); [exact (V OfClient)|exact (V OfEngine)|exact (V OfOS)].
Qed.
Lemma calls_mark gs : forall c, Forall went_well (snd (cold_calls T gs c)) -> forall g, In g gs -> mark g (fst (cold_calls T gs c)).
Proof.
  induction gs as [|g0 gs IH]; intros c W g; [intros []|]. cbn [cold_calls fst snd] in *. inversion W as [|? ? W0 W1]; subst. intros [<-|Hg].
  - exact (mark_beyond _ _ _ (on_calls gs _) (leaves_mark _ _ W0)).
  - exact (IH _ W1 g Hg).
Qed.
Theorem settles gs c : incl every_getter gs -> Forall went_well (snd (cold_calls T gs c)) -> settled_ctx (fst (cold_calls T gs c)).
Proof.
  intros I W. assert (M : forall g, In g every_getter -> mark g (fst (cold_calls T gs c))) by (intros g Hg; apply calls_mark; [exact W|apply I, Hg]).
  split; [|split; [|split]].
  - intros f [<-|[<-|[<-|[]]]]; [apply (M GClientType)|apply (M GDeviceType)|apply (M GOS)]; cbn; tauto.
  - apply (M GBrowserVersion). cbn. tauto.
  - apply (M GEngineVersion). cbn. tauto.
  - apply (M GOSVersion). cbn. tauto.
Qed.
End Settled.

(** ** Schedules, for examples *)
Section Play.
Variable T : tables.
Definition move (c : ctx) (g : gorout) : option (option access * ctx * gorout) :=
  match g_now g with
  | None => match g_todo g with [] => None | x :: gs => Some (None, c, mkGo (Some (reading T x)) gs (g_got g)) end
  | Some (Stop r) => Some (None, c, mkGo None (g_todo g) (g_got g ++ [r]))
  | Some (Read l k) => Some (Some (Reads l), c, mkGo (Some (k (peek l c))) (g_todo g) (g_got g))
  | Some (Write l v k) => Some (Some (Writes l), poke l v c, mkGo (Some k) (g_todo g) (g_got g))
  | Some (Detect p k) =>
      let x := run_cold (p c) in
      Some (Some WritesAll, fst x, mkGo (Some (match snd x with Ok _ => k | Panic => Stop Panic end)) (g_todo g) (g_got g))
  end.
Lemma move_go1 c g o c' g' : move c g = Some (o, c', g') -> go1 T c g o c' g'.
Proof.
  destruct g as [[[r|l k|l v k|p k]|] gs got]; unfold move; cbn [g_now g_todo g_got].
  - intros E. injection E as <- <- <-. constructor.
  - intros E. injection E as <- <- <-. constructor.
  - intros E. injection E as <- <- <-. constructor.
  - intros E. injection E as <- <- <-. apply G_detect. rewrite <- surjective_pairing. apply leaf_cold.
  - destruct gs; [discriminate|]. intros E. injection E as <- <- <-. constructor.
Qed.
(** The numbers of the goroutines that move, in order. *)
Fixpoint play (sched : list nat) (tr : list (nat * access)) (s : shared) : list (nat * access) * shared :=
  match sched with
  | [] => (tr, s)
  | i :: sched' =>
      match nth_error (snd s) i with
      | None => play sched' tr s
      | Some g =>
          match move (fst s) g with
          | None => play sched' tr s
          | Some (o, c', g') =>
              play sched' (match o with Some x => tr ++ [(i, x)] | None => tr end) (c', firstn i (snd s) ++ g' :: skipn (S i) (snd s))
          end
      end
  end.
Lemma play_together s0 sched : forall tr s, together T s0 tr s -> together T s0 (fst (play sched tr s)) (snd (play sched tr s)).
Proof.
  induction sched as [|i sched IH]; intros tr [c gos] H; cbn [play fst snd]; [exact H|]. destruct (nth_error gos i) as [g|] eqn:E; [|apply IH, H].
  destruct (move c g) as [[[o c'] g']|] eqn:M; [|apply IH, H]. apply IH.
  destruct (nth_error_split gos i E) as (a & b & -> & L). subst i.
  rewrite firstn_app, Nat.sub_diag, firstn_all, firstn_O, app_nil_r. replace (skipn (S (length a)) (a ++ g :: b)) with b
    by (rewrite skipn_app, skipn_all2 by auto; replace (S (length a) - length a) with 1 by (rewrite Nat.sub_succ_l, Nat.sub_diag by auto; reflexivity); reflexivity).
  exact (To_step T s0 tr c a b g o c' g' H (move_go1 _ _ _ _ _ M)).
Qed.
End Play.

(** Two goroutines ask for the OS version: the first has read the length of the buffer when the second appends. *)
Definition seen (f : nat * access -> bool) (tr : list (nat * access)) : bool := existsb f tr.
Lemma seen_in f tr x : (forall y, f y = true -> y = x) -> seen f tr = true -> In x tr.
Proof. intros H E. apply existsb_exists in E as (y & Hy & F). rewrite <- (H y F). exact Hy. Qed.
Definition writes_buf (p : nat * access) : bool := match p with (0, Writes Lbuf) => true | _ => false end.
Definition reads_buf (p : nat * access) : bool := match p with (1, Reads Lbuf) => true | _ => false end.
Definition writes_parsed (p : nat * access) : bool := match p with (0, Writes (Lparsed OfClient)) => true | _ => false end.
Definition reads_parsed (p : nat * access) : bool := match p with (1, Reads (Lparsed OfClient)) => true | _ => false end.
Definition well_b (r : res value) : bool := match r with Panic => false | Ok (VV v) => v_p v | Ok _ => true end.
Lemma well_ok l : forallb well_b l = true -> Forall went_well l.
Proof.
  intros H. apply Forall_forall. intros r Hr. pose proof (proj1 (forallb_forall _ _) H r Hr) as W. destruct r as [[]|]; cbn in *; auto. discriminate.
Qed.
Definition texts (l : list (res value)) : list bytes := flat_map (fun r => match r with Ok (VB b) => [b] | _ => [] end) l.
Fixpoint same_texts (a b : list bytes) : bool :=
  match a, b with [], [] => true | x :: a', y :: b' => beqs x y && same_texts a' b' | _, _ => false end.
Lemma same_texts_eq a : forall b, same_texts a b = true -> a = b.
Proof.
  induction a as [|x a IH]; intros [|y b] H; try discriminate; [reflexivity|]. cbn in H. apply andb_prop in H as [H1 H2].
  rewrite (proj1 (beqs_eq x y) H1), (IH b H2). reflexivity.
Qed.

Definition asked_all (T : tables) (ua : bytes) : ctx := fst (cold_calls T every_getter (new_ctx_with_src ua)).
Definition os_text_b (T : tables) (c : ctx) (t : bytes) : bool :=
  match answer T c GOSVersionString with Ok (VB b) => beqs b t | _ => false end.
Lemma os_text_ok T c t : os_text_b T c t = true -> answer T c GOSVersionString = Ok (VB t).
Proof. unfold os_text_b. destruct (answer T c GOSVersionString) as [[n|b|v]|]; try discriminate. intros E. rewrite (proj1 (beqs_eq b t) E). reflexivity. Qed.
Definition plan_case (T : tables) (c : ctx) (calls : list (list getter)) (sched : list nat) := play T sched [] (all_start c calls).
Lemma os_version_case T ua sched t1 t2 :
  forallb well_b (snd (cold_calls T every_getter (new_ctx_with_src ua))) = true ->
  os_text_b T (asked_all T ua) t1 = true ->
  (let x := plan_case T (asked_all T ua) [[GOSVersionString]; [GOSVersionString]] sched in
   seen writes_buf (fst x) && seen reads_buf (fst x) &&
   same_texts (texts (concat (map g_got (snd (snd x))))) [t2; t1]) = true ->
  Forall went_well (snd (cold_calls T every_getter (new_ctx_with_src ua))) /\
  answer T (asked_all T ua) GOSVersionString = Ok (VB t1) /\
  exists tr c' gos, together T (all_start (asked_all T ua) [[GOSVersionString]; [GOSVersionString]]) tr (c', gos) /\ clash tr /\
    texts (concat (map g_got gos)) = [t2; t1].
Proof.
  intros W A H. split; [exact (well_ok _ W)|]. split; [exact (os_text_ok _ _ _ A)|]. unfold plan_case in H.
  pose proof (play_together T _ sched [] _ (To_refl T (all_start (asked_all T ua) [[GOSVersionString]; [GOSVersionString]]))) as P.
  destruct (play T sched [] _) as [tr [c' gos]]. cbn [fst snd] in *. apply andb_prop in H as [H H3]. apply andb_prop in H as [H1 H2].
  exists tr, c', gos. split; [exact P|]. split; [|exact (same_texts_eq _ _ H3)].
  exists 0, 1, (Writes Lbuf), (Reads Lbuf), Lbuf. split; [discriminate|]. split.
  - revert H1. apply seen_in. intros [[|i] [l|l|]]; try discriminate. destruct l; try discriminate. reflexivity.
  - split; [|split; [left; reflexivity|left; reflexivity]]. revert H2. apply seen_in. intros [[|[|i]] [l|l|]]; try discriminate. destruct l; try discriminate. reflexivity.
Qed.
Lemma version_case T ua gs sched : 
  (let c := fst (cold_calls T gs (new_ctx_with_src ua)) in
   forallb well_b (snd (cold_calls T gs (new_ctx_with_src ua))) &&
   let x := plan_case T c [[GBrowserVersion]; [GBrowserVersion]] sched in seen writes_parsed (fst x) && seen reads_parsed (fst x)) = true ->
  Forall went_well (snd (cold_calls T gs (new_ctx_with_src ua))) /\
  exists tr s, together T (all_start (fst (cold_calls T gs (new_ctx_with_src ua))) [[GBrowserVersion]; [GBrowserVersion]]) tr s /\ clash tr.
Proof.
  cbv zeta. intros H. apply andb_prop in H as [W H]. split; [exact (well_ok _ W)|]. unfold plan_case in H.
  set (c := fst (cold_calls T gs (new_ctx_with_src ua))) in *.
  pose proof (play_together T _ sched [] _ (To_refl T (all_start c [[GBrowserVersion]; [GBrowserVersion]]))) as P.
  destruct (play T sched [] _) as [tr s]. cbn [fst snd] in *. apply andb_prop in H as [H1 H2].
  exists tr, s. split; [exact P|]. exists 0, 1, (Writes (Lparsed OfClient)), (Reads (Lparsed OfClient)), (Lparsed OfClient). split; [discriminate|]. split.
  - revert H1. apply seen_in. intros [[|i] [l|l|]]; try discriminate. destruct l as [| | | | | | | | | | | | | | | |[]]; try discriminate. reflexivity.
  - split; [|split; [left; reflexivity|left; reflexivity]]. revert H2. apply seen_in. intros [[|[|i]] [l|l|]]; try discriminate.
    destruct l as [| | | | | | | | | | | | | | | |[]]; try discriminate. reflexivity.
Qed.

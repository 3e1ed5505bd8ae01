(** Narrowing a filter. *)
From Verif Require Import Model_Base Model_CacheEntry Model_Version Model_Ctx Model_Parse Spec_Version
  Spec_Getters Spec_Select Spec_Narrow Proof_Base Proof_Local Proof_Safe Proof_Getters Proof_Select Proof_Client
  Proof_Device Proof_Choice Proof_Reports Proof_Blind.
From Coq Require Import Lia ZifyBool ZifyNat ZifyN.

(** ** Blindness at one context *)
Section At.
Variable T : tables.
Variable s : setting.
Variable x : N.
Notation F := (put s x).
Definition blindAt {A} (p : P A) (c : ctx) : Prop :=
  run_cold (p (F c)) = (F (fst (run_cold (p c))), snd (run_cold (p c))).

Lemma at_bind {A B} (p : P A) (f : A -> P B) c : blindAt p c -> (forall a, blindP s x (f a)) -> blindAt (pbind p f) c.
Proof.
  intros Hp Hf. unfold blindAt, pbind in *. rewrite !run_cold_bind, Hp. destruct (run_cold (p c)) as [c1 [a|]]; cbn [fst snd]; [apply Hf|reflexivity].
Qed.
Lemma at_defer {A} (p : P A) d c : blindAt p c -> (forall r, blindP s x (d r)) -> blindAt (pdefer p d) c.
Proof.
  intros Hp Hd. unfold blindAt, pdefer in *. rewrite !run_cold_bind, Hp. destruct (run_cold (p c)) as [c1 r]. cbn [fst snd].
  rewrite !run_cold_bind, (Hd r c1). destruct (run_cold (d r c1)) as [c2 r2]. reflexivity.
Qed.
Lemma at_ensure f p c : blindAt p c -> blindAt (ensure f p) c.
Proof.
  intros H. unfold blindAt, ensure. replace (c_bits (F c)) with (c_bits c) by (destruct s; reflexivity).
  destruct (check_bit (c_bits c) f); [reflexivity|]. exact (at_bind p (fun _ => pret tt) c H (fun _ => blindP_ret s x tt)).
Qed.
Lemma at_version (proj : ctx -> version) (gs : P bytes) (up : version -> ctx -> ctx) c :
  blindAt gs c -> (forall c, proj (F c) = proj c) -> (forall c v, up v (F c) = F (up v c)) ->
  blindAt (fun c => if v_p (proj c) then Ret (c, Ok (proj c))
           else (raw <- gs ;; plift (mmod (fun c => up (fst (parse (proj c) raw)) c)) ;; plift (mget proj))%p c) c.
Proof.
  intros Hg Hp Hu. unfold blindAt. cbv beta. rewrite Hp. destruct (v_p (proj c)); [reflexivity|].
  change (blindAt (raw <- gs ;; plift (mmod (fun c => up (fst (parse (proj c) raw)) c)) ;; plift (mget proj))%p c).
  apply at_bind; [exact Hg|]. intros raw. apply blindP_bind.
  - apply blindP_lift, blind_mod. intros c1. rewrite Hp. apply Hu.
  - intros _. apply blindP_lift, blind_get. exact Hp.
Qed.
End At.

Ltac prim := intros; match goal with s : setting |- _ => destruct s; reflexivity | _ => reflexivity end.
Ltac blind_step :=
  match goal with
  | |- blind _ _ (mbind _ _) => apply blind_bind; [|intros]
  | |- blind _ _ (mret _) => apply blind_ret
  | |- blind _ _ (mlift _) => apply blind_lift
  | |- blind _ _ (mget _) => apply blind_get; prim
  | |- blind _ _ (mmod _) => apply blind_mod; prim
  | |- blind _ _ (if ?b then _ else _) => destruct b
  | |- blind _ _ (match ?o with _ => _ end) => destruct o
  | |- blind _ _ (let _ := _ in _) => cbv zeta
  end.

(** If the detection of the client is blind to a change of the client mask, every getter is. *)
Lemma at_client T x g c : blindAt SMaskC x (parse_client T) c -> blindAt SMaskC x (run_getter T g) c.
Proof.
  intros H.
  assert (He : blindAt SMaskC x (ensure flagClientDetect (parse_client T)) c) by (apply at_ensure, H).
  assert (Hc : blindAt SMaskC x (get_browser_version_string T) c).
  { unfold get_browser_version_string, read_browser_version. apply at_bind; [exact He|]. intros. apply blindP_lift. repeat blind_step. }
  assert (Hv : blindAt SMaskC x (get_engine_version_string T) c).
  { unfold get_engine_version_string, read_engine_version. apply at_bind; [exact He|]. intros. apply blindP_lift. repeat blind_step. }
  destruct (looks SMaskC g) eqn:L; [|exact (blind_getter T SMaskC x g L c)].
  destruct g; try discriminate L; cbn [run_getter]; (apply at_bind; [|intros; apply blindP_ret]).
  - apply at_bind; [exact He|]. intros. apply blindP_lift. repeat blind_step.
  - unfold get_browser, read_browser. apply at_bind; [exact He|].
    intros. apply blindP_lift. apply blind_bind; [apply blind_get; reflexivity|]. intros h. apply blind_bind; [apply blind_get; reflexivity|]. intros cn.
    destruct (if negb (h =? 0)%N then _ else _) as [e buf]. repeat blind_step.
  - apply (at_version SMaskC x c_cver _ up_cver); [exact Hc|prim|prim].
  - exact Hc.
  - unfold get_engine, read_engine. apply at_bind; [exact He|]. intros. apply blindP_lift. repeat blind_step.
  - apply (at_version SMaskC x c_ever _ up_ever); [exact Hv|prim|prim].
  - exact Hv.
Qed.
Lemma at_device T x g c : blindAt SMaskD x (parse_device T) c -> blindAt SMaskD x (run_getter T g) c.
Proof.
  intros H.
  assert (He : blindAt SMaskD x (ensure flagDeviceDetect (parse_device T)) c) by (apply at_ensure, H).
  destruct (looks SMaskD g) eqn:L; [|exact (blind_getter T SMaskD x g L c)].
  destruct g; try discriminate L; cbn [run_getter]; (apply at_bind; [|intros; apply blindP_ret]).
  - unfold get_device_type, read_device_type. apply at_bind; [exact He|]. intros. apply blindP_lift. repeat blind_step.
  - unfold get_brand, read_brand. apply at_bind; [exact He|]. intros. apply blindP_lift. repeat blind_step.
  - unfold get_model, read_model. apply at_bind; [exact He|]. intros. apply blindP_lift. repeat blind_step.
Qed.

(** ** Clients *)
Lemma eval_client_false T idx c c' : eval_client T idx c = (c', Ok false) -> c' = c.
Proof.
  intros H. unfold eval_client, mbind at 1, mlift at 1 in H.
  destruct (index (cr_idx T) (N.of_nat idx)) as [ir|]; [|discriminate].
  unfold mbind at 1, mlift at 1 in H. destruct (zindex ir (Z.of_nat (length ir) - 1)); [|discriminate].
  unfold mbind at 1 in H. rewrite client_loop_search in H.
  destruct (search (ctest T (c_src c)) ir) as [[x|]|]; [| |discriminate].
  - destruct (client_after T x c) as [c1 [[]|]]; cbn [rbind] in H; [|discriminate].
    unfold mbind at 1, mmod in H. unfold mbind at 1 in H. destruct (idx =? cpBrowser)%nat.
    + destruct (eval_engine T x (up_clientName (ct_browser64 x) c1)) as [c2 [[]|]]; discriminate.
    + discriminate.
  - injection H as <-. reflexivity.
Qed.

Lemma try_narrow T m' : forall l c c' b, c_clientType c = 0%N ->
  (forall t idx, In (t, idx) l -> on m' t -> on (c_maskC c) t) ->
  client_try T l c = (c', Ok b) -> (b = true -> on m' (c_clientType c')) ->
  client_try T l (up_maskC m' c) = (up_maskC m' c', Ok b).
Proof.
  induction l as [|[t idx] l IH]; intros c c' b Z W E O; cbn [client_try] in *.
  - unfold mret in *. injection E as <- <-. reflexivity.
  - unfold mbind at 1, mget at 1 in E. unfold mbind at 1, mget at 1.
    change (c_maskC (up_maskC m' c)) with m'.
    assert (W' : forall t idx, In (t, idx) l -> on m' t -> on (c_maskC c) t) by (intros ? i I; apply (W _ i); right; exact I).
    destruct (negb (N.land (c_maskC c) t =? 0)%N) eqn:M.
    + unfold mbind in E. pose proof (blind_eval_client T SMaskC m' idx c) as B. change (put SMaskC m' c) with (up_maskC m' c) in B.
      destruct (eval_client T idx c) as [c1 [[|]|]] eqn:Ec; [| |discriminate].
      * unfold mmod, mret in E. injection E as <- <-. specialize (O eq_refl). change (c_clientType (up_clientType t c1)) with t in O.
        rewrite (proj2 (land_on m' t) O). unfold mbind. rewrite B. cbn [fst snd]. reflexivity.
      * pose proof (eval_client_false _ _ _ _ Ec) as ->. specialize (IH _ _ _ Z W' E O).
        destruct (negb (N.land m' t =? 0)%N); [|exact IH]. unfold mbind. rewrite B. exact IH.
    + destruct (negb (N.land m' t =? 0)%N) eqn:M'; [|exact (IH _ _ _ Z W' E O)].
      apply land_on in M'. apply (W t idx) in M'; [|left; reflexivity]. apply land_on in M'. congruence.
Qed.

Lemma order_types t idx : In (t, idx) client_order -> In t [1; 2; 4; 8; 16; 32]%N.
Proof. cbn. intros H. repeat (destruct H as [H|H]; [injection H as <- _; tauto|]). destruct H. Qed.

Lemma client_try_on T : forall l c c', client_try T l c = (c', Ok true) ->
  (exists i, In (c_clientType c', i) l) /\ on (c_maskC c) (c_clientType c').
Proof.
  induction l as [|[t idx] l IH]; intros c c' E; cbn [client_try] in E; [discriminate|].
  unfold mbind at 1, mget at 1 in E. destruct (negb (N.land (c_maskC c) t =? 0)%N) eqn:M.
  - unfold mbind in E. destruct (eval_client T idx c) as [c1 [[|]|]] eqn:Ec; [| |discriminate].
    + unfold mmod, mret in E. injection E as <-. change (c_clientType (up_clientType t c1)) with t.
      split; [exists idx; left; reflexivity|apply land_on, M].
    + apply eval_client_false in Ec as ->. destruct (IH _ _ E) as [[i I] O]. split; [exists i; right; exact I|exact O].
  - destruct (IH _ _ E) as [[i I] O]. split; [exists i; right; exact I|exact O].
Qed.
Lemma client_try_off T : forall l c c', client_try T l c = (c', Ok false) -> c' = c.
Proof.
  induction l as [|[t idx] l IH]; intros c c' E; cbn [client_try] in E; [injection E as <-; reflexivity|].
  unfold mbind at 1, mget at 1 in E. destruct (negb (N.land (c_maskC c) t =? 0)%N).
  - unfold mbind in E. destruct (eval_client T idx c) as [c1 [[|]|]] eqn:Ec; [discriminate| |discriminate].
    apply eval_client_false in Ec as ->. exact (IH _ _ E).
  - exact (IH _ _ E).
Qed.

Lemma parse_client_at T m' c :
  client_try T client_classes (up_maskC m' c) = (up_maskC m' (fst (client_try T client_classes c)), snd (client_try T client_classes c)) ->
  blindAt SMaskC m' (parse_client T) c.
Proof.
  intros H. unfold parse_client. unfold blindAt, pbind. cbn [pcget prog_bind run_cold].
  change (blindAt SMaskC m' (pdefer (plift (client_try T client_classes)) (fun _ => finish flagClientDetect)) c).
  apply at_defer; [exact H|]. intros. apply blindP_finish.
Qed.

Lemma narrow_client T mC mC' mD h ua t :
  within mC' mC -> alone T mC mD h ua GClientType = Ok (VN t) -> t = 0%N \/ on mC' t ->
  forall g, alone T mC' mD h ua g = alone T mC mD h ua g.
Proof.
  intros W A O g. rewrite alone_client_type in A. unfold client_end in A.
  destruct (client_try T client_classes (fresh_ctx mC mD h ua)) as [c' [b|]] eqn:E; cbn [fst snd] in A; [|discriminate].
  injection A as <-.
  assert (N0 : b = true -> on mC' (c_clientType c')).
  { intros ->. destruct O as [O|O]; [|exact O]. apply client_try_on in E as [[i I] _]. rewrite O in I.
    rewrite client_classes_order in I. apply order_types in I. cbn in I. lia. }
  pose proof (try_narrow T mC' client_classes (fresh_ctx mC mD h ua) c' b eq_refl) as H.
  specialize (H (fun t i I => W t (order_types t i I)) E N0).
  unfold alone. change (fresh_ctx mC' mD h ua) with (put SMaskC mC' (fresh_ctx mC mD h ua)).
  pose proof (at_client T mC' g (fresh_ctx mC mD h ua)) as B. unfold blindAt in B. rewrite B; [reflexivity|].
  apply parse_client_at. rewrite E. exact H.
Qed.

Lemma land_lor a b t : N.land (N.lor a b) t = N.lor (N.land a t) (N.land b t).
Proof. apply N.bits_inj. intros i. rewrite !N.lor_spec, !N.land_spec, N.lor_spec. destruct (N.testbit a i), (N.testbit b i), (N.testbit t i); reflexivity. Qed.
Lemma on_lor a b t : on (N.lor a b) t <-> on a t \/ on b t.
Proof.
  unfold on. rewrite land_lor. split.
  - intros H. destruct (N.eq_dec (N.land a t) 0) as [E|E]; [|left; exact E]. right. intros E2. apply H. rewrite E, E2. reflexivity.
  - intros H E. apply N.lor_eq_0_iff in E as [E1 E2]. tauto.
Qed.

Lemma narrow_two T m1 m2 mD h ua : alone T (N.lor m1 m2) mD h ua GClientType <> Panic ->
  (forall g, alone T (N.lor m1 m2) mD h ua g = alone T m1 mD h ua g) \/
  (forall g, alone T (N.lor m1 m2) mD h ua g = alone T m2 mD h ua g).
Proof.
  intros NP. destruct (alone T (N.lor m1 m2) mD h ua GClientType) as [v|] eqn:E; [|contradiction].
  assert (exists t, v = VN t) as [t ->].
  { rewrite alone_client_type in E. destruct (snd (client_end _ _ _ _ _)); [|discriminate]. injection E as <-. eexists. reflexivity. }
  destruct (filter_cold _ _ _ _ _ _ E) as [Z|[I O]].
  - left. intros g. symmetry. apply (narrow_client T _ _ mD h ua t); [|exact E|left; exact Z]. intros u _ Hu. apply on_lor. left. exact Hu.
  - apply on_lor in O as [O|O]; [left|right]; intros g; symmetry;
      (apply (narrow_client T _ _ mD h ua t); [|exact E|right; exact O]); intros u _ Hu; apply on_lor; [left|right]; exact Hu.
Qed.

Lemma narrow_many T mD h ua : forall ms, ms <> [] -> alone T (together ms) mD h ua GClientType <> Panic ->
  exists m, In m ms /\ forall g, alone T (together ms) mD h ua g = alone T m mD h ua g.
Proof.
  induction ms as [|m ms IH]; [contradiction|]. intros _ NP. unfold together in *. cbn [fold_right] in *.
  destruct ms as [|m2 ms].
  - exists m. split; [left; reflexivity|]. intros g. cbn [fold_right]. rewrite N.lor_0_r. reflexivity.
  - destruct (narrow_two _ _ _ _ _ _ NP) as [H|H].
    + exists m. split; [left; reflexivity|exact H].
    + destruct IH as (m' & I & H'); [discriminate| |].
      { rewrite <- H. exact NP. }
      exists m'. split; [right; exact I|]. intros g. rewrite H. apply H'.
Qed.

(** ** Devices *)
Lemma body_none T idx def c c' : eval_device_body T idx def c = (c', Ok None) -> c' = c.
Proof.
  intros H. unfold eval_device_body, mbind at 1, mlift at 1 in H.
  destruct (index (dr_idx T) (N.of_nat idx)) as [ir|]; [|discriminate].
  unfold mbind at 1, mlift at 1 in H. destruct (zindex ir (Z.of_nat (length ir) - 1)); [|discriminate].
  unfold mbind at 1, mget at 1 in H. unfold mbind at 1, mlift at 1 in H.
  destruct (device_loop T (c_src c) ir) as [[x|]|]; [| |discriminate].
  - unfold mbind in H. destruct (device_hit T x def c) as [c1 [t|]]; discriminate.
  - injection H as <-. reflexivity.
Qed.
Lemma other_class T idx def c : idx <> dpNotebook -> run_cold (eval_device T idx def c) = eval_device_body T idx def c.
Proof.
  intros N. rewrite eval_device_cold. unfold force_desktop. rewrite (proj2 (Nat.eqb_neq _ _) N).
  destruct (eval_device_body T idx def c) as [c1 [[t|]|]]; reflexivity.
Qed.

Definition winner (T : tables) (c : ctx) (l : list (N * nat * N)) (k : N * nat * N) : Prop :=
  exists before after ir x, l = before ++ k :: after /\ Forall (device_silent T (c_maskD c) (c_src c)) before /\
    on (c_maskD c) (fst (fst k)) /\ nth_error (dr_idx T) (snd (fst k)) = Some ir /\ first (device_applies T (c_src c)) ir x.
Lemma winner_cons T c l k k0 : device_silent T (c_maskD c) (c_src c) k0 -> winner T c l k -> winner T c (k0 :: l) k.
Proof.
  intros S (before & after & ir & x & -> & F & H). exists (k0 :: before), after, ir, x. split; [reflexivity|]. split; [constructor; assumption|exact H].
Qed.
Lemma winner_app T c l l' k : winner T c l k -> winner T c (l ++ l') k.
Proof.
  intros (before & after & ir & x & -> & H). exists before, (after ++ l'), ir, x. split; [rewrite <- app_assoc; reflexivity|exact H].
Qed.
Lemma body_class T idx def c c' o : eval_device_body T idx def c = (c', Ok o) ->
  exists ir, nth_error (dr_idx T) idx = Some ir /\
  match o with Some _ => exists x, first (device_applies T (c_src c)) ir x | None => none (device_applies T (c_src c)) ir end.
Proof.
  rewrite body_spec. intros H. destruct (index (dr_idx T) (N.of_nat idx)) as [ir|] eqn:I; [|discriminate].
  apply index_nth in I. rewrite Nat2N.id in I. exists ir. split; [exact I|].
  destruct (zindex ir (Z.of_nat (length ir) - 1)); [|discriminate].
  destruct (search (dtest T (c_src c)) ir) as [[x|]|] eqn:Sr; [| |discriminate].
  - destruct (device_hit T x def c) as [c1 [t|]]; [|discriminate]. injection H as <- <-. exists x. exact (proj1 (first_test _ _ _ _ Sr)).
  - injection H as <- <-. apply (search_none (dtest T (c_src c))); [apply dtest_applies|exact Sr].
Qed.
Definition kept (T : tables) (m' : N) (l : list (N * nat * N)) (c c' : ctx) (r : bool) : Prop :=
  run_cold (device_try T l (up_maskD m' c)) = (up_maskD m' c', Ok r).
Definition sub_bits (m' m : N) (l : list (N * nat * N)) : Prop := forall k, In k l -> on m' (fst (fst k)) -> on m (fst (fst k)).

Lemma dtry_skip T m' b idx def l c : idx <> dpNotebook -> (on m' b -> eval_device_body T idx def c = (c, Ok None)) ->
  run_cold (device_try T ((b, idx, def) :: l) (up_maskD m' c)) = run_cold (device_try T l (up_maskD m' c)).
Proof.
  intros Ni P. rewrite try_cons. change (c_maskD (up_maskD m' c)) with m'. destruct (negb (N.land m' b =? 0)%N) eqn:M; [|reflexivity].
  apply land_on in M. rewrite other_class by exact Ni.
  pose proof (blind_device_body T SMaskD m' idx def c) as B. change (put SMaskD m' c) with (up_maskD m' c) in B.
  rewrite B, (P M). reflexivity.
Qed.

Lemma dtry_pre T rest : forall l c c' r, (forall k, In k l -> snd (fst k) <> dpNotebook) ->
  run_cold (device_try T (l ++ rest) c) = (c', Ok r) ->
  (r = true /\ exists k, winner T c l k /\
     forall m', sub_bits m' (c_maskD c) l -> on m' (fst (fst k)) -> kept T m' (l ++ rest) c c' true) \/
  (run_cold (device_try T rest c) = (c', Ok r) /\
   (forall m', sub_bits m' (c_maskD c) l ->
   run_cold (device_try T (l ++ rest) (up_maskD m' c)) = run_cold (device_try T rest (up_maskD m' c))) /\
   Forall (device_silent T (c_maskD c) (c_src c)) l).
Proof.
  induction l as [|[[b idx] def] l IH]; intros c c' r N E; [right; split; [exact E|split; [intros m' _; reflexivity|constructor]]|].
  cbn [app] in *. rewrite try_cons in E.
  pose proof (N _ (or_introl eq_refl)) as Ni. cbn [fst snd] in Ni.
  assert (N' : forall k, In k l -> snd (fst k) <> dpNotebook) by (intros k Hk; apply N; right; exact Hk).
  assert (Tl : forall m', sub_bits m' (c_maskD c) ((b, idx, def) :: l) -> sub_bits m' (c_maskD c) l) by (intros m' S k Hk; apply S; right; exact Hk).
  rewrite other_class in E by exact Ni.
  assert (Lift : run_cold (device_try T (l ++ rest) c) = (c', Ok r) ->
    (forall m', sub_bits m' (c_maskD c) ((b, idx, def) :: l) -> on m' b -> eval_device_body T idx def c = (c, Ok None)) ->
    device_silent T (c_maskD c) (c_src c) (b, idx, def) ->
    (r = true /\ exists k, winner T c ((b, idx, def) :: l) k /\
     forall m', sub_bits m' (c_maskD c) ((b, idx, def) :: l) -> on m' (fst (fst k)) -> kept T m' ((b, idx, def) :: l ++ rest) c c' true) \/
    (run_cold (device_try T rest c) = (c', Ok r) /\
     (forall m', sub_bits m' (c_maskD c) ((b, idx, def) :: l) ->
     run_cold (device_try T ((b, idx, def) :: l ++ rest) (up_maskD m' c)) = run_cold (device_try T rest (up_maskD m' c))) /\
     Forall (device_silent T (c_maskD c) (c_src c)) ((b, idx, def) :: l))).
  { intros E0 P Si. destruct (IH c c' r N' E0) as [(-> & k & I & H)|(H1 & H2 & Sf)].
    - left. split; [reflexivity|]. exists k. split; [apply winner_cons; assumption|]. intros m' S Ok'. unfold kept.
      rewrite dtry_skip by (try exact Ni; exact (P m' S)). exact (H m' (Tl m' S) Ok').
    - right. split; [exact H1|]. split; [|constructor; assumption]. intros m' S. rewrite dtry_skip by (try exact Ni; exact (P m' S)). exact (H2 m' (Tl m' S)). }
  destruct (negb (N.land (c_maskD c) b =? 0)%N) eqn:M.
  - destruct (eval_device_body T idx def c) as [c1 [[t|]|]] eqn:Eb; [| |discriminate].
    + injection E as <- <-. left. split; [reflexivity|]. exists (b, idx, def).
      split.
      { apply body_class in Eb as (ir & I & x & Fx). exists [], l, ir, x. split; [reflexivity|]. split; [constructor|].
        split; [apply land_on, M|]. split; [exact I|exact Fx]. }
      cbn [fst snd]. intros m' _ O. unfold kept. rewrite try_cons.
      change (c_maskD (up_maskD m' c)) with m'. rewrite (proj2 (land_on m' b) O), other_class by exact Ni.
      pose proof (blind_device_body T SMaskD m' idx def c) as B. change (put SMaskD m' c) with (up_maskD m' c) in B. rewrite B, Eb. reflexivity.
    + apply body_none in Eb as Ec. subst c1. apply (Lift E); [intros _ _ _; reflexivity|]. intros _.
      apply body_class in Eb as (ir & I & Nn). exists ir. split; [exact I|exact Nn].
  - apply (Lift E).
    + intros m' S O. apply (S _ (or_introl eq_refl)) in O. cbn [fst snd] in O. apply land_on in O. congruence.
    + intros O. cbn [fst] in O. apply land_on in O. congruence.
Qed.

Definition front : list (N * nat * N) := firstn 7 device_classes.
Definition notebook : N * nat * N := (DeviceTypeNotebook, dpNotebook, DeviceTypeNotebook).
Lemma classes_split : device_classes = front ++ [notebook].
Proof. reflexivity. Qed.
Lemma front_not k : In k front -> snd (fst k) <> dpNotebook.
Proof. cbn. intros H. repeat (destruct H as [<-|H]; [discriminate|]). destruct H. Qed.
Lemma front_bits k : In k (front ++ [notebook]) -> In (fst (fst k)) device_bits.
Proof. cbn. intros H. repeat (destruct H as [<-|H]; [cbn; tauto|]). destruct H. Qed.

(** The whole list: found through a bit the other filter has, or nothing found and the notebook bits agree. *)
Lemma dtry_narrow T c c' r : run_cold (device_try T device_classes c) = (c', Ok r) ->
  (r = true /\ exists k, winner T c device_classes k /\
     forall m', within_devices m' (c_maskD c) -> on m' (fst (fst k)) -> kept T m' device_classes c c' true) \/
  (r = false /\ Forall (device_silent T (c_maskD c) (c_src c)) device_classes /\
   forall m', within_devices m' (c_maskD c) -> (on (c_maskD c) 1 -> on m' 1) -> kept T m' device_classes c c' false).
Proof.
  intros E. rewrite classes_split in *.
  assert (Sb : forall m', within_devices m' (c_maskD c) -> sub_bits m' (c_maskD c) front).
  { intros m' W k Hk. apply W, front_bits, in_or_app. left. exact Hk. }
  destruct (dtry_pre T [notebook] front c c' r front_not E) as [(-> & k & I & H)|(H1 & H2 & Sf)].
  - left. split; [reflexivity|]. exists k. split; [apply winner_app; exact I|]. intros m' W. exact (H m' (Sb m' W)).
  - clear E.
    assert (B : forall m', run_cold (eval_device T dpNotebook 1%N (up_maskD m' c)) =
      (up_maskD m' (fst (run_cold (eval_device T dpNotebook 1%N c))), snd (run_cold (eval_device T dpNotebook 1%N c)))).
    { intros m'. exact (blindP_eval_device T SMaskD m' dpNotebook 1%N c). }
    assert (W1 : forall m', within_devices m' (c_maskD c) -> on m' 1 -> on (c_maskD c) 1) by (intros m' W; apply W; cbn; tauto).
    assert (K : forall m', within_devices m' (c_maskD c) -> forall c2 b,
      run_cold (device_try T [notebook] (up_maskD m' c)) = (up_maskD m' c2, Ok b) -> kept T m' (front ++ [notebook]) c c2 b).
    { intros m' W c2 b E2. unfold kept. rewrite (H2 m' (Sb m' W)). exact E2. }
    unfold notebook in *. rewrite try_cons in H1. change DeviceTypeNotebook with 1%N in *.
    destruct (negb (N.land (c_maskD c) 1 =? 0)%N) eqn:M.
    + apply land_on in M. destruct (run_cold (eval_device T dpNotebook 1%N c)) as [c1 [[t|]|]] eqn:Eb; [| |discriminate].
      * injection H1 as <- <-. left. split; [reflexivity|]. exists notebook. split.
        { rewrite eval_device_cold in Eb. destruct (eval_device_body T dpNotebook 1%N c) as [c3 [[t3|]|]] eqn:Ey.
          - apply body_class in Ey as (ir & I & x & Fx). exists front, [], ir, x. split; [reflexivity|]. split; [exact Sf|]. split; [exact M|]. split; [exact I|exact Fx].
          - destruct (run_cold (force_desktop T dpNotebook (Ok None) c3)) as [? [?|]]; discriminate.
          - destruct (run_cold (force_desktop T dpNotebook Panic c3)) as [? [?|]]; discriminate. }
        intros m' W O. change (on m' 1) in O. apply (K m' W). rewrite try_cons. change (c_maskD (up_maskD m' c)) with m'.
        rewrite (proj2 (land_on m' 1) O), B. reflexivity.
      * cbn [device_try pret run_cold] in H1. injection H1 as <- <-. right. split; [reflexivity|]. split.
        { apply Forall_app. split; [exact Sf|]. constructor; [|constructor]. intros _. rewrite eval_device_cold in Eb.
          destruct (eval_device_body T dpNotebook 1%N c) as [c3 [[t3|]|]] eqn:Ey; [discriminate| |].
          - apply body_class in Ey as (ir & I & Nn). exists ir. split; [exact I|exact Nn].
          - destruct (run_cold (force_desktop T dpNotebook Panic c3)) as [? [?|]]; discriminate. }
        intros m' W O. specialize (O M).
        apply (K m' W). rewrite try_cons. change (c_maskD (up_maskD m' c)) with m'. rewrite (proj2 (land_on m' 1) O), B. reflexivity.
    + cbn [device_try pret run_cold] in H1. injection H1 as <- <-. right. split; [reflexivity|]. split.
      { apply Forall_app. split; [exact Sf|]. constructor; [|constructor]. intros O. cbn [fst] in O. apply land_on in O. congruence. }
      intros m' W _.
      apply (K m' W). rewrite try_cons. change (c_maskD (up_maskD m' c)) with m'.
      destruct (negb (N.land m' 1 =? 0)%N) eqn:M'; [|reflexivity]. apply land_on, (W1 m' W), land_on in M'. congruence.
Qed.

Lemma parse_device_at T m' c : blindAt SMaskD m' (device_try T device_classes) c -> blindAt SMaskD m' (parse_device T) c.
Proof.
  intros H. unfold parse_device. unfold blindAt, pbind. cbn [pcget prog_bind run_cold].
  change (blindAt SMaskD m' (pdefer (device_body T) (fun _ => finish flagDeviceDetect)) c).
  apply at_defer; [|intros; apply blindP_finish]. unfold device_body. apply at_bind; [exact H|].
  intros []; [apply blindP_ret|]. apply blindP_lift, blind_fallback.
Qed.

(** The two cases of a detection that does not panic. *)
Lemma device_runs T mC mD h ua : alone T mC mD h ua GDeviceType <> Panic ->
  exists c' r, run_cold (device_try T device_classes (fresh_ctx mC mD h ua)) = (c', Ok r).
Proof.
  rewrite alone_device_type. unfold dev_end, device_body, pbind. rewrite run_cold_bind. intros H.
  destruct (run_cold (device_try T device_classes (fresh_ctx mC mD h ua))) as [c' [r|]]; [eauto|].
  exfalso. apply H. reflexivity.
Qed.

Lemma device_blind T mC mD h ua m' c' r :
  run_cold (device_try T device_classes (fresh_ctx mC mD h ua)) = (c', Ok r) ->
  run_cold (device_try T device_classes (fresh_ctx mC m' h ua)) = (up_maskD m' c', Ok r) ->
  forall g, alone T mC m' h ua g = alone T mC mD h ua g.
Proof.
  intros E E' g. unfold alone. change (fresh_ctx mC m' h ua) with (put SMaskD m' (fresh_ctx mC mD h ua)) in *.
  pose proof (at_device T m' g (fresh_ctx mC mD h ua)) as B. unfold blindAt in B. rewrite B; [reflexivity|].
  apply parse_device_at. unfold blindAt. rewrite E. exact E'.
Qed.

Lemma narrow_device_two T mC m1 m2 h ua : alone T mC (N.lor m1 m2) h ua GDeviceType <> Panic ->
  (forall g, alone T mC (N.lor m1 m2) h ua g = alone T mC m1 h ua g) \/
  (forall g, alone T mC (N.lor m1 m2) h ua g = alone T mC m2 h ua g).
Proof.
  intros NP. destruct (device_runs _ _ _ _ _ NP) as (c' & r & E).
  assert (W1 : within_devices m1 (N.lor m1 m2)) by (intros u _ Hu; apply on_lor; left; exact Hu).
  assert (W2 : within_devices m2 (N.lor m1 m2)) by (intros u _ Hu; apply on_lor; right; exact Hu).
  destruct (dtry_narrow T _ c' r E) as [(-> & k & I & H)|(-> & _ & H)]; cbn [c_maskD fresh_ctx] in *.
  - destruct I as (? & ? & ? & ? & _ & _ & O & _). cbn [c_maskD fresh_ctx] in O. apply on_lor in O as [O|O]; [left|right]; intros g; symmetry.
    + exact (device_blind _ _ _ _ _ _ _ _ E (H m1 W1 O) g).
    + exact (device_blind _ _ _ _ _ _ _ _ E (H m2 W2 O) g).
  - destruct (N.eq_dec (N.land m1 1) 0) as [Z|Z]; [right|left]; intros g; symmetry.
    + refine (device_blind _ _ _ _ _ _ _ _ E (H m2 W2 _) g). intros O. apply on_lor in O as [O|O]; [contradiction|exact O].
    + refine (device_blind _ _ _ _ _ _ _ _ E (H m1 W1 _) g). intros _. exact Z.
Qed.

Lemma narrow_device_many T mC h ua : forall ms, ms <> [] -> alone T mC (together ms) h ua GDeviceType <> Panic ->
  exists m, In m ms /\ forall g, alone T mC (together ms) h ua g = alone T mC m h ua g.
Proof.
  induction ms as [|m ms IH]; [contradiction|]. intros _ NP. unfold together in *. cbn [fold_right] in *.
  destruct ms as [|m2 ms].
  - exists m. split; [left; reflexivity|]. intros g. cbn [fold_right]. rewrite N.lor_0_r. reflexivity.
  - destruct (narrow_device_two _ _ _ _ _ _ NP) as [H|H].
    + exists m. split; [left; reflexivity|exact H].
    + destruct IH as (m' & I & H'); [discriminate| |].
      { rewrite <- H. exact NP. }
      exists m'. split; [right; exact I|]. intros g. rewrite H. apply H'.
Qed.

(** Filters with the same eight bits give the same answers (whatever happens, also panics). *)
Lemma dtry_same T m' : forall l c, (forall k, In k l -> (on m' (fst (fst k)) <-> on (c_maskD c) (fst (fst k)))) ->
  run_cold (device_try T l (up_maskD m' c)) = (up_maskD m' (fst (run_cold (device_try T l c))), snd (run_cold (device_try T l c))).
Proof.
  induction l as [|[[b idx] def] l IH]; intros c W; [reflexivity|].
  rewrite !try_cons. change (c_maskD (up_maskD m' c)) with m'. pose proof (W _ (or_introl eq_refl)) as W0. cbn [fst snd] in W0.
  assert (Eb : negb (N.land m' b =? 0)%N = negb (N.land (c_maskD c) b =? 0)%N).
  { destruct (negb (N.land (c_maskD c) b =? 0)%N) eqn:M; [apply land_on, W0, land_on, M|].
    destruct (negb (N.land m' b =? 0)%N) eqn:M'; [|reflexivity]. apply land_on, W0, land_on in M'. congruence. }
  assert (W' : forall c1, c_maskD c1 = c_maskD c -> forall k, In k l -> (on m' (fst (fst k)) <-> on (c_maskD c1) (fst (fst k)))).
  { intros c1 -> k Hk. apply W. right. exact Hk. }
  rewrite Eb. destruct (negb (N.land (c_maskD c) b =? 0)%N); [|apply IH, W'; reflexivity].
  pose proof (blindP_eval_device T SMaskD m' idx def c) as B. change (put SMaskD m' c) with (up_maskD m' c) in B. rewrite B.
  pose proof (blindP_eval_device T SMaskD (c_maskD c) idx def c) as Bm.
  assert (Em : put SMaskD (c_maskD c) c = c) by (destruct c; reflexivity). rewrite Em in Bm.
  destruct (run_cold (eval_device T idx def c)) as [c1 [[t|]|]]; cbn [fst snd] in *; [reflexivity| |reflexivity].
  apply IH, W'. injection Bm as Bm. rewrite Bm. reflexivity.
Qed.
Lemma same_bits T mC m m' h ua : (forall t, In t device_bits -> (on m' t <-> on m t)) ->
  forall g, alone T mC m' h ua g = alone T mC m h ua g.
Proof.
  intros W g. unfold alone. change (fresh_ctx mC m' h ua) with (put SMaskD m' (fresh_ctx mC m h ua)).
  pose proof (at_device T m' g (fresh_ctx mC m h ua)) as B. unfold blindAt in B. rewrite B; [reflexivity|].
  apply parse_device_at. apply (dtry_same T m' device_classes (fresh_ctx mC m h ua)).
  intros k Hk. apply W, front_bits. rewrite <- classes_split. exact Hk.
Qed.

(** The class of the entry the documented order gives. *)
Lemma narrow_class T mC m m' h ua b idx def x :
  within_devices m' m -> alone T mC m h ua GDeviceType <> Panic -> device_is T m ua b idx def x -> on m' b ->
  forall g, alone T mC m' h ua g = alone T mC m h ua g.
Proof.
  intros W NP D O. destruct (device_runs _ _ _ _ _ NP) as (c' & r & E).
  destruct (dtry_narrow T _ c' r E) as [(-> & [[b' idx'] def'] & I & H)|(-> & S & _)]; cbn [c_maskD c_src fresh_ctx] in *.
  - destruct I as (before & after & ir & x' & Eo & F & On & Ei & Fx). cbn [fst snd c_maskD c_src fresh_ctx] in *.
    assert (D' : device_is T m ua b' idx' def' x') by (exists before, after, ir; auto).
    destruct (device_is_unique T m ua _ _ _ _ _ _ _ _ D D') as (-> & _).
    intros g. exact (device_blind _ _ _ _ _ _ _ _ E (H m' W O) g).
  - exfalso. exact (device_is_some _ _ _ _ _ _ _ D S).
Qed.
(** Without an entry only the bit of the notebooks matters. *)
Lemma narrow_nothing T mC m m' h ua :
  within_devices m' m -> alone T mC m h ua GDeviceType <> Panic -> no_device T m ua -> (on m 1 -> on m' 1) ->
  forall g, alone T mC m' h ua g = alone T mC m h ua g.
Proof.
  intros W NP D O. destruct (device_runs _ _ _ _ _ NP) as (c' & r & E).
  destruct (dtry_narrow T _ c' r E) as [(-> & [[b' idx'] def'] & I & _)|(-> & _ & H)]; cbn [c_maskD c_src fresh_ctx] in *.
  - destruct I as (before & after & ir & x' & Eo & F & On & Ei & Fx). cbn [fst snd c_maskD c_src fresh_ctx] in *.
    assert (D' : device_is T m ua b' idx' def' x') by (exists before, after, ir; auto).
    destruct (device_is_some _ _ _ _ _ _ _ D' D).
  - intros g. exact (device_blind _ _ _ _ _ _ _ _ E (H m' W O) g).
Qed.

(** ** Witnesses *)
Definition class_search (T : tables) (ua : bytes) (idx : nat) : option (option deviceTuple) :=
  match nth_error (dr_idx T) idx with
  | Some ir => match search (dtest T ua) ir with Ok o => Some o | Panic => None end
  | None => None
  end.
Definition quiet (T : tables) (ua : bytes) (idx : nat) : bool :=
  match class_search T ua idx with Some None => true | _ => false end.
Lemma quiet_silent T m ua k : quiet T ua (snd (fst k)) = true -> device_silent T m ua k.
Proof.
  unfold quiet, class_search. intros H _. destruct (nth_error (dr_idx T) (snd (fst k))) as [ir|]; [|discriminate].
  exists ir. split; [reflexivity|]. destruct (search (dtest T ua) ir) as [[x|]|] eqn:Sr; try discriminate.
  apply (search_none (dtest T ua)); [apply dtest_applies|exact Sr].
Qed.
Lemma quiet_all T m ua l : forallb (fun k => quiet T ua (snd (fst k))) l = true -> Forall (device_silent T m ua) l.
Proof.
  intros H. rewrite forallb_forall in H. rewrite Forall_forall. intros k Hk. apply quiet_silent, H, Hk.
Qed.
(** The entry of a class is the one found. *)
Lemma class_case T m ua before b idx def after :
  device_order = before ++ (b, idx, def) :: after ->
  forallb (fun k => quiet T ua (snd (fst k))) before = true ->
  match class_search T ua idx with Some (Some _) => true | _ => false end = true -> on m b ->
  exists x, device_is T m ua b idx def x.
Proof.
  intros Eo Q F O. unfold class_search in F. destruct (nth_error (dr_idx T) idx) as [ir|] eqn:I; [|discriminate].
  destruct (search (dtest T ua) ir) as [[x|]|] eqn:Sr; try discriminate. exists x, before, after, ir.
  split; [exact Eo|]. split; [exact (quiet_all T m ua before Q)|]. split; [exact O|]. split; [exact I|]. exact (proj1 (first_test _ _ _ _ Sr)).
Qed.

(** The detections and getters do not look at settings that do not concern them: running with another hint, client
    mask or device mask gives the same result and the same context up to that setting. *)
From Verif Require Import Model_Base Model_CacheEntry Model_Version Model_Ctx Model_Parse Spec_Getters Proof_Base
  Proof_Local Proof_Safe Proof_Getters.

Inductive setting := SHint | SMaskC | SMaskD.
Definition put (s : setting) (x : N) (c : ctx) : ctx :=
  match s with SHint => up_hint x c | SMaskC => up_maskC x c | SMaskD => up_maskD x c end.

Section Blind.
Variable T : tables.
Variable s : setting.
Variable x : N.
Notation F := (put s x).

Definition blind {A} (m : M A) : Prop := forall c, m (F c) = (F (fst (m c)), snd (m c)).
Definition blindP {A} (p : P A) : Prop := forall c, run_cold (p (F c)) = (F (fst (run_cold (p c))), snd (run_cold (p c))).

Lemma blind_bind {A B} (m : M A) (f : A -> M B) : blind m -> (forall a, blind (f a)) -> blind (mbind m f).
Proof.
  intros Hm Hf c. unfold mbind. rewrite (Hm c). destruct (m c) as [c1 [a|]]; cbn [fst snd]; [apply Hf|reflexivity].
Qed.
Lemma blind_ret {A} (a : A) : blind (mret a). Proof. intros c. reflexivity. Qed.
Lemma blind_lift {A} (r : res A) : blind (mlift r). Proof. intros c. reflexivity. Qed.
Lemma blind_get {A} (g : ctx -> A) : (forall c, g (F c) = g c) -> blind (mget g).
Proof. intros H c. unfold mget. rewrite H. reflexivity. Qed.
Lemma blind_mod g : (forall c, g (F c) = F (g c)) -> blind (mmod g).
Proof. intros H c. unfold mmod. rewrite H. reflexivity. Qed.

Ltac prim := intros; destruct s; reflexivity.
Ltac blind_step :=
  match goal with
  | |- blind (mbind _ _) => apply blind_bind; [|intros]
  | |- blind (mret _) => apply blind_ret
  | |- blind (mlift _) => apply blind_lift
  | |- blind (mget _) => apply blind_get; prim
  | |- blind (mmod _) => apply blind_mod; prim
  | |- blind (if ?b then _ else _) => destruct b
  | |- blind (match ?o with _ => _ end) => destruct o
  | |- blind (let _ := _ in _) => cbv zeta
  end.
Ltac blinds := repeat blind_step.

Lemma blind_engine y : blind (eval_engine T y).
Proof. unfold eval_engine. blinds. Qed.
Lemma blind_client_version y r : blind (client_version y r).
Proof. unfold client_version. blinds. Qed.
Lemma blind_client_loop l : blind (client_loop T l).
Proof. induction l; cbn [client_loop]; repeat (first [exact IHl | apply blind_client_version | blind_step]). Qed.
Lemma blind_eval_client idx : blind (eval_client T idx).
Proof. unfold eval_client. repeat (first [apply blind_client_loop | apply blind_engine | blind_step]). Qed.
Lemma blind_client_try l : s <> SMaskC -> blind (client_try T l).
Proof.
  intros Hs. induction l as [|[t idx] l IH]; cbn [client_try]; [apply blind_ret|].
  apply blind_bind; [apply blind_get; intros c; destruct s; [reflexivity|contradiction|reflexivity]|intros].
  repeat (first [exact IH | apply blind_eval_client | blind_step]).
Qed.

Lemma blind_os_ver_loop l : blind (os_ver_loop T l).
Proof. induction l; cbn [os_ver_loop]; repeat (first [exact IHl | blind_step]). Qed.
Lemma blind_os_hit y r : blind (os_hit T y r).
Proof. unfold os_hit, os_eval_ver. repeat (first [apply blind_os_ver_loop | blind_step]). Qed.
Lemma blind_os_loop a b l : blind (os_loop T a b l).
Proof. induction l; cbn [os_loop]; repeat (first [exact IHl | apply blind_os_hit | blind_step]). Qed.
Lemma blind_eval_os : blind (eval_os T).
Proof. unfold eval_os. repeat (first [apply blind_os_loop | blind_step]). Qed.

Lemma blind_append b : blind (append_buf b).
Proof. unfold append_buf. blinds. Qed.
Lemma blind_buf_len : blind buf_len.
Proof. unfold buf_len. blinds. Qed.
Lemma blind_mne e : blind (device_buf_mne T e).
Proof. unfold device_buf_mne. repeat (first [apply blind_append | apply blind_buf_len | blind_step]). Qed.
Lemma blind_mne1_loop raw src m : forall fuel p, blind (mne1_loop fuel raw src m p).
Proof.
  induction fuel; intros p; cbn [mne1_loop]; repeat (first [apply IHfuel | apply blind_append | blind_step]).
Qed.
Lemma blind_mne1 e r : blind (device_buf_mne1 T e r).
Proof.
  unfold device_buf_mne1. repeat (first [apply blind_append | apply blind_buf_len | apply blind_mne1_loop | blind_step]).
Qed.
Lemma blind_model_loop y def l : blind (model_loop T y def l).
Proof.
  induction l; cbn [model_loop]; repeat (first [exact IHl | apply blind_mne | apply blind_mne1 | blind_step]).
Qed.
Lemma blind_device_hit y def : blind (device_hit T y def).
Proof.
  unfold device_hit. repeat (first [apply blind_model_loop | apply blind_mne | apply blind_mne1 | blind_step]).
Qed.
Lemma blind_device_body idx def : blind (eval_device_body T idx def).
Proof. unfold eval_device_body. repeat (first [apply blind_device_hit | blind_step]). Qed.
Lemma blind_vendor_inner b l : blind (vendor_inner T b l).
Proof. induction l; cbn [vendor_inner]; repeat (first [exact IHl | blind_step]). Qed.
Lemma blind_vendor_loop l : blind (vendor_loop T l).
Proof. induction l; cbn [vendor_loop]; repeat (first [exact IHl | apply blind_vendor_inner | blind_step]). Qed.
Lemma blind_fallback : blind (device_fallback T).
Proof. unfold device_fallback, eval_vendor. repeat (first [apply blind_vendor_loop | blind_step]). Qed.

(** ** With the cache calls *)
Lemma blindP_bind {A B} (p : P A) (f : A -> P B) : blindP p -> (forall a, blindP (f a)) -> blindP (pbind p f).
Proof.
  intros Hp Hf c. unfold pbind. rewrite !run_cold_bind, (Hp c). destruct (run_cold (p c)) as [c1 [a|]]; cbn [fst snd]; [apply Hf|reflexivity].
Qed.
Lemma blindP_lift {A} (m : M A) : blind m -> blindP (plift m).
Proof. intros H c. exact (H c). Qed.
Lemma blindP_ret {A} (a : A) : blindP (pret a).
Proof. intros c. reflexivity. Qed.
Lemma blindP_cget k : blindP (pcget k).
Proof. intros c. reflexivity. Qed.
Lemma blindP_cset k e : blindP (pcset k e).
Proof. intros c. reflexivity. Qed.
Lemma blindP_defer {A} (p : P A) d : blindP p -> (forall r, blindP (d r)) -> blindP (pdefer p d).
Proof.
  intros Hp Hd c. unfold pdefer. rewrite !run_cold_bind, (Hp c). destruct (run_cold (p c)) as [c1 r]. cbn [fst snd].
  rewrite !run_cold_bind, (Hd r c1). destruct (run_cold (d r c1)) as [c2 r2]. reflexivity.
Qed.
Lemma blindP_finish f : blindP (finish f).
Proof.
  unfold finish. apply blindP_bind; [apply blindP_lift; blinds|]. intros. apply blindP_cset.
Qed.
Lemma blindP_ensure f p : blindP p -> blindP (ensure f p).
Proof.
  intros H c. unfold ensure. replace (c_bits (F c)) with (c_bits c) by (destruct s; reflexivity).
  destruct (check_bit (c_bits c) f); [reflexivity|]. exact (blindP_bind p (fun _ => pret tt) H (fun _ => blindP_ret tt) c).
Qed.
Lemma blind_from_cache e : blind (mmod (from_cache e)).
Proof. blinds. Qed.

Ltac blindP_step :=
  match goal with
  | |- blindP (pbind _ _) => apply blindP_bind; [|intros]
  | |- blindP (pret _) => apply blindP_ret
  | |- blindP (pcget _) => apply blindP_cget
  | |- blindP (pcset _ _) => apply blindP_cset
  | |- blindP (pdefer _ _) => apply blindP_defer; [|intros]
  | |- blindP (finish _) => apply blindP_finish
  | |- blindP (ensure _ _) => apply blindP_ensure
  | |- blindP (plift (mmod (from_cache _))) => apply blindP_lift, blind_from_cache
  | |- blindP (plift _) => apply blindP_lift
  | |- blindP (if ?b then _ else _) => destruct b
  | |- blindP (match ?o with _ => _ end) => destruct o
  end.

Lemma blindP_parse_client : s <> SMaskC -> blindP (parse_client T).
Proof. intros H. unfold parse_client. repeat (first [apply blind_client_try, H | blindP_step | blind_step]). Qed.
Lemma blindP_parse_os : blindP (parse_os T).
Proof. unfold parse_os. repeat (first [apply blind_eval_os | blindP_step | blind_step]). Qed.
Lemma blindP_get_os : blindP (get_os T).
Proof. unfold get_os, read_os. repeat (first [apply blindP_parse_os | blindP_step | blind_step]). Qed.
Lemma blindP_eval_device idx def : blindP (eval_device T idx def).
Proof.
  unfold eval_device. apply blindP_defer; [apply blindP_lift, blind_device_body|]. intros r. unfold force_desktop.
  destruct r as [[?|]|]; repeat (first [apply blindP_get_os | blindP_step | blind_step]).
Qed.
Lemma blindP_device_try l : s <> SMaskD -> blindP (device_try T l).
Proof.
  intros Hs. induction l as [|[[b idx] def] l IH]; cbn [device_try]; [apply blindP_ret|].
  apply blindP_bind; [apply blindP_lift, blind_get; intros c; destruct s; [reflexivity|reflexivity|contradiction]|intros].
  repeat (first [exact IH | apply blindP_eval_device | blindP_step | blind_step]).
Qed.
Lemma blindP_device_body : s <> SMaskD -> blindP (device_body T).
Proof.
  intros H. unfold device_body. apply blindP_bind; [apply blindP_device_try; exact H|]. intros [];
    repeat (first [apply blind_fallback | blindP_step | blind_step]).
Qed.
Lemma blindP_parse_device : s <> SMaskD -> blindP (parse_device T).
Proof. intros H. unfold parse_device. repeat (first [apply blindP_device_body, H | blindP_step | blind_step]). Qed.

Lemma blindP_version (proj : ctx -> version) (gs : P bytes) (up : version -> ctx -> ctx) :
  blindP gs -> (forall c, proj (F c) = proj c) -> (forall c v, up v (F c) = F (up v c)) ->
  blindP (fun c => if v_p (proj c) then Ret (c, Ok (proj c))
           else (raw <- gs ;; plift (mmod (fun c => up (fst (parse (proj c) raw)) c)) ;; plift (mget proj))%p c).
Proof.
  intros Hg Hp Hu c. rewrite Hp. destruct (v_p (proj c)); [reflexivity|]. revert c.
  change (blindP (raw <- gs ;; plift (mmod (fun c => up (fst (parse (proj c) raw)) c)) ;; plift (mget proj))%p).
  apply blindP_bind; [exact Hg|]. intros raw. apply blindP_bind.
  - apply blindP_lift, blind_mod. intros c. rewrite Hp. apply Hu.
  - intros _. apply blindP_lift, blind_get. exact Hp.
Qed.
End Blind.

(** Which settings a getter looks at. *)
Definition looks (s : setting) (g : getter) : bool :=
  match s, g with
  | SHint, GBrowser => true
  | SMaskC, (GClientType | GBrowser | GBrowserVersion | GBrowserVersionString | GEngine | GEngineVersion | GEngineVersionString) => true
  | SMaskD, (GDeviceType | GBrand | GModel) => true
  | _, _ => false
  end.

Ltac prim := intros; match goal with s : setting |- _ => destruct s; reflexivity | _ => reflexivity end.
Ltac blind_step :=
  match goal with
  | |- blind _ _ (mbind _ _) => apply blind_bind; [|intros]
  | |- blind _ _ (mret _) => apply blind_ret
  | |- blind _ _ (mlift _) => apply blind_lift
  | |- blind _ _ (mget _) => apply blind_get; prim
  | |- blind _ _ (mmod _) => apply blind_mod; prim
  | |- blind _ _ (if ?b then _ else _) => destruct b
  | |- blind _ _ (match ?o with _ => _ end) => destruct o
  | |- blind _ _ (let _ := _ in _) => cbv zeta
  end.

Lemma blind_getter T s x g : looks s g = false -> blindP s x (run_getter T g).
Proof.
  intros H.
  assert (Hc : s <> SMaskC -> blindP s x (get_browser_version_string T)).
  { intros Hs. unfold get_browser_version_string, read_browser_version. apply blindP_bind; [apply blindP_ensure, blindP_parse_client, Hs|].
    intros. apply blindP_lift. repeat blind_step. }
  assert (He : s <> SMaskC -> blindP s x (get_engine_version_string T)).
  { intros Hs. unfold get_engine_version_string, read_engine_version. apply blindP_bind; [apply blindP_ensure, blindP_parse_client, Hs|].
    intros. apply blindP_lift. repeat blind_step. }
  assert (Ho : blindP s x (get_os_version_string T)).
  { unfold get_os_version_string, read_os_version. apply blindP_bind; [apply blindP_ensure, blindP_parse_os|].
    intros. apply blindP_lift. repeat (first [apply blind_append | blind_step]). }
  destruct g; cbn [run_getter];
    try (apply blindP_bind; [|intros; apply blindP_ret]).
  - apply blindP_bind; [apply blindP_ensure, blindP_parse_client; destruct s; discriminate|].
    intros. apply blindP_lift. repeat blind_step.
  - destruct s; try discriminate. unfold get_browser, read_browser. apply blindP_bind; [apply blindP_ensure, blindP_parse_client; discriminate|].
    intros. apply blindP_lift. apply blind_bind; [apply blind_get; reflexivity|]. intros h. apply blind_bind; [apply blind_get; reflexivity|]. intros cn.
    destruct (if negb (h =? 0)%N then _ else _) as [e buf]. repeat blind_step.
  - apply (blindP_version s x c_cver _ up_cver); [apply Hc; destruct s; discriminate|prim|prim].
  - apply Hc. destruct s; discriminate.
  - unfold get_engine, read_engine. apply blindP_bind; [apply blindP_ensure, blindP_parse_client; destruct s; discriminate|].
    intros. apply blindP_lift. repeat blind_step.
  - apply (blindP_version s x c_ever _ up_ever); [apply He; destruct s; discriminate|prim|prim].
  - apply He. destruct s; discriminate.
  - unfold get_device_type, read_device_type. apply blindP_bind; [apply blindP_ensure, blindP_parse_device; destruct s; discriminate|].
    intros. apply blindP_lift. repeat blind_step.
  - unfold get_brand, read_brand. apply blindP_bind; [apply blindP_ensure, blindP_parse_device; destruct s; discriminate|].
    intros. apply blindP_lift. repeat blind_step.
  - unfold get_model, read_model. apply blindP_bind; [apply blindP_ensure, blindP_parse_device; destruct s; discriminate|].
    intros. apply blindP_lift. repeat blind_step.
  - apply blindP_get_os.
  - apply (blindP_version s x c_over _ up_over); [exact Ho|prim|prim].
  - exact Ho.
  - apply blindP_lift. repeat blind_step.
Qed.

Lemma setting_ignored T mC mD h ua g mC' mD' h' :
  (looks SHint g = true -> h' = h) -> (looks SMaskC g = true -> mC' = mC) -> (looks SMaskD g = true -> mD' = mD) ->
  alone T mC' mD' h' ua g = alone T mC mD h ua g.
Proof.
  intros H1 H2 H3.
  assert (E : forall s x c, looks s g = false -> snd (run_cold (run_getter T g (put s x c))) = snd (run_cold (run_getter T g c))).
  { intros s x c L. rewrite (blind_getter T s x g L c). reflexivity. }
  unfold alone.
  assert (A1 : snd (run_cold (run_getter T g (fresh_ctx mC' mD' h' ua))) = snd (run_cold (run_getter T g (fresh_ctx mC' mD' h ua)))).
  { destruct (looks SHint g) eqn:L; [rewrite H1 by reflexivity; reflexivity|]. exact (E SHint h' (fresh_ctx mC' mD' h ua) L). }
  assert (A2 : snd (run_cold (run_getter T g (fresh_ctx mC' mD' h ua))) = snd (run_cold (run_getter T g (fresh_ctx mC mD' h ua)))).
  { destruct (looks SMaskC g) eqn:L; [rewrite H2 by reflexivity; reflexivity|]. exact (E SMaskC mC' (fresh_ctx mC mD' h ua) L). }
  assert (A3 : snd (run_cold (run_getter T g (fresh_ctx mC mD' h ua))) = snd (run_cold (run_getter T g (fresh_ctx mC mD h ua)))).
  { destruct (looks SMaskD g) eqn:L; [rewrite H3 by reflexivity; reflexivity|]. exact (E SMaskD mD' (fresh_ctx mC mD h ua) L). }
  congruence.
Qed.

(** Repeated calls: the second call of a getter leaves the context alone, except for versions of operating systems. *)
From Verif Require Import Model_Base Model_CacheEntry Model_Version Model_Ctx Model_Parse Spec_Getters Spec_Again Proof_Base Proof_Version.
From Coq Require Import Lia.

Lemma leaf_ret {A} (a x : A) : leaf (Ret a) x -> x = a.
Proof. intros H. inversion H. reflexivity. Qed.
Lemma leaf_bind {A B} (p : prog A) (f : A -> prog B) y : leaf (prog_bind p f) y -> exists a, leaf p a /\ leaf (f a) y.
Proof.
  induction p as [a|key k IH|key e p IH]; cbn [prog_bind]; intros H.
  - exists a. split; [constructor|exact H].
  - inversion H as [|? ? o ? Ho|]; subst. destruct (IH o Ho) as (a & La & Lf). exists a. split; [econstructor; exact La|exact Lf].
  - inversion H as [| |? ? ? ? Ho]; subst. destruct (IH Ho) as (a & La & Lf). exists a. split; [constructor; exact La|exact Lf].
Qed.
Lemma leaf_pbind {A B} (m : P A) (f : A -> P B) c c2 b : leaf (pbind m f c) (c2, Ok b) ->
  exists c1 a, leaf (m c) (c1, Ok a) /\ leaf (f a c1) (c2, Ok b).
Proof.
  intros H. apply leaf_bind in H as ([c1 [a|]] & L1 & L2); [eauto|]. apply leaf_ret in L2. discriminate.
Qed.

(** ** The flag is set *)
Lemma finish_flag flag c c1 : leaf (finish flag c) (c1, Ok tt) -> check_bit (c_bits c1) flag = true.
Proof.
  unfold finish. intros H. apply leaf_pbind in H as (c0 & [] & L1 & L2). apply leaf_ret in L1. injection L1 as ->.
  inversion L2 as [| |? ? ? ? L3]; subst. apply leaf_ret in L3. injection L3 as ->. apply check_set_same.
Qed.
Lemma defer_flag flag (body : P bool) c c1 b : leaf (pdefer body (fun _ => finish flag) c) (c1, Ok b) -> check_bit (c_bits c1) flag = true.
Proof.
  unfold pdefer. intros H. apply leaf_bind in H as ([c0 r] & _ & L2). apply leaf_bind in L2 as ([c2 [[]|]] & L3 & L4).
  - apply leaf_ret in L4. injection L4 as -> _. exact (finish_flag _ _ _ L3).
  - apply leaf_ret in L4. discriminate.
Qed.
Definition detector (T : tables) (flag : N) (parse : P bool) : Prop :=
  forall c c1 b, leaf (parse c) (c1, Ok b) -> check_bit (c_bits c1) flag = true.
Lemma cached_or (flag : N) (body : P bool) :
  forall c c1 b, leaf ((o <- pcget get_user_agent ;;
    match o with
    | Some e => if check_bit (e_bits e) flag then plift (mmod (from_cache e)) ;; pret true else pdefer body (fun _ => finish flag)
    | None => pdefer body (fun _ => finish flag)
    end)%p c) (c1, Ok b) -> check_bit (c_bits c1) flag = true.
Proof.
  intros c c1 b H. apply leaf_pbind in H as (c0 & o & _ & L). destruct o as [e|].
  - destruct (check_bit (e_bits e) flag) eqn:E.
    + apply leaf_pbind in L as (c2 & [] & L1 & L2). apply leaf_ret in L1. apply leaf_ret in L2. injection L1 as ->. injection L2 as -> _. exact E.
    + exact (defer_flag _ _ _ _ _ L).
  - exact (defer_flag _ _ _ _ _ L).
Qed.
Lemma client_flag T : detector T flagClientDetect (parse_client T).
Proof. exact (cached_or flagClientDetect (plift (client_try T client_classes))). Qed.
Lemma os_flag T : detector T flagOSDetect (parse_os T).
Proof. exact (cached_or flagOSDetect (plift (eval_os T))). Qed.
Lemma device_flag T : detector T flagDeviceDetect (parse_device T).
Proof. exact (cached_or flagDeviceDetect (device_body T)). Qed.
Lemma ensured T flag parse c c1 : detector T flag parse -> leaf (ensure flag parse c) (c1, Ok tt) -> check_bit (c_bits c1) flag = true.
Proof.
  intros D. unfold ensure. destruct (check_bit (c_bits c) flag) eqn:E; intros H.
  - apply leaf_ret in H. injection H as ->. exact E.
  - apply leaf_pbind in H as (c0 & b & L1 & L2). apply leaf_ret in L2. injection L2 as ->. exact (D _ _ _ L1).
Qed.
Lemma ensure_again flag parse c : check_bit (c_bits c) flag = true -> ensure flag parse c = Ret (c, Ok tt).
Proof. intros E. unfold ensure. rewrite E. reflexivity. Qed.

(** ** Readers *)
Definition reader {A} (m : M A) : Prop := forall c, fst (m c) = c.
Lemma r_ret {A} (a : A) : reader (mret a). Proof. intros c. reflexivity. Qed.
Lemma r_get {A} (f : ctx -> A) : reader (mget f). Proof. intros c. reflexivity. Qed.
Lemma r_lift {A} (r : res A) : reader (mlift r). Proof. intros c. reflexivity. Qed.
Lemma r_bind {A B} (m : M A) (f : A -> M B) : reader m -> (forall a, reader (f a)) -> reader (mbind m f).
Proof. intros Hm Hf c. unfold mbind. specialize (Hm c). destruct (m c) as [c' [a|]]; cbn in Hm; subst c'; [apply Hf|reflexivity]. Qed.
Lemma r_if {A} (b : bool) (x y : M A) : reader x -> reader y -> reader (if b then x else y).
Proof. destruct b; auto. Qed.
Ltac reader := repeat first [apply r_bind; [|intros ?] | apply r_if | apply r_ret | apply r_get | apply r_lift].
Lemma read_browser_reader T : reader (read_browser T).
Proof.
  unfold read_browser. apply r_bind; [apply r_get|]. intros h. apply r_bind; [apply r_get|]. intros cn.
  destruct (if negb (h =? 0)%N then _ else _) as [e buf]. reader.
Qed.
Lemma read_version_reader T : reader (read_browser_version T). Proof. unfold read_browser_version. reader. Qed.
Lemma read_engine_reader T : reader (read_engine T). Proof. unfold read_engine. reader. Qed.
Lemma read_ev_reader : reader read_engine_version. Proof. unfold read_engine_version. reader. Qed.
Lemma read_type_reader : reader read_device_type. Proof. unfold read_device_type. reader. Qed.
Lemma read_brand_reader T : reader (read_brand T). Proof. unfold read_brand. reader. Qed.
Lemma read_model_reader : reader read_model. Proof. unfold read_model. reader. Qed.
Lemma read_os_reader T : reader (read_os T). Proof. unfold read_os. reader. Qed.

Lemma leaf_plift {A} (m : M A) c x : leaf (plift m c) x -> x = m c.
Proof. unfold plift. intros H. apply leaf_ret in H. exact H. Qed.
Lemma simple_again {A} T flag parse (m : M A) c c1 v : detector T flag parse -> reader m ->
  leaf ((ensure flag parse ;; plift m)%p c) (c1, Ok v) -> (ensure flag parse ;; plift m)%p c1 = Ret (c1, Ok v) /\ m c1 = (c1, Ok v) /\ check_bit (c_bits c1) flag = true.
Proof.
  intros D R H. apply leaf_pbind in H as (c0 & [] & L1 & L2). pose proof (ensured _ _ _ _ _ D L1) as E. apply leaf_plift in L2.
  pose proof (R c0) as R0. rewrite <- L2 in R0. cbn in R0. subst c0. split; [|split; [symmetry; exact L2|exact E]].
  unfold pbind. rewrite (ensure_again _ _ _ E). cbn [prog_bind]. unfold plift. rewrite <- L2. reflexivity.
Qed.
Lemma pmap_again {A} (f : A -> value) (p : P A) c c1 v :
  (forall a, leaf (p c) (c1, Ok a) -> p c1 = Ret (c1, Ok a)) -> leaf (pmap f p c) (c1, Ok v) -> pmap f p c1 = Ret (c1, Ok v).
Proof.
  intros Hp H. unfold pmap in *. apply leaf_pbind in H as (c0 & a & L1 & L2). apply leaf_ret in L2. injection L2 as -> ->.
  unfold pbind. rewrite (Hp a L1). reflexivity.
Qed.

(** ** Versions *)
Lemma version_again {A} (str : P bytes) (get : ctx -> version) (up : version -> ctx -> ctx) c c1 (v : version) (dummy : A) :
  (forall x c, get (up x c) = x) -> (forall x y c, up x (up y c) = up x c) ->
  (forall c0 s, leaf (str c) (c0, Ok s) -> forall x, str (up x c0) = Ret (up x c0, Ok s)) ->
  let p := fun c => if v_p (get c) then Ret (c, Ok (get c))
           else (raw <- str ;; plift (mmod (fun c => up (fst (parse (get c) raw)) c)) ;; plift (mget get))%p c in
  leaf (p c) (c1, Ok v) -> p c1 = Ret (c1, Ok v).
Proof.
  intros G U S p H. unfold p in H. destruct (v_p (get c)) eqn:E.
  - apply leaf_ret in H. injection H as -> ->. unfold p. rewrite E. reflexivity.
  - apply leaf_pbind in H as (c0 & raw & L1 & L2). apply leaf_pbind in L2 as (c2 & [] & L3 & L4). apply leaf_plift in L3. apply leaf_plift in L4.
    injection L3 as ->. injection L4 as -> ->. unfold p. rewrite G. destruct (parse (get c0) raw) as [w ok] eqn:Pw. cbn [fst].
    destruct (v_p w) eqn:Ew; [reflexivity|]. unfold pbind at 1. rewrite (S c0 raw L1 w). cbn [prog_bind]. unfold pbind, plift, mmod, mget. cbn [prog_bind].
    rewrite G. assert (ok = false).
    { destruct ok; [|reflexivity]. exfalso. unfold parse in Pw. destruct (v_p (get c0)) eqn:E0; [injection Pw as <-; congruence|].
      destruct (0 <? length raw); [|injection Pw as <-; discriminate Ew]. destruct (parse_loop [0; 1; 2; 3] (get c0) raw) as [v' [s|]]; [|discriminate].
      injection Pw as <-. discriminate Ew. }
    subst ok. rewrite (parse_fail_again _ _ _ Pw). cbn [fst]. rewrite U, G. reflexivity.
Qed.

Definition os_version_getter (g : getter) : bool := match g with GOSVersion | GOSVersionString => true | _ => false end.
Lemma stable T g c c1 v : os_version_getter g = false -> leaf (run_getter T g c) (c1, Ok v) -> run_getter T g c1 = Ret (c1, Ok v).
Proof.
  intros Hg H. destruct g; try discriminate Hg; cbn [run_getter] in *.
  - revert H. apply pmap_again. intros a. unfold get_client_type. intros H. apply (simple_again T) in H; [tauto|apply client_flag|apply r_get].
  - revert H. apply pmap_again. intros a. unfold get_browser. intros H. apply (simple_again T) in H; [tauto|apply client_flag|apply read_browser_reader].
  - revert H. apply pmap_again. intros a. unfold get_browser_version. apply (version_again (get_browser_version_string T) c_cver up_cver c c1 a tt); try reflexivity.
    intros c0 s L x. unfold get_browser_version_string in *. apply (simple_again T) in L; [|apply client_flag|apply read_version_reader]. destruct L as (_ & L & F).
    unfold pbind. rewrite ensure_again by exact F. cbn [prog_bind]. unfold plift. f_equal.
    revert L. unfold read_browser_version, mbind, mget, mlift. cbn. destruct (0 <? c_clientVersion c0)%N; [|intros [= <-]; reflexivity].
    destruct (slice64 _ (c_clientVersion c0)); [|discriminate]. intros [= <-]. reflexivity.
  - revert H. apply pmap_again. intros a. unfold get_browser_version_string. intros H. apply (simple_again T) in H; [tauto|apply client_flag|apply read_version_reader].
  - revert H. apply pmap_again. intros a. unfold get_engine. intros H. apply (simple_again T) in H; [tauto|apply client_flag|apply read_engine_reader].
  - revert H. apply pmap_again. intros a. unfold get_engine_version. apply (version_again (get_engine_version_string T) c_ever up_ever c c1 a tt); try reflexivity.
    intros c0 s L x. unfold get_engine_version_string in *. apply (simple_again T) in L; [|apply client_flag|apply read_ev_reader]. destruct L as (_ & L & F).
    unfold pbind. rewrite ensure_again by exact F. cbn [prog_bind]. unfold plift. f_equal.
    revert L. unfold read_engine_version, mbind, mget, mlift. cbn. destruct (0 <? c_engineVersion c0)%N; [|intros [= <-]; reflexivity].
    destruct (slice64 _ (c_engineVersion c0)); [|discriminate]. intros [= <-]. reflexivity.
  - revert H. apply pmap_again. intros a. unfold get_engine_version_string. intros H. apply (simple_again T) in H; [tauto|apply client_flag|apply read_ev_reader].
  - revert H. apply pmap_again. intros a. unfold get_device_type. intros H. apply (simple_again T) in H; [tauto|apply device_flag|apply read_type_reader].
  - revert H. apply pmap_again. intros a. unfold get_brand. intros H. apply (simple_again T) in H; [tauto|apply device_flag|apply read_brand_reader].
  - revert H. apply pmap_again. intros a. unfold get_model. intros H. apply (simple_again T) in H; [tauto|apply device_flag|apply read_model_reader].
  - revert H. apply pmap_again. intros a. unfold get_os. intros H. apply (simple_again T) in H; [tauto|apply os_flag|apply read_os_reader].
  - apply leaf_plift in H. injection H as -> ->. reflexivity.
Qed.

(** ** The version of the operating system *)
Lemma read_os_version_cases T c c1 s : read_os_version T c = (c1, Ok s) ->
  (c1 = c \/ c1 = up_buf (c_buf c ++ s) c) /\
  forall x, read_os_version T (up_buf x c) = (if length (c_buf c1) =? length (c_buf c) then up_buf x c else up_buf (x ++ s) c, Ok s).
Proof.
  unfold read_os_version, mbind, mget, mlift. cbn. destruct (0 <? c_osVersion c)%N.
  - destruct (slice64 _ (c_osVersion c)) as [raw|] eqn:Es; [|discriminate]. destruct (index_byte raw x5f) eqn:E.
    + intros [= <- <-]. split; [right; reflexivity|]. intros x. cbn [c_buf up_buf]. rewrite app_length.
      assert (N : length (dots raw) <> 0). { unfold dots. rewrite map_length. destruct raw; [discriminate E|discriminate]. }
      destruct (Nat.eqb_spec (length (c_buf c) + length (dots raw)) (length (c_buf c))) as [Hl|Hl]; [lia|]. change (c_bits (up_buf x c)) with (c_bits c). change (c_src (up_buf x c)) with (c_src c). rewrite Es, E. reflexivity.
    + intros [= <- <-]. split; [left; reflexivity|]. intros x. rewrite Nat.eqb_refl. change (c_bits (up_buf x c)) with (c_bits c). change (c_src (up_buf x c)) with (c_src c). rewrite Es, E. reflexivity.
  - intros [= <- <-]. split; [left; reflexivity|]. intros x. rewrite Nat.eqb_refl. reflexivity.
Qed.
Lemma os_version_again T c c1 s : leaf (run_getter T GOSVersionString c) (c1, Ok (VB s)) ->
  exists c2, run_getter T GOSVersionString c1 = Ret (c2, Ok (VB s)) /\ (c2 = c1 \/ c2 = up_buf (c_buf c1 ++ s) c1).
Proof.
  cbn [run_getter]. unfold pmap at 1. intros H. apply leaf_pbind in H as (c0 & a & L1 & L2). apply leaf_ret in L2. injection L2 as -> ->.
  unfold get_os_version_string in L1. apply leaf_pbind in L1 as (c3 & [] & L3 & L4). pose proof (ensured T _ _ _ _ (os_flag T) L3) as F.
  apply leaf_plift in L4. symmetry in L4. pose proof (read_os_version_cases _ _ _ _ L4) as [C R].
  assert (F0 : check_bit (c_bits c0) flagOSDetect = true) by (destruct C as [->| ->]; exact F).
  assert (E : c0 = up_buf (c_buf c0) c3). { destruct C as [->| ->]; [|reflexivity]. destruct c3; reflexivity. }
  pose proof (R (c_buf c0)) as R0. rewrite <- E in R0.
  eexists. split.
  - unfold pmap, get_os_version_string, pbind. rewrite (ensure_again _ _ _ F0). cbn [prog_bind]. unfold plift. rewrite R0. reflexivity.
  - destruct (length (c_buf c0) =? length (c_buf c3)); [left; reflexivity|right]. rewrite E. reflexivity.
Qed.

(** ** Growth *)
Lemma again_grows T c n : check_bit (c_bits c) flagOSDetect = true -> forall s, read_os_version T c = (up_buf (c_buf c ++ s) c, Ok s) -> s <> [] ->
  length (c_buf (again T GOSVersionString n c)) = length (c_buf c) + n * length s.
Proof.
  intros F s R Ns.
  assert (A : again T GOSVersionString n c = up_buf (c_buf c ++ concat (repeat s n)) c).
  { induction n as [|n IH]; cbn [again repeat concat]; [rewrite app_nil_r; destruct c; reflexivity|]. rewrite IH.
    cbn [run_getter]. unfold pmap, get_os_version_string, pbind. rewrite ensure_again by exact F. cbn [prog_bind]. unfold plift.
    destruct (read_os_version_cases _ _ _ _ R) as [_ Rx]. rewrite Rx. cbn [c_buf up_buf]. rewrite app_length.
    destruct (Nat.eqb_spec (length (c_buf c) + length s) (length (c_buf c))) as [Hl|Hl]; [destruct s; [contradiction|cbn [length] in Hl; lia]|].
    cbn [prog_bind run_cold fst]. unfold up_buf. cbn. f_equal. rewrite <- app_assoc. f_equal. clear. induction n as [|n IH]; cbn; [rewrite app_nil_r; reflexivity|].
    rewrite <- app_assoc. rewrite IH. reflexivity. }
  rewrite A. cbn [c_buf up_buf]. rewrite app_length. f_equal. clear. induction n as [|n IH]; cbn; [reflexivity|]. rewrite app_length, IH. reflexivity.
Qed.
Definition grow_check (T : tables) (ua s : bytes) : bool :=
  let c1 := fst (run_cold (run_getter T GOSVersionString (fresh_ctx 63 1023 0 ua))) in
  check_bit (c_bits c1) flagOSDetect &&
  match run_cold (run_getter T GOSVersionString c1) with
  | (c2, Ok (VB s')) => beqs s s' && beqs (c_buf c1) s && (length (c_buf c2) =? length s + length s)
  | _ => false
  end.
Lemma grow_case T ua s : s <> [] -> grow_check T ua s = true ->
  exists T ua (s : bytes), s <> [] /\ forall n, length (c_buf (again T GOSVersionString n (fresh_ctx ClientTypeAll DeviceTypeAll 0 ua))) = n * length s.
Proof.
  intros Ns H. exists T, ua, s. split; [exact Ns|]. unfold grow_check in H.
  change (fresh_ctx ClientTypeAll DeviceTypeAll 0 ua) with (fresh_ctx 63 1023 0 ua). remember (fresh_ctx 63 1023 0 ua) as c eqn:Ec.
  destruct (run_cold (run_getter T GOSVersionString c)) as [c1 r1] eqn:E1. cbn [fst] in H.
  apply andb_prop in H as [F H]. destruct (run_cold (run_getter T GOSVersionString c1)) as [c2 [[n|s'|w]|]] eqn:E2; try discriminate.
  apply andb_prop in H as [H L]. apply andb_prop in H as [H1 H2]. apply beqs_eq in H1. apply beqs_eq in H2. subst s'. apply Nat.eqb_eq in L.
  assert (R : read_os_version T c1 = (up_buf (c_buf c1 ++ s) c1, Ok s)).
  { revert E2. cbn [run_getter]. unfold pmap, get_os_version_string, pbind. rewrite ensure_again by exact F. cbn [prog_bind]. unfold plift.
    destruct (read_os_version T c1) as [c3 [s3|]] eqn:R; cbn; intros X; [|discriminate X]. injection X as -> ->.
    destruct (proj1 (read_os_version_cases _ _ _ _ R)) as [->| ->]; [|reflexivity]. rewrite H2 in L. destruct s; [contradiction|cbn [length] in L; lia]. }
  assert (A : forall n, again T GOSVersionString (S n) c = again T GOSVersionString n c1).
  { induction n as [|n IH]; [cbn [again]; rewrite E1; reflexivity|]. change (again T GOSVersionString (S (S n)) c) with (fst (run_cold (run_getter T GOSVersionString (again T GOSVersionString (S n) c)))).
    rewrite IH. reflexivity. }
  intros [|n]; [subst c; reflexivity|]. rewrite A, (again_grows T c1 n F s R Ns), H2. reflexivity.
Qed.

Lemma stable_but T g c c1 v : g <> GOSVersion -> g <> GOSVersionString -> leaf (run_getter T g c) (c1, Ok v) ->
  run_getter T g c1 = Ret (c1, Ok v).
Proof. intros H1 H2. apply stable. destruct g; try reflexivity; contradiction. Qed.
Lemma leaf_cold {A} (p : prog A) : leaf p (run_cold p).
Proof. induction p as [a|k f IH|k e p IH]; cbn; [constructor|econstructor; apply IH|constructor; exact IH]. Qed.
Lemma leaf_case T mC mD h ua g s : alone T mC mD h ua g = Ok (VB s) ->
  exists c c1, leaf (run_getter T g c) (c1, Ok (VB s)).
Proof.
  unfold alone. intros H. exists (fresh_ctx mC mD h ua), (fst (run_cold (run_getter T g (fresh_ctx mC mD h ua)))).
  rewrite <- H, <- surjective_pairing. apply leaf_cold.
Qed.

(** The theorems on clients, in the form of the properties. *)
From Verif Require Import Model_Base Model_CacheEntry Model_Version Model_Ctx Model_Parse Model_Cache Spec_Version
  Spec_Getters Spec_Select Proof_Base Proof_Local Proof_Safe Proof_Getters Proof_Version Proof_Select Proof_Client
  Proof_Private Proof_Repeat Proof_Blind.
From Coq Require Import Lia ZifyBool ZifyNat ZifyN.

(** ** Filter *)

Definition keepsC {A} (m : M A) : Prop :=
  forall c, c_maskC (fst (m c)) = c_maskC c /\ c_clientType (fst (m c)) = c_clientType c.
Lemma keepsC_bind {A B} (m : M A) (f : A -> M B) : keepsC m -> (forall a, keepsC (f a)) -> keepsC (mbind m f).
Proof.
  intros Hm Hf c. unfold mbind. destruct (m c) as [c1 [a|]] eqn:E; cbn [fst];
    destruct (Hm c) as [H1 H2]; rewrite E in H1, H2; cbn [fst] in H1, H2; [|auto].
  destruct (Hf a c1) as [H3 H4]. split; congruence.
Qed.
Ltac keeps_step :=
  match goal with
  | |- keepsC (mbind _ _) => apply keepsC_bind; [|intros]
  | |- keepsC (mret _) => intros ?; split; reflexivity
  | |- keepsC (mlift _) => intros ?; split; reflexivity
  | |- keepsC (mget _) => intros ?; split; reflexivity
  | |- keepsC (mmod _) => intros ?; split; reflexivity
  | |- keepsC (if ?b then _ else _) => destruct b
  | |- keepsC (match ?o with _ => _ end) => destruct o
  | |- keepsC (let _ := _ in _) => cbv zeta
  end.
Lemma keepsC_loop T l : keepsC (client_loop T l).
Proof. induction l; cbn [client_loop]; unfold client_version; repeat (first [exact IHl | keeps_step]). Qed.
Lemma keepsC_eval T idx : keepsC (eval_client T idx).
Proof. unfold eval_client, eval_engine. repeat (first [apply keepsC_loop | keeps_step]). Qed.

Lemma client_try_type T : forall l c c' b, client_try T l c = (c', Ok b) -> (forall k, In k l -> In k client_order) ->
  c_clientType c' = c_clientType c \/ (exists i, In (c_clientType c', i) client_order) /\ on (c_maskC c) (c_clientType c').
Proof.
  induction l as [|[t idx] l IH]; intros c c' b E I; cbn [client_try] in E.
  - unfold mret in E. injection E as <- _. left. reflexivity.
  - unfold mbind, mget in E. destruct (negb (N.land (c_maskC c) t =? 0)%N) eqn:M.
    2: { apply (IH _ _ _ E). intros k Hk. apply I. right. exact Hk. }
    destruct (keepsC_eval T idx c) as [K1 K2]. destruct (eval_client T idx c) as [c1 [[|]|]]; cbn [fst] in *; [| |discriminate].
    + unfold mmod, mret in E. injection E as <- _. right. split.
      * exists idx. apply I. left. reflexivity.
      * unfold on. change (c_clientType (up_clientType t c1)) with t. lia.
    + rewrite <- K1, <- K2. apply (IH _ _ _ E). intros k Hk. apply I. right. exact Hk.
Qed.

Lemma filter_cold T mC mD h ua t : alone T mC mD h ua GClientType = Ok (VN t) ->
  t = 0%N \/ In t [1; 2; 4; 8; 16; 32]%N /\ on mC t.
Proof.
  rewrite alone_client_type. destruct (snd (client_end T mC mD h ua)) as [b|] eqn:E; [|discriminate]. intros [= <-].
  assert (H : client_try T client_classes (fresh_ctx mC mD h ua) = (fst (client_end T mC mD h ua), Ok b)).
  { rewrite <- E. unfold client_end. destruct (client_try T client_classes (fresh_ctx mC mD h ua)); reflexivity. }
  rewrite client_classes_order in H. destruct (client_try_type _ _ _ _ _ H (fun k Hk => Hk)) as [E0|[(i & Hi) O]].
  - left. rewrite E0. reflexivity.
  - right. split; [|exact O]. generalize dependent (c_clientType (fst (client_end T mC mD h ua))). intros t Hi _. cbn in Hi.
    destruct Hi as [Hi|[Hi|[Hi|[Hi|[Hi|[Hi|[]]]]]]]; injection Hi as Hi _; subst t; cbn; tauto.
Qed.

Lemma filter_history T mC mD scripts cf i l rs :
  collision_free (concat (map (fun l => asked l []) scripts)) ->
  conc_run (start T mC mD scripts) cf -> nth_error scripts i = Some l -> nth_error (cf_threads cf) i = Some (Ret rs) ->
  Forall2 (fun x r => detects T mC mD (fst (fst x)) -> snd x = GClientType ->
     exists t, r = Ok (VN t) /\ (t = 0%N \/ In t [1; 2; 4; 8; 16; 32]%N /\ on mC t)) (calls l [] 0) rs.
Proof.
  intros CF R Hl Hi. pose proof (proj1 (isolated T mC mD scripts cf R) i l rs CF Hl Hi) as F.
  clear CF R Hl Hi. induction F as [|[[ua h] g] r x y H F IH]; [constructor|]. constructor; [|exact IH]. cbn [fst snd] in *. intros D ->.
  specialize (H D ltac:(discriminate)). cbn in H. subst r. destruct D as (D & _).
  rewrite <- (setting_ignored T mC mD 0 ua GClientType mC mD h) in D by (intros X; first [discriminate X | reflexivity]).
  destruct (alone T mC mD h ua GClientType) as [v|] eqn:E; [|congruence].
  pose proof (alone_client_type T mC mD h ua) as A. rewrite E in A.
  destruct (snd (client_end T mC mD h ua)); [|discriminate]. apply (f_equal (fun r => match r with Ok a => a | Panic => v end)) in A.
  subst v. eexists. split; [reflexivity|]. exact (filter_cold T mC mD h ua _ E).
Qed.

(** Another mask was in use when the row was stored. *)
Definition mask_check (T : tables) (mC mC' mD : N) (ua : bytes) (t : N) : bool :=
  let '(_, _, o, _) := run_getters T [GClientType] (fresh_ctx mC' mD 0 ua) None [] in
  let '(rs, _, _, _) := run_getters T [GClientType] (fresh_ctx mC mD 0 ua) o [] in
  match rs with [Ok (VN t')] => (t =? t')%N | _ => false end && negb (t =? 0)%N && (N.land mC t =? 0)%N.
Lemma mask_warm T mC mC' mD ua t : mask_check T mC mC' mD ua t = true ->
  exists T mC mC' mD ua rs0 c0 o ev0 t c1 o1 ev1,
    run_getters T [GClientType] (fresh_ctx mC' mD 0 ua) None [] = (rs0, c0, o, ev0) /\
    run_getters T [GClientType] (fresh_ctx mC mD 0 ua) o [] = ([Ok (VN t)], c1, o1, ev1) /\
    t <> 0%N /\ ~ on mC t.
Proof.
  intros H. unfold mask_check in H. exists T, mC, mC', mD, ua.
  destruct (run_getters T [GClientType] (fresh_ctx mC' mD 0 ua) None []) as [[[rs0 c0] o] ev0] eqn:E0.
  destruct (run_getters T [GClientType] (fresh_ctx mC mD 0 ua) o []) as [[[rs1 c1] o1] ev1] eqn:E1.
  destruct rs1 as [|[[t'| |]|] [|? ?]]; try discriminate.
  exists rs0, c0, o, ev0, t', c1, o1, ev1. unfold on. split; [reflexivity|]. split; [exact E1|].
  assert (t = t') as -> by lia. lia.
Qed.

(** ** Priority *)
Lemma priority T mC mD h ua t : client_sane T -> small ua -> alone T mC mD h ua GClientType = Ok (VN t) ->
  (no_client T mC ua -> t = 0%N /\ alone T mC mD 0 ua GBrowser = Ok (VB (bs "UNK"))) /\
  (forall t' idx x, client_is T mC ua t' idx x -> t = t' /\
     (forall name, text (cr_buf T) (ct_browser64 x) name -> ct_browser64 x <> 0%N -> alone T mC mD 0 ua GBrowser = Ok (VB name)) /\
     (ct_browser64 x = 0%N -> alone T mC mD 0 ua GBrowser = Ok (VB (bs "UNK")))) /\
  (no_client T mC ua \/ exists t' idx x, client_is T mC ua t' idx x).
Proof.
  intros S L H. rewrite (setting_ignored T mC mD 0 ua GClientType mC mD h) in H by (intros X; first [discriminate X | reflexivity]).
  destruct (client_priority T mC mD ua S L t H) as [(-> & NC & U)|(idx & x & CI & N1 & N2)].
  - split; [auto|]. split; [|auto]. intros t' idx x CI. destruct (client_is_some _ _ _ _ _ _ CI NC).
  - split; [intros NC; destruct (client_is_some _ _ _ _ _ _ CI NC)|]. split; [|right; eauto].
    intros t' idx' x' CI'. destruct (client_is_unique _ _ _ _ _ _ _ _ _ CI CI') as (-> & -> & ->). auto.
Qed.

(** ** Hint *)
Lemma prepared_fresh mC mD header ua :
  prepared mC mD header ua = fresh_ctx mC mD (match header with [] => 0%N | _ => fnv1 header end) ua.
Proof. destruct header; reflexivity. Qed.

Lemma bound_amap {A} (m : list (N * A)) k v : bound m k v -> amap_get m k = Some v.
Proof.
  intros (l1 & l2 & -> & _ & H). induction l1 as [|[k' v'] l1 IH]; cbn.
  - rewrite N.eqb_refl. reflexivity.
  - destruct (N.eqb_spec k' k) as [->|Hk]; [destruct (H (k, v')); [left; reflexivity|reflexivity]|].
    apply IH. intros y Hy. apply H. right. exact Hy.
Qed.
Lemma unbound_amap {A} (m : list (N * A)) k : unbound m k -> amap_get m k = None.
Proof.
  induction m as [|[k' v'] m IH]; cbn; [reflexivity|]. intros H. destruct (N.eqb_spec k' k) as [->|Hk].
  - destruct (H (k, v')); [left; reflexivity|reflexivity].
  - apply IH. intros y Hy. apply H. right. exact Hy.
Qed.

Lemma client_end_hint T mC mD h ua : c_hint (fst (client_end T mC mD h ua)) = h.
Proof.
  destruct (local_client_try T client_classes) as [_ W]. specialize (W (fresh_ctx mC mD h ua)).
  unfold client_rest, env_part in W. unfold client_end. change h with (c_hint (fresh_ctx mC mD h ua)) at 2. congruence.
Qed.
Lemma no_panic_end T mC mD h h' ua : alone T mC mD h' ua GClientType <> Panic -> exists b, snd (client_end T mC mD h ua) = Ok b.
Proof.
  rewrite (setting_ignored T mC mD h ua GClientType mC mD h') by (intros X; first [discriminate X | reflexivity]).
  rewrite alone_client_type. destruct (snd (client_end T mC mD h ua)); [eauto|congruence].
Qed.
Lemma hint_known T mC mD header ua e name :
  alone T mC mD 0 ua GClientType <> Panic -> header <> [] -> fnv1 header <> 0%N ->
  bound (hr_idx T) (fnv1 header) e -> text (hr_buf T) e name -> e <> 0%N ->
  answer T (prepared mC mD header ua) GBrowser = Ok (VB name).
Proof.
  intros NP Hh Hz B Tx He. unfold answer. rewrite prepared_fresh. destruct header as [|b0 header]; [congruence|].
  set (hd := b0 :: header) in *. change (alone T mC mD (fnv1 hd) ua GBrowser = Ok (VB name)).
  destruct (no_panic_end T mC mD (fnv1 hd) 0 ua NP) as [b E]. rewrite alone_browser, E.
  unfold read_browser, mbind, mget, mlift.
  change (c_hint (set_flag flagClientDetect (fst (client_end T mC mD (fnv1 hd) ua)))) with (c_hint (fst (client_end T mC mD (fnv1 hd) ua))).
  rewrite client_end_hint. replace (negb (fnv1 hd =? 0)%N) with true by lia. rewrite (bound_amap _ _ _ B).
  replace (0 <? e)%N with true by lia. apply text_slice in Tx. rewrite Tx. reflexivity.
Qed.
Lemma hint_unknown T mC mD header ua :
  alone T mC mD 0 ua GClientType <> Panic -> header <> [] -> fnv1 header <> 0%N -> unbound (hr_idx T) (fnv1 header) ->
  answer T (prepared mC mD header ua) GBrowser = Ok (VB (bs "UNK")).
Proof.
  intros NP Hh Hz B. unfold answer. rewrite prepared_fresh. destruct header as [|b0 header]; [congruence|].
  set (hd := b0 :: header) in *. change (alone T mC mD (fnv1 hd) ua GBrowser = Ok (VB (bs "UNK"))).
  destruct (no_panic_end T mC mD (fnv1 hd) 0 ua NP) as [b E]. rewrite alone_browser, E.
  unfold read_browser, mbind, mget, mlift.
  change (c_hint (set_flag flagClientDetect (fst (client_end T mC mD (fnv1 hd) ua)))) with (c_hint (fst (client_end T mC mD (fnv1 hd) ua))).
  rewrite client_end_hint. replace (negb (fnv1 hd =? 0)%N) with true by lia. rewrite (unbound_amap _ _ B). reflexivity.
Qed.
Lemma hint_refines T mC mD header ua :
  (forall e name, alone T mC mD 0 ua GClientType <> Panic -> header <> [] -> fnv1 header <> 0%N ->
     bound (hr_idx T) (fnv1 header) e -> text (hr_buf T) e name -> e <> 0%N ->
     answer T (prepared mC mD header ua) GBrowser = Ok (VB name)) /\
  (header = [] -> forall g, answer T (prepared mC mD header ua) g = alone T mC mD 0 ua g) /\
  (forall g, g <> GBrowser -> answer T (prepared mC mD header ua) g = alone T mC mD 0 ua g).
Proof.
  split; [|split].
  - intros e name. apply hint_known.
  - intros -> g. reflexivity.
  - intros g Hg. unfold answer. rewrite prepared_fresh. apply (setting_ignored T mC mD 0 ua g mC mD).
    + destruct g; try discriminate; contradiction.
    + reflexivity.
    + reflexivity.
Qed.

Definition unknown_check (T : tables) (mC mD : N) (header ua name : bytes) : bool :=
  is_bytes (answer T (prepared mC mD header ua) GBrowser) (bs "UNK") &&
  is_bytes (alone T mC mD 0 ua GBrowser) name && negb (beqs name (bs "UNK")) &&
  match amap_get (hr_idx T) (fnv1 header) with None => true | _ => false end.
Lemma unknown_case T mC mD header ua name : unknown_check T mC mD header ua name = true ->
  exists T mC mD header ua name, unbound (hr_idx T) (fnv1 header) /\ alone T mC mD 0 ua GBrowser = Ok (VB name) /\
    answer T (prepared mC mD header ua) GBrowser <> Ok (VB name).
Proof.
  unfold unknown_check. intros H. apply andb_prop in H as [H U]. apply andb_prop in H as [H N]. apply andb_prop in H as [A B].
  apply is_bytes_ok in A. apply is_bytes_ok in B. exists T, mC, mD, header, ua, name. split.
  - apply amap_unbound. destruct (amap_get (hr_idx T) (fnv1 header)); congruence.
  - split; [exact B|]. rewrite A. intros [= <-]. discriminate N.
Qed.
Definition known_check (T : tables) (mC mD : N) (header ua name : bytes) : bool :=
  is_ok (alone T mC mD 0 ua GClientType) && negb (length header =? 0) && negb (fnv1 header =? 0)%N &&
  match amap_get (hr_idx T) (fnv1 header) with
  | Some e => match slice64 (hr_buf T) e with Ok s => beqs s name | Panic => false end && negb (e =? 0)%N
  | None => false
  end.
Lemma known_case T mC mD header ua name : known_check T mC mD header ua name = true ->
  alone T mC mD 0 ua GClientType <> Panic /\ header <> [] /\ fnv1 header <> 0%N /\
  exists e, bound (hr_idx T) (fnv1 header) e /\ text (hr_buf T) e name /\ e <> 0%N.
Proof.
  unfold known_check. intros H. apply andb_prop in H as [H D]. apply andb_prop in H as [H C]. apply andb_prop in H as [A B].
  split; [intros X; rewrite X in A; discriminate A|]. split; [intros ->; discriminate B|]. split; [lia|].
  destruct (amap_get (hr_idx T) (fnv1 header)) as [e|] eqn:G; [|discriminate]. apply andb_prop in D as [D1 D2].
  exists e. split; [apply amap_bound; exact G|]. split; [|lia]. apply text_slice.
  destruct (slice64 (hr_buf T) e); [|discriminate]. apply beqs_eq in D1. congruence.
Qed.

(** ** Engine thresholds *)
Lemma decimal_text : forall a b n m, length a = length b -> Decimal a n -> Decimal b m -> (text_le a b <-> (n <= m)%Z).
Proof.
  assert (K : forall b a n m, length a = length b -> Decimal a n -> Decimal b m ->
     (str_leb a b = true <-> (n <= m)%Z) /\ (a = b <-> n = m)).
  { assert (Sn : forall a b x y, length a = length b -> (str_leb (a ++ [x]) (b ++ [y]) = true <->
       (str_leb a b = true /\ a <> b) \/ (a = b /\ (bn x <= bn y)%N))).
    { induction a as [|p a IH]; intros [|q b] x y E; try discriminate; cbn [app str_leb].
      - assert (beq x y = (bn x =? bn y)%N) as -> by reflexivity. split; [intros H; right; split; [reflexivity|lia]|].
        intros [[_ H]|[_ H]]; [congruence|lia].
      - injection E as E. specialize (IH b x y E). rewrite !orb_true_iff, !andb_true_iff, IH, beq_eq, N.ltb_lt. split.
        + intros [H|[-> [[H1 H2]|[-> H]]]].
          * left. split; [left; exact H|]. intros [= -> _]. lia.
          * left. split; [right; auto|]. intros [= ->]. congruence.
          * right. auto.
        + intros [[[H|[-> H]] N]|[[= -> ->] H]]; [auto| |auto]. right. split; [reflexivity|]. left. split; [exact H|].
          intros ->. apply N. reflexivity. }
    assert (Dg : forall x k, Digit x k -> (bn x = 48 + N.of_nat k)%N /\ k < 10).
    { intros x k H. unfold Digit in H. do 10 (destruct k as [|k]; [cbn in H; injection H as <-; split; [reflexivity|lia]|]).
      destruct k; discriminate. }
    assert (Inv : forall s x n, Decimal (s ++ [x]) n -> exists k, Digit x k /\
        ((s = [] /\ n = Z.of_nat k) \/ exists n', Decimal s n' /\ n = (10 * n' + Z.of_nat k)%Z)).
    { intros s x n H. inversion H as [c k D E1 E2|s0 n0 c k D0 D E1 E2]; subst.
      - destruct s as [|? [|? ?]]; try discriminate. injection E1 as <-. exists k. auto.
      - apply app_inj_tail in E1 as [-> ->]. exists k. split; [exact D|]. right. eauto. }
    assert (Bi : forall (x y : byte), bn x = bn y -> x = y).
    { intros x y E. apply beq_eq. unfold beq. lia. }
    induction b as [|y b IH] using rev_ind; intros a n m E Da Db.
    { destruct (Decimal_nonempty _ _ Db). reflexivity. }
    destruct a as [|x a _] using rev_ind; [rewrite app_length in E; cbn in E; lia|].
    rewrite !app_length in E. cbn in E. assert (El : length a = length b) by lia.
    apply Inv in Da as (k & Dk & Da). apply Inv in Db as (j & Dj & Db).
    destruct (Dg _ _ Dk) as [Bk Lk]. destruct (Dg _ _ Dj) as [Bj Lj].
    rewrite (Sn a b x y El).
    destruct Da as [[-> ->]|(n' & Da & ->)], Db as [[-> ->]|(m' & Db & ->)].
    - split; [split; [intros [[_ H]|[_ H]]; [congruence|lia]|intros H; right; split; [reflexivity|lia]]|].
      split; [intros [= ->]; lia|]. intros H. cbn [app]. f_equal. apply Bi. lia.
    - destruct b; [|discriminate]. destruct (Decimal_nonempty _ _ Db). reflexivity.
    - destruct a; [|discriminate]. destruct (Decimal_nonempty _ _ Da). reflexivity.
    - destruct (IH a n' m' El Da Db) as [I1 I2]. rewrite I1. split.
      + split; [intros [[H1 H2]|[H1 H2]]|intros H].
        * rewrite I2 in H2. lia.
        * apply I2 in H1. lia.
        * destruct (Z.eq_dec n' m') as [->|Hn]; [right; split; [apply I2; reflexivity|lia]|left].
          split; [lia|]. rewrite I2. exact Hn.
      + split.
        * intros H. apply app_inj_tail in H as [-> ->]. assert (n' = m') by (apply I2; reflexivity). lia.
        * intros H. assert (n' = m') as E1 by lia. apply I2 in E1. subst b. f_equal. f_equal. apply Bi. lia. }
  intros a b n m E Da Db. rewrite <- str_leb_text. apply (K b a n m E Da Db).
Qed.

Lemma thresholds_numeric f s n e :
  Decimal s n -> (forall t e', In (t, e') (fst f) -> length t = length s) ->
  (forall l1 t e' l2, fst f = l1 ++ (t, e') :: l2 ->
     exists k, Decimal t k /\ forall t' e'' k', In (t', e'') l2 -> Decimal t' k' -> (k' <= k)%Z) ->
  threshold f s e -> best_engine f n e.
Proof.
  intros Ds Ln Desc [(t & l1 & l2 & E & H & Nb)|[Nn ->]].
  - cbn [fst] in H. left. destruct (Desc l1 t e l2 E) as (k & Dk & Dl). exists t, k.
    assert (It : In (t, e) (fst f)).
    { apply (eq_ind_r (fun l => In (t, e) l)) with (2 := E). apply in_or_app. right. left. reflexivity. }
    split; [exact It|]. split; [exact Dk|]. split.
    { apply (decimal_text t s k n (Ln _ _ It) Dk Ds). exact H. }
    intros t' e' k' I' Dk' Lk'. pose proof I' as I2. apply (eq_ind _ (fun l => In (t', e') l)) with (2 := E) in I'. apply in_app_or in I' as [I'|[I'|I']].
    + destruct (Nb _ I'). cbn [fst]. apply (decimal_text t' s k' n (Ln _ _ I2) Dk' Ds). exact Lk'.
    + injection I' as <- <-. assert (k' = k); [|lia].
      pose proof (Decimal_nonempty _ _ Dk) as Ne.
      apply (digits_value_Decimal _ _ Ne) in Dk. apply (digits_value_Decimal _ _ Ne) in Dk'. congruence.
    + exact (Dl _ _ _ I' Dk').
  - right. split; [|reflexivity]. intros t' e' k' I' Dk'. destruct (Z.lt_ge_cases n k') as [Lt|Ge]; [exact Lt|].
    destruct (Nn _ I'). cbn [fst]. apply (decimal_text t' s k' n (Ln _ _ I') Dk' Ds). lia.
Qed.

Lemma engine_function_numeric T ua x f s m n e :
  ct_engineFI x <> (-1)%Z -> nth_error (cr_ef T) (Z.to_nat (ct_engineFI x)) = Some f ->
  engine_source T ua x s -> major_of s m -> Decimal m n ->
  (forall t e', In (t, e') (fst f) -> length t = length m) ->
  (forall l1 t e' l2, fst f = l1 ++ (t, e') :: l2 ->
     exists k, Decimal t k /\ forall t' e'' k', In (t', e'') l2 -> Decimal t' k' -> (k' <= k)%Z) ->
  threshold f m e -> own_engine T ua x e /\ best_engine f n e.
Proof.
  intros H1 H2 H3 H4 H5 H6 H7 H8. split; [eapply OE_function; eassumption|]. eapply thresholds_numeric; eassumption.
Qed.

Lemma browser_only T ua ir x : nth_error (cr_idx T) 1 = Some ir -> search (ctest T ua) ir = Ok (Some x) ->
  client_is T 1 ua 1 1 x.
Proof.
  intros I S. exists (firstn 5 client_order), [], ir. split; [reflexivity|]. split.
  - repeat constructor; intros O; exfalso; apply O; reflexivity.
  - split; [discriminate|]. split; [exact I|].
    apply (search_some (ctest T ua) (client_applies T ua)); [|exact S].
    intros y b E. exact (hit_applies _ _ _ _ _ _ E).
Qed.

Definition chrome_check (T : tables) (ua v m good bad t : bytes) (k n : Z) : bool :=
  let e := client_end T 1 1023 0 ua in
  match snd e with Ok _ => true | Panic => false end &&
  is_bytes (rmap VB (snd (read_browser_version T (set_flag flagClientDetect (fst e))))) v &&
  is_bytes (rmap VB (snd (read_engine T (set_flag flagClientDetect (fst e))))) bad &&
  negb (beqs good bad) && beqs (get_major v) m &&
  match digits_value 0 m with Some z => (z =? n)%Z | None => false end &&
  match digits_value 0 t with Some z => (z =? k)%Z | None => false end && negb (length t =? 0) && negb (length m =? 0) && (k <=? n)%Z &&
  match nth_error (cr_idx T) 1 with
  | Some ir =>
      match search (ctest T ua) ir with
      | Ok (Some x) =>
          negb (ct_engineFI x =? -1)%Z &&
          match nth_error (cr_ef T) (Z.to_nat (ct_engineFI x)) with
          | Some ([(t', en)], _) => beqs t t' && match slice64 (cr_buf T) en with Ok s => beqs s good | Panic => false end
          | _ => false
          end
      | _ => false
      end
  | None => false
  end.
Lemma chrome_case T ua v m good bad t k n : chrome_check T ua v m good bad t k n = true ->
  exists T ua x f v m n e good bad,
    client_is T 1 ua 1 1 x /\ ct_engineFI x <> (-1)%Z /\ nth_error (cr_ef T) (Z.to_nat (ct_engineFI x)) = Some f /\
    alone T 1 1023 0 ua GBrowserVersionString = Ok (VB v) /\ major_of v m /\ Decimal m n /\
    best_engine f n e /\ text (cr_buf T) e good /\
    alone T 1 1023 0 ua GEngine = Ok (VB bad) /\ bad <> good.
Proof.
  unfold chrome_check. cbv zeta. intros H.
  apply andb_prop in H as [H Hs]. apply andb_prop in H as [H Hkn]. apply andb_prop in H as [H Hm0]. apply andb_prop in H as [H Ht0].
  apply andb_prop in H as [H Ht]. apply andb_prop in H as [H Hm]. apply andb_prop in H as [H Hmj].
  apply andb_prop in H as [H Hgb]. apply andb_prop in H as [H He]. apply andb_prop in H as [Hp Hv].
  destruct (nth_error (cr_idx T) 1) as [ir|] eqn:I; [|discriminate].
  destruct (search (ctest T ua) ir) as [[x|]|] eqn:S; try discriminate. apply andb_prop in Hs as [Hf Hs].
  destruct (nth_error (cr_ef T) (Z.to_nat (ct_engineFI x))) as [[[|[t' en] [|? ?]] d]|] eqn:F; try discriminate.
  apply andb_prop in Hs as [Et Tx]. apply beqs_eq in Et. subst t'.
  destruct (slice64 (cr_buf T) en) as [s|] eqn:Sl; [|discriminate]. apply beqs_eq in Tx. subst s.
  apply beqs_eq in Hmj.
  assert (Dm : Decimal m n).
  { apply digits_value_Decimal; [intros ->; discriminate Hm0|]. destruct (digits_value 0 m); [|discriminate]. f_equal. lia. }
  assert (Dt : Decimal t k).
  { apply digits_value_Decimal; [intros ->; discriminate Ht0|]. destruct (digits_value 0 t); [|discriminate]. f_equal. lia. }
  exists T, ua, x, ([(t, en)], d), v, m, n, en, good, bad.
  split; [exact (browser_only T ua ir x I S)|]. split; [lia|]. split; [exact F|].
  rewrite alone_browser_version_string, alone_engine.
  destruct (snd (client_end T 1 1023 0 ua)); [|discriminate].
  split; [apply is_bytes_ok; exact Hv|]. split; [rewrite <- Hmj; apply major_spec|]. split; [exact Dm|].
  split; [|split; [apply text_slice; exact Sl|split; [apply is_bytes_ok; exact He|]]].
  - left. exists t, k. cbn [fst]. split; [left; reflexivity|]. split; [exact Dt|]. split; [lia|].
    intros t' e' k' [[= <- <-]|[]] D' _. pose proof (Decimal_nonempty _ _ Dt) as Ne.
    apply (digits_value_Decimal _ _ Ne) in Dt. apply (digits_value_Decimal _ _ Ne) in D'.
    rewrite Dt in D'. injection D' as ->. lia.
  - intros ->. rewrite beqs_refl in Hgb. discriminate.
Qed.

(** ** Examples *)
Lemma filter_case T ua t : match alone T 63 1023 0 ua GClientType with Ok (VN t') => (t' =? t)%N | _ => false end = true ->
  alone T 63 1023 0 ua GClientType = Ok (VN t).
Proof. destruct (alone T 63 1023 0 ua GClientType) as [[n| |]|]; try discriminate. intros H. apply N.eqb_eq in H. congruence. Qed.

(** A feed reader under the full mask. *)
Definition reader_check (T : tables) (ua name : bytes) : bool :=
  match nth_error (cr_idx T) 2 with
  | Some ir => match search (ctest T ua) ir with
               | Ok (Some x) => match slice64 (cr_buf T) (ct_browser64 x) with Ok s => beqs s name | Panic => false end && negb (ct_browser64 x =? 0)%N
               | _ => false
               end
  | None => false
  end && match alone T 63 1023 0 ua GClientType with Ok (VN t') => (t' =? 8)%N | _ => false end.
Lemma reader_case T ua name : reader_check T ua name = true ->
  alone T 63 1023 0 ua GClientType = Ok (VN 8) /\
  exists x, client_is T 63 ua 8 2 x /\ text (cr_buf T) (ct_browser64 x) name /\ ct_browser64 x <> 0%N.
Proof.
  unfold reader_check. intros H. apply andb_prop in H as [H A]. apply filter_case in A. split; [exact A|].
  destruct (nth_error (cr_idx T) 2) as [ir|] eqn:I; [|discriminate].
  destruct (search (ctest T ua) ir) as [[x|]|] eqn:S; try discriminate. apply andb_prop in H as [H N].
  exists x. split; [|split; [|lia]].
  - exists [], (skipn 1 client_order), ir. split; [reflexivity|]. split; [constructor|]. split; [discriminate|]. split; [exact I|].
    apply (search_some (ctest T ua) (client_applies T ua)); [|exact S]. intros y b E. exact (hit_applies _ _ _ _ _ _ E).
  - destruct (slice64 (cr_buf T) (ct_browser64 x)) eqn:E; [|discriminate]. apply beqs_eq in H. subst. apply text_slice. exact E.
Qed.
Lemma bytes_case T mC mD h ua g s : is_bytes (alone T mC mD h ua g) s = true -> alone T mC mD h ua g = Ok (VB s).
Proof. apply is_bytes_ok. Qed.

Lemma engine_full T mC mD h ua : client_sane T -> small ua ->
  (forall s, alone T mC mD h ua GEngine = Ok (VB s) ->
     (not_a_browser T mC ua /\ s = []) \/
     (exists t x e, client_is T mC ua t 1 x /\ engine_is T ua x e /\ engine_name_is T ua e s)) /\
  (forall s, alone T mC mD h ua GEngineVersionString = Ok (VB s) ->
     (not_a_browser T mC ua /\ s = []) \/
     (exists t x e, client_is T mC ua t 1 x /\ engine_is T ua x e /\ engine_version_is T ua e s)).
Proof. intros S L. split; intros s H; [exact (engine_name T mC mD h ua S L s H)|exact (engine_version T mC mD h ua S L s H)]. Qed.

Lemma not_browser_unique T mC ua t x : client_is T mC ua t 1 x -> ~ not_a_browser T mC ua.
Proof.
  intros CI [NC|(t' & idx & y & CI' & Hi)]; [exact (client_is_some _ _ _ _ _ _ CI NC)|].
  destruct (client_is_unique _ _ _ _ _ _ _ _ _ CI CI') as (_ & <- & _). congruence.
Qed.

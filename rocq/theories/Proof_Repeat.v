(** Consequences of the theorems on private and shared caches, in the form of the properties. *)
From Verif Require Import Model_Base Model_CacheEntry Model_Version Model_Ctx Model_Parse Model_Cache Model_Shipped
  Spec_Getters Proof_Getters Proof_Private.

Lemma repeatable : forall T mC mD ua h gs ev rs c' o' ev',
  detects T mC mD ua ->
  run_getters T gs (fresh_ctx mC mD h ua) None ev = (rs, c', o', ev') ->
  (N.of_nat (length (c_buf c')) < 4294967296)%N ->
  (forall i j g, nth_error gs i = Some g -> nth_error gs j = Some g -> nth_error rs i = nth_error rs j) /\
  (forall g g', In g gs -> group g' = group g -> exists x, run_getter T g' c' = Ret x).
Proof.
  intros T mC mD ua h gs ev rs c' o' ev' D E L. split.
  - intros i j g Hi Hj. rewrite (private_alone T mC mD ua h gs ev rs c' o' ev' D E L).
    rewrite !nth_error_map, Hi, Hj. reflexivity.
  - intros g g' Hg Eg. apply in_split in Hg. destruct Hg as (gs1 & gs2 & ->).
    exact (private_done T mC mD ua h gs1 g gs2 g' ev rs c' o' ev' E Eg).
Qed.

Lemma isolated : forall T mC mD scripts cf,
  conc_run (start T mC mD scripts) cf ->
  (forall i l rs, collision_free (concat (map (fun l => asked l []) scripts)) ->
     nth_error scripts i = Some l -> nth_error (cf_threads cf) i = Some (Ret rs) ->
     Forall2 (fun x r => detects T mC mD (fst (fst x)) -> snd x <> GModel -> as_alone T mC mD x r) (calls l [] 0) rs) /\
  (exists cf', conc_run cf cf' /\ Forall finished (cf_threads cf')).
Proof.
  intros T mC mD scripts cf R. split.
  - intros i l rs CF Hl Hi. exact (interleaving T mC mD scripts cf i rs l CF R Hi Hl).
  - exact (interleaving_completes T mC mD scripts cf R).
Qed.

Lemma one_goroutine : forall T mC mD l cf rs,
  collision_free (asked l []) ->
  conc_run (start T mC mD [l]) cf -> cf_threads cf = [Ret rs] ->
  Forall2 (fun x r => detects T mC mD (fst (fst x)) -> snd x <> GModel -> as_alone T mC mD x r) (calls l [] 0) rs.
Proof.
  intros T mC mD l cf rs CF R E. apply (interleaving T mC mD [l] cf 0 rs l).
  - cbn. rewrite app_nil_r. exact CF.
  - exact R.
  - rewrite E. reflexivity.
  - reflexivity.
Qed.

(** Computable versions of the hypotheses, for the examples. *)
Definition detectsb (T : tables) (mC mD : N) (ua : bytes) : bool :=
  is_ok (alone T mC mD 0 ua GClientType) && is_ok (alone T mC mD 0 ua GDeviceType) && is_ok (alone T mC mD 0 ua GOS).
Lemma detectsb_ok T mC mD ua : detectsb T mC mD ua = true <-> detects T mC mD ua.
Proof.
  unfold detectsb, detects.
  destruct (alone T mC mD 0 ua GClientType), (alone T mC mD 0 ua GDeviceType), (alone T mC mD 0 ua GOS); cbn;
    (split; [intros H; try discriminate H|intros (H1 & H2 & H3)]);
    try (split; [|split]); congruence.
Qed.

Definition is_bytes (r : res value) (b : bytes) : bool :=
  match r with Ok (VB x) => beqs x b | _ => false end.
Lemma is_bytes_ok r b : is_bytes r b = true -> r = Ok (VB b).
Proof. destruct r as [[|x|]|]; try discriminate. cbn. intros H. apply Proof_Base.beqs_eq in H. congruence. Qed.

Definition getters_check (T : tables) (ua : bytes) (gs : list getter) (ev : list bool) (i : nat) (b : bytes) : bool :=
  detectsb T ClientTypeAll DeviceTypeAll ua &&
  let '(rs, c', _, _) := run_getters T gs (fresh_ctx ClientTypeAll DeviceTypeAll 0 ua) None ev in
  match nth_error rs i with Some r => is_bytes r b | None => false end && (N.of_nat (length (c_buf c')) <? 4294967296)%N.
Lemma getters_case T ua gs ev i b : getters_check T ua gs ev i b = true ->
  detects T ClientTypeAll DeviceTypeAll ua /\
  exists rs c' o' ev',
    run_getters T gs (fresh_ctx ClientTypeAll DeviceTypeAll 0 ua) None ev = (rs, c', o', ev') /\
    nth_error rs i = Some (Ok (VB b)) /\ (N.of_nat (length (c_buf c')) < 4294967296)%N.
Proof.
  unfold getters_check. intros H. apply andb_prop in H as [D H]. split; [apply detectsb_ok; exact D|].
  destruct (run_getters T gs (fresh_ctx ClientTypeAll DeviceTypeAll 0 ua) None ev) as [[[rs c'] o'] ev'].
  apply andb_prop in H as [H L]. exists rs, c', o', ev'. split; [reflexivity|]. split; [|apply N.ltb_lt; exact L].
  destruct (nth_error rs i) as [r|]; [|discriminate]. f_equal. apply is_bytes_ok. exact H.
Qed.

Definition only2 (a b : bytes) (l : list bytes) : bool := forallb (fun x => beqs x a || beqs x b) l.
Lemma two_goroutines_case T a b v scripts :
  only2 a b (concat (map (fun l => asked l []) scripts)) = true ->
  negb (fnv1 a =? fnv1 b)%N && detectsb T ClientTypeAll DeviceTypeAll a &&
  negb (detectsb T ClientTypeAll DeviceTypeAll b) &&
  is_bytes (alone T ClientTypeAll DeviceTypeAll 0 a GOSVersionString) v = true ->
  collision_free (concat (map (fun l => asked l []) scripts)) /\
  detects T ClientTypeAll DeviceTypeAll a /\ ~ detects T ClientTypeAll DeviceTypeAll b /\
  alone T ClientTypeAll DeviceTypeAll 0 a GOSVersionString = Ok (VB v).
Proof.
  intros O H. apply andb_prop in H as [H V]. apply andb_prop in H as [H Db]. apply andb_prop in H as [F Da].
  apply Bool.negb_true_iff in F. apply N.eqb_neq in F. apply Bool.negb_true_iff in Db.
  split; [|split; [apply detectsb_ok; exact Da|split; [|apply is_bytes_ok; exact V]]].
  - intros x y Hx Hy E. unfold only2 in O. rewrite forallb_forall in O.
    pose proof (O x Hx) as Ox. pose proof (O y Hy) as Oy. apply orb_prop in Ox. apply orb_prop in Oy.
    rewrite !Proof_Base.beqs_eq in Ox, Oy. destruct Ox as [->| ->]; destruct Oy as [->| ->]; congruence.
  - intros D. apply detectsb_ok in D. congruence.
Qed.

(** Two contexts asking for the model of [ua], one after the other. *)
Definition twice (ua : bytes) : list act := [ASetUA ua; AGet GModel; ARecycle; ASetUA ua; AGet GModel].
Definition twice_check (ua m1 m2 : bytes) : bool :=
  let al g := alone shipped ClientTypeAll DeviceTypeAll 0 ua g in
  is_ok (al GClientType) && is_ok (al GDeviceType) && is_ok (al GOS) && is_bytes (al GModel) m1 &&
  match run_seq (script shipped ClientTypeAll DeviceTypeAll (twice ua) (recycle ClientTypeAll DeviceTypeAll new_ctx)) cs_empty with
  | Ok ([r1; r2], _) => is_bytes r1 m1 && is_bytes r2 m2
  | _ => false
  end && negb (beqs m1 m2).

Lemma cached_model_wrong ua m1 m2 : twice_check ua m1 m2 = true ->
  exists T mC mD l cf rs,
  (forall u, In u (asked l []) -> detects T mC mD u) /\ collision_free (asked l []) /\
  conc_run (start T mC mD [l]) cf /\ cf_threads cf = [Ret rs] /\
  ~ Forall2 (as_alone T mC mD) (calls l [] 0) rs.
Proof.
  unfold twice_check. cbv zeta. set (T := shipped). clearbody T. intros H.
  apply andb_prop in H as [H N]. apply andb_prop in H as [H S]. apply andb_prop in H as [H A4].
  apply andb_prop in H as [H A3]. apply andb_prop in H as [A1 A2].
  destruct (run_seq _ cs_empty) as [[rs st]|] eqn:E; [|discriminate].
  destruct rs as [|r1 [|r2 [|? ?]]]; try discriminate. apply andb_prop in S as [S1 S2].
  exists T, ClientTypeAll, DeviceTypeAll, (twice ua), (mkConf st [Ret [r1; r2]]), [r1; r2].
  split; [|split; [|split; [|split]]].
  - intros u Hu. cbn in Hu. assert (u = ua) as -> by (destruct Hu as [Hu|[Hu|[]]]; congruence).
    split; [|split]; intros X; rewrite X in *; discriminate.
  - intros a b Ha Hb _. cbn in Ha, Hb. destruct Ha as [<-|[<-|[]]]; destruct Hb as [<-|[<-|[]]]; reflexivity.
  - exact (run_seq_conc _ _ _ _ E).
  - reflexivity.
  - intros F. cbn in F. inversion F as [|x y l l' H1 F2]; subst. inversion F2 as [|x2 y2 l2 l2' H2 F3]; subst.
    cbn [as_alone] in H2. rewrite <- H2 in A4. unfold is_bytes in *. destruct r2 as [[|b|]|]; try discriminate.
    apply Bool.negb_true_iff in N. assert (beqs m1 m2 = true); [|congruence].
    apply Proof_Base.beqs_eq in A4. apply Proof_Base.beqs_eq in S2. subst. apply Proof_Base.beqs_refl.
Qed.

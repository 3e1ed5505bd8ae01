(** Batch mode over the library. *)
From Verif Require Import Model_Base Model_CacheEntry Model_Cache Model_Version Model_Ctx Model_Parse Model_Cli Model_Single Model_Batch
  Spec_Cache Spec_Getters Spec_Single Spec_Cli Spec_Batch
  Proof_Base Proof_Cache Proof_Safe Proof_Getters Proof_Private Proof_Repeat Proof_Reports Proof_Atomic Proof_Single.
From Verif Require Import Model_Cli Model_Batch Spec_Cli Spec_Batch Proof_Cli.
From Coq Require Import Lia ZifyBool ZifyNat ZifyN Permutation.
Open Scope nat_scope.

Section Batch.
Variable T : tables.
Notation fresh ua := (fresh_ctx ClientTypeAll DeviceTypeAll 0 ua).

(** ** The program of a row *)
Lemma row_priv gs : forall c o ev, rsub o c -> fst (fst (run_priv (row_prog T gs c) o ev)) = run_cold (row_prog T gs c).
Proof.
  induction gs as [|g gs IH]; intros c o ev R; cbn [row_prog]; [reflexivity|].
  rewrite run_priv_bind, run_cold_bind. destruct (priv_getter T g c o ev R) as (o1 & ev1 & E & R1 & _). rewrite E.
  destruct (run_cold (run_getter T g c)) as [c1 [v|]]; [|reflexivity]. cbn [fst] in R1.
  rewrite run_priv_bind, run_cold_bind. specialize (IH c1 o1 ev1 R1).
  destruct (run_priv (row_prog T gs c1) o1 ev1) as [[a o2] ev2]. cbn [fst] in IH. subst a. reflexivity.
Qed.
Lemma row_blind gs : forall c, blind (row_prog T gs c).
Proof.
  induction gs as [|g gs IH]; intros c; cbn [row_prog]; [exact I|].
  apply blind_bind; [apply blind_getter|]. intros [c1 [v|]]; [|exact I]. apply blind_bind; [apply IH|]. intros y. exact I.
Qed.
Lemma row_keys gs : forall c, keys_in [c_src c] (row_prog T gs c).
Proof.
  induction gs as [|g gs IH]; intros c; cbn [row_prog]; [exact I|].
  apply (keys_bind [c_src c] (env c)); [left; reflexivity|apply keyed_getter|]. intros [c1 [v|]] E; [|exact I].
  apply keys_map. cbn [fst] in E. replace (c_src c) with (c_src c1) by (unfold env in E; congruence). apply IH.
Qed.

(** Running on from a state of the cache: the outcome is [want] whatever is evicted. *)
Definition runs (p : prog (option (list bytes) * ctx)) (o : option entry) (want : option (list bytes)) : Prop :=
  forall ev, fst (fst (fst (run_priv p o ev))) = want.
Lemma runs_stamp {A} (p : prog A) : blind p -> forall e hk ts ev,
  fst (fst (run_priv p (Some (with_stamp e hk ts)) ev)) = fst (fst (run_priv p (Some e) ev)).
Proof.
  induction p as [a|key k IH|key e' p IH]; intros B e hk ts ev; cbn [run_priv]; [reflexivity| |reflexivity].
  destruct B as [B1 B2]. destruct ev as [|[] ev]; [| |]; rewrite ?B1; first [apply IH; apply B2|reflexivity].
Qed.
Lemma runs_evict p e want : runs p (Some e) want -> runs p None want.
Proof.
  intros H ev. destruct p as [a|key k|key e' p]; [exact (H ev)| |exact (H ev)].
  cbn [run_priv]. destruct ev as [|[] ev]; [exact (H [true])|exact (H (true :: ev))|exact (H (true :: ev))].
Qed.
Lemma runs_cold ua : runs (row_prog T batch_getters (fresh ua)) None (fst (run_cold (row_prog T batch_getters (fresh ua)))).
Proof. intros ev. rewrite row_priv; [reflexivity|exact I]. Qed.
Lemma runs_get key k e hk ts want : blind (CGet key k) -> runs (CGet key k) (Some e) want ->
  runs (k (Some (with_stamp e hk ts))) (Some (with_stamp e hk ts)) want.
Proof.
  intros [B1 B2] H ev. rewrite B1. rewrite runs_stamp by apply B2. exact (H (false :: ev)).
Qed.
Lemma runs_miss key k want : runs (CGet key k) None want -> runs (k None) None want.
Proof. intros H ev. exact (H (false :: ev)). Qed.
Lemma runs_set key e p hk ts o want : blind p -> runs (CSet key e p) o want -> runs p (Some (with_stamp e hk ts)) want.
Proof. intros B H ev. rewrite runs_stamp by exact B. exact (H ev). Qed.

(** ** The texts of the answers *)
Fixpoint texts (gs : list getter) (rs : list (res value)) : option (list bytes) :=
  match gs, rs with
  | g :: gs, Ok v :: rs => option_map (cons (show g v)) (texts gs rs)
  | g :: gs, _ => None
  | [], _ => Some []
  end.
Lemma row_texts gs : forall c o ev, rsub o c -> let '(rs, _, _, _) := run_getters T gs c o ev in fst (run_cold (row_prog T gs c)) = texts gs rs.
Proof.
  induction gs as [|g gs IH]; intros c o ev R; cbn [run_getters row_prog texts]; [reflexivity|].
  destruct (priv_getter T g c o ev R) as (o1 & ev1 & E & R1 & _). rewrite E, run_cold_bind.
  destruct (run_cold (run_getter T g c)) as [c1 [v|]].
  - cbn [fst] in R1. specialize (IH c1 o1 ev1 R1). destruct (run_getters T gs c1 o1 ev1) as [[[rs c2] o2] ev2].
    rewrite run_cold_bind. cbn [fst run_cold]. rewrite IH. reflexivity.
  - destruct (run_getters T gs c1 o1 ev1) as [[[rs c2] o2] ev2]. reflexivity.
Qed.
Definition cold (r : row) : option (list bytes) := fst (run_cold (row_prog T batch_getters (fresh (r_ua r)))).
Lemma cold_texts r : detects T ClientTypeAll DeviceTypeAll (r_ua r) -> small_row T (r_ua r) ->
  cold r = texts batch_getters (map (library T (r_ua r)) batch_getters).
Proof.
  intros D S. unfold small_row in S. pose proof (row_texts batch_getters (fresh (r_ua r)) None [] I) as H.
  change asked_of_row with batch_getters in S.
  destruct (run_getters T batch_getters (fresh (r_ua r)) None []) as [[[rs c'] o'] ev'] eqn:E.
  unfold cold. rewrite H. rewrite (private_alone T _ _ _ _ _ _ _ _ _ _ D E S). reflexivity.
Qed.
Lemma texts_answered ua gs : forall got, texts gs (map (library T ua) gs) = Some got ->
  Forall2 (fun g t => exists v, library T ua g = Ok v /\ text_of g v t) gs got.
Proof.
  induction gs as [|g gs IH]; intros got H; cbn [texts map] in H; [injection H as <-; constructor|].
  destruct (library T ua g) as [v|] eqn:E; [|discriminate]. destruct (texts gs (map (library T ua) gs)) as [l|] eqn:L; [|discriminate].
  injection H as <-. constructor; [|apply IH; reflexivity]. exists v. split; [exact E|]. exact (show_text T g _ v E).
Qed.
Lemma text_unique g v s t : text_of g v s -> text_of g v t -> s = t.
Proof. intros H1 H2. inversion H1; subst; inversion H2; subst; reflexivity. Qed.
Lemma answered_texts ua gs got : Forall2 (fun g t => exists v, library T ua g = Ok v /\ text_of g v t) gs got ->
  texts gs (map (library T ua) gs) = Some got.
Proof.
  induction 1 as [|g t gs got (v & E & X) F IH]; cbn [texts map]; [reflexivity|]. rewrite E, IH. cbn [option_map].
  rewrite (text_unique g v _ _ X (show_text T g _ v E)). reflexivity.
Qed.

(** ** The machine of Model_Cli.v *)
Variable lower : bytes -> bytes.
Definition abs_w (w : bstate) : wstate :=
  match w with
  | BIdle => WIdle | BBusy r | BRun r _ => WBusy r | BReport r got => WReport r got | BWrite r got ps => WWrite r got ps
  | BCount r got => WCount r got | BDone => WDone
  end.
Definition abs (s : batch) : cli :=
  mkCli (b_todo s) (b_closed s) (b_chan s) (b_lock s) (map abs_w (b_workers s)) (b_out s) (b_count s) (b_crashed s).
Lemma abs_start threads rows : abs (batch_start threads rows) = cli_start threads rows.
Proof. unfold abs, batch_start, cli_start. cbn. f_equal. induction threads; cbn; congruence. Qed.

(** What the outcomes of the programs must be, as a relation. *)
Definition outs (ans : row -> option (list bytes) -> Prop) (s : batch) : Prop :=
  forall r x c, In (BRun r (Ret (x, c))) (b_workers s) -> ans r x.
Lemma sim_step ans threads s s' : outs ans s -> batch_step T lower threads s s' ->
  abs s' = abs s \/ cli_step lower ans threads (abs s) (abs s').
Proof.
  intros O St. destruct St; unfold abs; cbn [b_todo b_closed b_chan b_lock b_workers b_out b_count b_crashed]; rewrite ?map_app; cbn [map abs_w];
    try (left; reflexivity); right; try (constructor; assumption); try (constructor).
  - replace (abs_w match errors_of lower r got with [] => BCount r got | _ :: _ => BReport r got end)
      with (match errors_of lower r got with [] => WCount r got | _ :: _ => WReport r got end) by (destruct (errors_of lower r got); reflexivity).
    apply CS_analyse. apply (O r (Some got) c). cbn. apply in_or_app. right. left. reflexivity.
  - apply (O r None c). cbn. apply in_or_app. right. left. reflexivity.
Qed.
Lemma sim_run ans threads rows s :
  (forall s, batch_run T lower threads (batch_start threads rows) s -> outs ans s) ->
  batch_run T lower threads (batch_start threads rows) s -> exists n, cli_run lower ans threads n (cli_start threads rows) (abs s).
Proof.
  intros O R. rewrite <- abs_start. remember (batch_start threads rows) as s0 eqn:E. induction R as [s|s1 s2 s3 R IH St].
  - exists 0. constructor.
  - subst. destruct (IH eq_refl O) as [n N]. destruct (sim_step ans threads s2 s3 (O s2 R) St) as [->|S1]; [exists n; exact N|].
    exists (S n). econstructor; eassumption.
Qed.
Lemma abs_finished s : batch_finished s -> cli_finished (abs s).
Proof.
  intros (H1 & H2 & H3). split; [exact H1|]. split; [exact H2|]. cbn. apply Forall_forall. intros w Hw. apply in_map_iff in Hw as (b & <- & Hb).
  rewrite Forall_forall in H3. rewrite (H3 b Hb). reflexivity.
Qed.

(** ** Different user agents: each worker has its row of the cache for itself *)
Definition hk (r : row) : N := fnv1 (r_ua r).
Definition active (w : bstate) : list row := match w with BBusy r | BRun r _ => [r] | _ => [] end.
Definition pend (s : batch) : list row := flat_map active (b_workers s) ++ b_chan s ++ b_todo s.
Definition ok_w (st : cstate) (w : bstate) : Prop :=
  match w with
  | BBusy r => lookup st (hk r) = None
  | BRun r p => blind p /\ keys_in [r_ua r] p /\ runs p (lookup st (hk r)) (cold r)
  | _ => True
  end.
Definition binv (s : batch) : Prop :=
  Inv (b_cache s) /\ pool_reach (b_pool s) /\ NoDup (map hk (pend s)) /\
  (forall r, In r (b_chan s ++ b_todo s) -> lookup (b_cache s) (hk r) = None) /\ Forall (ok_w (b_cache s)) (b_workers s).

Lemma ok_same st st' ws : (forall r, In r (flat_map active ws) -> lookup st' (hk r) = lookup st (hk r)) ->
  Forall (ok_w st) ws -> Forall (ok_w st') ws.
Proof.
  intros H F. apply Forall_forall. intros w Hw. rewrite Forall_forall in F. specialize (F w Hw).
  assert (A : forall r, In r (active w) -> lookup st' (hk r) = lookup st (hk r)).
  { intros r Hr. apply H. apply in_flat_map. exists w. auto. }
  destruct w; cbn [ok_w active] in *; try exact I; rewrite A by (left; reflexivity); exact F.
Qed.
Lemma nodup_others w1 r p w2 ch t : NoDup (map hk (flat_map active (w1 ++ BRun r p :: w2) ++ ch ++ t)) ->
  forall r', In r' (flat_map active w1) \/ In r' (flat_map active w2) \/ In r' (ch ++ t) -> hk r' <> hk r.
Proof.
  intros N r' H E. rewrite flat_map_app in N. cbn [flat_map active app] in N. rewrite <- app_assoc, map_app in N. cbn [app map] in N.
  apply NoDup_remove_2 in N. apply N. rewrite <- E, <- map_app. apply in_map. rewrite !in_app_iff in *. tauto.
Qed.
Lemma active_mid w1 w w' w2 : active w = active w' -> flat_map active (w1 ++ w :: w2) = flat_map active (w1 ++ w' :: w2).
Proof. intros E. rewrite !flat_map_app. cbn [flat_map]. rewrite E. reflexivity. Qed.
Lemma forall_mid (P : bstate -> Prop) w1 w w' w2 : (P w -> P w') -> Forall P (w1 ++ w :: w2) -> Forall P (w1 ++ w' :: w2).
Proof.
  intros H F. apply Forall_app in F as [F1 F2]. inversion F2; subst. apply Forall_app. split; [exact F1|]. constructor; auto.
Qed.
Lemma nodup_shrink w1 w w2 rest : NoDup (map hk (flat_map active (w1 ++ w :: w2) ++ rest)) -> NoDup (map hk (flat_map active (w1 ++ w2) ++ rest)).
Proof.
  rewrite !flat_map_app. cbn [flat_map]. rewrite <- !app_assoc, !map_app. intros N. destruct (active w) as [|r l] eqn:E; [exact N|].
  assert (l = []) as -> by (destruct w; cbn in E; congruence). cbn [map app] in N. apply NoDup_remove_1 in N. exact N.
Qed.

Lemma nodup_mid w1 w w' w2 rest : active w = active w' -> NoDup (map hk (flat_map active (w1 ++ w :: w2) ++ rest)) -> NoDup (map hk (flat_map active (w1 ++ w' :: w2) ++ rest)).
Proof. intros E. rewrite (active_mid w1 w w' w2 E). auto. Qed.
(** A cache call of one worker leaves the others alone. *)
Lemma others st st' w1 w2 r p p' ch t :
  NoDup (map hk (flat_map active (w1 ++ BRun r p :: w2) ++ ch ++ t)) ->
  (forall h, h <> hk r -> lookup st' h = lookup st h) ->
  (forall x, In x (ch ++ t) -> lookup st (hk x) = None) ->
  Forall (ok_w st) (w1 ++ BRun r p :: w2) -> (ok_w st (BRun r p) -> ok_w st' (BRun r p')) ->
  (forall x, In x (ch ++ t) -> lookup st' (hk x) = None) /\ Forall (ok_w st') (w1 ++ BRun r p' :: w2).
Proof.
  intros N H C F P. pose proof (nodup_others _ _ _ _ _ _ N) as O. split.
  - intros x Hx. rewrite H by (apply O; auto). apply C. exact Hx.
  - apply Forall_app in F as [F1 F2]. inversion F2 as [|? ? F3 F4]; subst. apply Forall_app.
    split; [apply (ok_same st); [|exact F1]; intros; apply H; apply O; auto|].
    constructor; [apply P; exact F3|]. apply (ok_same st); [|exact F4]. intros; apply H; apply O; auto.
Qed.

Lemma set_ua_fresh pl c pl' ua : pool_reach pl -> pool_get pl c pl' -> set_user_agent ua c = fresh ua.
Proof. intros P G. rewrite (pool_gives pl c pl' P G). apply fresh_single. Qed.

Lemma binv_step threads s s' : binv s -> batch_step T lower threads s s' -> binv s'.
Proof.
  intros (Iv & Pl & N & C & W) St.
  destruct St; unfold binv, pend in *; cbn [b_todo b_closed b_chan b_lock b_workers b_out b_count b_crashed b_cache b_pool] in *.
  - (* send *) split; [exact Iv|]. split; [exact Pl|]. rewrite <- app_assoc. split; [exact N|]. split; [exact C|exact W].
  - repeat (split; [assumption|]); assumption.
  - (* recv *) split; [exact Iv|]. split; [exact Pl|]. split; [|split].
    + rewrite flat_map_app in *. cbn [flat_map active app] in *.
      eapply Permutation_NoDup; [|exact N]. apply Permutation_map. rewrite <- !app_assoc. apply Permutation_app_head.
      change (Permutation (flat_map active w2 ++ (r :: ch ++ t)) (r :: flat_map active w2 ++ ch ++ t)). symmetry. apply Permutation_middle.
    + intros x Hx. apply C. right. exact Hx.
    + eapply forall_mid; [|exact W]. intros _. apply C. left. reflexivity.
  - (* stop *) split; [exact Iv|]. split; [exact Pl|]. split; [eapply nodup_mid; [|exact N]; reflexivity|]. split; [exact C|].
    eapply forall_mid; [|exact W]. auto.
  - (* acquire *) split; [exact Iv|]. split; [eapply Pool_get; eassumption|]. split; [eapply nodup_mid; [|exact N]; reflexivity|]. split; [exact C|].
    eapply forall_mid; [|exact W]. cbn [ok_w]. intros L. rewrite (set_ua_fresh pl c pl' (r_ua r) Pl H).
    split; [apply row_blind|]. split; [apply (row_keys batch_getters (fresh (r_ua r)))|]. rewrite L. apply runs_cold.
  - (* get *) assert (Fk : key = r_ua r).
    { apply Forall_app in W as [_ W]. apply Forall_inv in W. destruct W as (_ & [K _] & _). destruct K as [K|[]]. symmetry. exact K. }
    subst key. pose proof (get_spec st (r_ua r) now Iv) as G. destruct (cache_get st (r_ua r) now) as [st' res]. cbn [fst snd].
    destruct G as (Iv' & G & O). split; [exact Iv'|]. split; [exact Pl|]. split; [eapply nodup_mid; [|exact N]; reflexivity|].
    refine (others st st' w1 w2 r (CGet (r_ua r) k) _ ch t N O C W _). cbn [ok_w]. intros (B & K & R).
    fold (hk r) in *. destruct (lookup st (hk r)) as [e|] eqn:L.
    + destruct G as (p & -> & Hp & L'). cbn [option_map]. rewrite Hp. split; [apply B|]. split; [apply K|].
      rewrite L'. apply (runs_get (r_ua r) k e _ _ _ B R).
    + destruct G as [-> ->]. cbn [option_map]. split; [apply B|]. split; [apply K|].
      rewrite L. apply (runs_miss _ _ _ R).
  - (* set *) assert (Fk : key = r_ua r).
    { apply Forall_app in W as [_ W]. apply Forall_inv in W. destruct W as (_ & [K _] & _). destruct K as [K|[]]. symmetry. exact K. }
    subst key. destruct (set_fresh st (r_ua r) e now Iv) as (st1 & E1 & Iv' & L1 & O). rewrite H in E1. injection E1 as <-.
    split; [exact Iv'|]. split; [exact Pl|]. split; [eapply nodup_mid; [|exact N]; reflexivity|].
    refine (others st st' w1 w2 r (CSet (r_ua r) e k) _ ch t N O C W _). cbn [ok_w]. intros (B & K & R).
    split; [exact B|]. split; [apply K|]. unfold hk. rewrite L1. exact (runs_set (r_ua r) e k _ _ _ _ B R).
  - (* done *) split; [exact Iv|]. split; [apply Pool_put; exact Pl|]. split; [|split; [exact C|]].
    + apply nodup_shrink in N. destruct (errors_of lower r got); rewrite flat_map_app in *; exact N.
    + eapply forall_mid; [|exact W]. intros _. destruct (errors_of lower r got); exact I.
  - repeat (split; [assumption|]); assumption.
  - split; [exact Iv|]. split; [exact Pl|]. split; [eapply nodup_mid; [|exact N]; reflexivity|]. split; [exact C|].
    eapply forall_mid; [|exact W]. auto.
  - split; [exact Iv|]. split; [exact Pl|]. split; [eapply nodup_mid; [|exact N]; reflexivity|]. split; [exact C|].
    eapply forall_mid; [|exact W]. auto.
  - split; [exact Iv|]. split; [exact Pl|]. split; [eapply nodup_mid; [|exact N]; reflexivity|]. split; [exact C|].
    eapply forall_mid; [|exact W]. auto.
  - split; [exact Iv|]. split; [exact Pl|]. split; [eapply nodup_mid; [|exact N]; reflexivity|]. split; [exact C|].
    eapply forall_mid; [|exact W]. auto.
  - (* clean *) destruct (clean_spec st now Iv) as (Iv' & Cl & _). split; [exact Iv'|]. split; [exact Pl|]. split; [exact N|].
    assert (Z : forall h, lookup st h = None -> lookup (cache_clean st now) h = None).
    { intros h E. specialize (Cl h). rewrite E in Cl. exact Cl. }
    split; [intros x Hx; apply Z; apply C; exact Hx|].
    eapply Forall_impl; [|exact W]. intros w. destruct w; cbn [ok_w]; auto. intros (B & K & R). split; [exact B|]. split; [exact K|].
    specialize (Cl (hk r)). destruct (lookup st (hk r)) as [e|]; [|rewrite Cl; exact R].
    destruct Cl as [->|[-> _]]; [exact R|]. eapply runs_evict. exact R.
  - (* drop *) split; [exact Iv|]. split; [eapply Pool_drop; eassumption|]. split; [exact N|]. split; [exact C|exact W].
Qed.
Lemma binv_start threads rows : all_different rows -> binv (batch_start threads rows).
Proof.
  intros D. assert (F : flat_map active (repeat BIdle threads) = []) by (induction threads; cbn; auto).
  split; [apply Inv_empty|]. split; [constructor|]. unfold pend. cbn [batch_start b_workers b_chan b_todo b_cache]. rewrite F.
  split; [exact D|]. split; [intros; reflexivity|]. apply Forall_forall. intros w Hw. apply repeat_spec in Hw as ->. exact I.
Qed.
Lemma binv_run threads rows s : all_different rows -> batch_run T lower threads (batch_start threads rows) s -> binv s.
Proof.
  intros D R. remember (batch_start threads rows) as s0 eqn:E. induction R as [s|s1 s2 s3 R IH St]; [subst; apply binv_start; exact D|].
  apply (binv_step threads s2 s3 (IH E) St).
Qed.
Definition cold_ans (r : row) (x : option (list bytes)) : Prop := x = cold r.
Lemma binv_outs s : binv s -> outs cold_ans s.
Proof.
  intros (_ & _ & _ & _ & W) r x c I. rewrite Forall_forall in W. destruct (W _ I) as (_ & _ & R). exact (R []).
Qed.
Lemma batch_cli threads rows s : all_different rows -> batch_run T lower threads (batch_start threads rows) s ->
  exists n, cli_run lower cold_ans threads n (cli_start threads rows) (abs s).
Proof. intros D. apply sim_run. intros s0 R. apply binv_outs. eapply binv_run; eassumption. Qed.

Lemma batch_report threads rows s : 0 < threads -> all_different rows ->
  (forall r, In r rows -> detects T ClientTypeAll DeviceTypeAll (r_ua r) /\ small_row T (r_ua r)) ->
  batch_run T lower threads (batch_start threads rows) s -> batch_finished s ->
  b_count s = length rows /\
  exists ds, Permutation (map (fun d => fst (fst d)) ds) rows /\
    Forall (fun d => answered (library T (r_ua (fst (fst d)))) (snd (fst d)) /\ block lower (fst (fst d)) (snd (fst d)) (snd d)) ds /\
    concat (b_out s) = concat (map snd ds).
Proof.
  intros Ht D A R F. destruct (batch_cli threads rows s D R) as [n N].
  destruct (finished_report lower cold_ans threads rows n (abs s) Ht N (abs_finished s F)) as (Cn & ds & P & Q & O).
  split; [exact Cn|]. exists ds. split; [exact P|]. split; [|exact O]. apply Forall_forall. intros d Hd. rewrite Forall_forall in Q.
  destruct (Q d Hd) as [Q1 Q2]. split; [|exact Q2]. unfold cold_ans in Q1.
  destruct (A (fst (fst d))) as [Dt Sm].
  { eapply Permutation_in; [exact P|]. apply in_map_iff. exists d. auto. }
  rewrite (cold_texts _ Dt Sm) in Q1. symmetry in Q1. exact (texts_answered _ _ _ Q1).
Qed.
Lemma batch_crash threads rows r : 0 < threads -> all_different rows -> In r rows -> library T (r_ua r) GClientType = Panic ->
  forall s, batch_run T lower threads (batch_start threads rows) s -> ~ batch_finished s.
Proof.
  intros Ht D Hr E s R F. destruct (batch_cli threads rows s D R) as [n N].
  apply (crash lower cold_ans threads rows r Ht Hr) with (n := n) (s := abs s); [|exact N|apply abs_finished; exact F].
  intros got X. unfold cold_ans, cold in X. unfold batch_getters in X. cbn [row_prog] in X. rewrite run_cold_bind in X.
  unfold library, alone in E. destruct (run_cold (run_getter T GClientType (fresh (r_ua r)))) as [c1 [v|]]; cbn in *; discriminate.
Qed.

(** ** Every run can be completed *)
Lemma run_trans threads s1 s2 s3 : batch_run T lower threads s1 s2 -> batch_run T lower threads s2 s3 -> batch_run T lower threads s1 s3.
Proof. intros R1 R2. induction R2; [exact R1|]. econstructor; [apply IHR2; exact R1|eassumption]. Qed.
Lemma run_one threads s1 s2 : batch_step T lower threads s1 s2 -> batch_run T lower threads s1 s2.
Proof. intros S. econstructor; [constructor|exact S]. Qed.
Lemma prog_ends threads p : forall t cl ch lk w1 w2 out n r st pl, Inv st ->
  exists x st', batch_run T lower threads (mkBatch t cl ch lk (w1 ++ BRun r p :: w2) out n false st pl)
                                          (mkBatch t cl ch lk (w1 ++ BRun r (Ret x) :: w2) out n false st' pl).
Proof.
  induction p as [a|key k IH|key e p IH]; intros t cl ch lk w1 w2 out n r st pl Iv.
  - exists a, st. constructor.
  - pose proof (get_spec st key 0%Z Iv) as H.
    assert (I1 : Inv (fst (cache_get st key 0%Z))) by (destruct (cache_get st key 0%Z); cbn; tauto).
    destruct (IH (option_map (cs_heap (fst (cache_get st key 0%Z))) (snd (cache_get st key 0%Z))) t cl ch lk w1 w2 out n r _ pl I1) as (x & st' & R).
    exists x, st'. eapply run_trans; [|exact R]. apply run_one. apply BS_get.
  - destruct (set_fresh st key e 0%Z Iv) as (st1 & E1 & I1 & _).
    destruct (IH t cl ch lk w1 w2 out n r st1 pl I1) as (x & st' & R).
    exists x, st'. eapply run_trans; [|exact R]. apply run_one. eapply BS_set. exact E1.
Qed.
Lemma map_mid {A B} (f : A -> B) l a x b : map f l = a ++ x :: b -> exists a' y b', l = a' ++ y :: b' /\ map f a' = a /\ f y = x /\ map f b' = b.
Proof.
  intros H. apply map_eq_app in H as (a' & l' & -> & Ha & H). apply map_eq_cons in H as (y & b' & -> & Hy & Hb). exists a', y, b'. auto.
Qed.
Lemma realise threads s x : binv s -> b_crashed s = false -> cli_step lower cold_ans threads (abs s) x -> cl_crashed x = false ->
  exists s', batch_run T lower threads s s' /\ abs s' = x.
Proof.
  intros BI Cr St Cx. destruct s as [t cl ch lk ws out n cr st pl]. cbn in Cr. subst cr.
  unfold abs in St. cbn [b_todo b_closed b_chan b_lock b_workers b_out b_count b_crashed] in St.
  inversion St; subst; clear St;
    repeat match goal with H : _ ++ _ :: _ = map abs_w _ |- _ => symmetry in H end;
    repeat match goal with H : map abs_w _ = _ ++ _ :: _ |- _ => apply map_mid in H as (a' & y & b' & -> & <- & Ey & <-) end;
    try (destruct y; try discriminate Ey; cbn [abs_w] in Ey; try (injection Ey; intros; subst)).
  - eexists. split; [apply run_one, BS_send; assumption|reflexivity].
  - eexists. split; [apply run_one, BS_close|reflexivity].
  - eexists. split; [apply run_one, BS_recv|]. unfold abs. cbn. rewrite map_app. reflexivity.
  - eexists. split; [apply run_one, BS_stop|]. unfold abs. cbn. rewrite map_app. reflexivity.
  - (* busy *)
    set (s1 := mkBatch t cl ch lk (a' ++ BRun r (row_prog T batch_getters (set_user_agent (r_ua r) new_ctx)) :: b') out n false st pl).
    assert (S1 : batch_step T lower threads (mkBatch t cl ch lk (a' ++ BBusy r :: b') out n false st pl) s1) by (apply BS_acquire; constructor).
    destruct (prog_ends threads (row_prog T batch_getters (set_user_agent (r_ua r) new_ctx)) t cl ch lk a' b' out n r st pl (proj1 BI)) as ([x c] & st' & R).
    assert (B2 : binv (mkBatch t cl ch lk (a' ++ BRun r (Ret (x, c)) :: b') out n false st' pl)).
    { clear -R BI S1. apply (binv_step threads) with (s' := s1) in BI; [|exact S1]. fold s1 in R. clearbody s1. clear S1.
      remember (mkBatch t cl ch lk (a' ++ BRun r (Ret (x, c)) :: b') out n false st' pl) as s2 eqn:E. clear E.
      induction R as [s|s0 s2 s3 R IH St]; [exact BI|]. eapply binv_step; [apply IH; exact BI|exact St]. }
    assert (X : x = cold r).
    { refine (binv_outs _ B2 r x c _). cbn. apply in_or_app. right. left. reflexivity. }
    match goal with Q : cold_ans _ (Some _) |- _ => unfold cold_ans in Q; rewrite <- Q in X end. subst x.
    exists (mkBatch t cl ch lk (a' ++ (match errors_of lower r got with [] => BCount r got | _ => BReport r got end) :: b') out n false st' (pool_put pl c)).
    split; [eapply run_trans; [apply run_one; exact S1|]; eapply run_trans; [exact R|]; apply run_one; apply BS_done|].
    unfold abs. cbn [b_todo b_closed b_chan b_lock b_workers b_out b_count b_crashed]. rewrite map_app. cbn [map]. destruct (errors_of lower r got); reflexivity.
  - (* running *)
    destruct (prog_ends threads p t cl ch lk a' b' out n r st pl (proj1 BI)) as ([x c] & st' & R).
    assert (B2 : binv (mkBatch t cl ch lk (a' ++ BRun r (Ret (x, c)) :: b') out n false st' pl)).
    { clear -R BI. remember (mkBatch t cl ch lk (a' ++ BRun r (Ret (x, c)) :: b') out n false st' pl) as s2 eqn:E. clear E.
      remember (mkBatch t cl ch lk (a' ++ BRun r p :: b') out n false st pl) as s1 eqn:E. clear E.
      induction R as [s|s0 s2 s3 R IH St]; [exact BI|]. eapply binv_step; [apply IH; exact BI|exact St]. }
    assert (X : x = cold r).
    { refine (binv_outs _ B2 r x c _). cbn. apply in_or_app. right. left. reflexivity. }
    match goal with Q : cold_ans _ (Some _) |- _ => unfold cold_ans in Q; rewrite <- Q in X end. subst x.
    exists (mkBatch t cl ch lk (a' ++ (match errors_of lower r got with [] => BCount r got | _ => BReport r got end) :: b') out n false st' (pool_put pl c)).
    split; [eapply run_trans; [exact R|]; apply run_one; apply BS_done|].
    unfold abs. cbn [b_todo b_closed b_chan b_lock b_workers b_out b_count b_crashed]. rewrite map_app. cbn [map]. destruct (errors_of lower r got); reflexivity.
  - discriminate Cx.
  - discriminate Cx.
  - eexists. split; [apply run_one, BS_lock|]. unfold abs. cbn. rewrite map_app. reflexivity.
  - eexists. split; [apply run_one, BS_write|]. unfold abs. cbn. rewrite map_app. reflexivity.
  - eexists. split; [apply run_one, BS_unlock|]. unfold abs. cbn. rewrite map_app. reflexivity.
  - eexists. split; [apply run_one, BS_count|]. unfold abs. cbn. rewrite map_app. reflexivity.
Qed.
Lemma finished_abs s : cli_finished (abs s) -> batch_finished s.
Proof.
  intros (H1 & H2 & H3). split; [exact H1|]. split; [exact H2|]. cbn in H3. apply Forall_forall. intros w Hw. rewrite Forall_forall in H3.
  specialize (H3 (abs_w w) (in_map abs_w _ _ Hw)). destruct w; cbn in H3; congruence.
Qed.
Lemma uncrashed threads rows s : all_different rows -> (forall r, In r rows -> cold r <> None) ->
  batch_run T lower threads (batch_start threads rows) s -> b_crashed s = false.
Proof.
  intros D Cd R. remember (batch_start threads rows) as s0 eqn:E. induction R as [s|s1 s2 s3 R IH St]; [subst; reflexivity|]. subst s1.
  specialize (IH eq_refl). destruct St; try reflexivity. exfalso.
  pose proof (binv_run threads rows _ D R) as BI. apply binv_outs in BI.
  destruct (batch_cli threads rows _ D R) as [m M]. apply inv_run in M as (dn & bl & part & P & _).
  apply (Cd r).
  - symmetry in P. eapply Permutation_in; [exact P|]. rewrite !in_app_iff. right. left. cbn. rewrite map_app. apply in_flat_map. exists (WBusy r).
    split; [apply in_or_app; right; left; reflexivity|left; reflexivity].
  - symmetry. apply (BI r None c). cbn. apply in_or_app. right. left. reflexivity.
Qed.
Lemma crash_row ans threads y x : cli_step lower ans threads y x -> cl_crashed x = true -> exists r, In r (flat_map held (cl_workers y)) /\ ans r None.
Proof.
  intros St E. destruct St; cbn in E; try discriminate. exists r. split; [|assumption]. cbn. apply in_flat_map. exists (WBusy r).
  split; [apply in_or_app; right; left; reflexivity|left; reflexivity].
Qed.
Lemma completed_from threads rows : 0 < threads -> all_different rows -> (forall r, In r rows -> cold r <> None) ->
  forall k s, weight (abs s) < k -> batch_run T lower threads (batch_start threads rows) s ->
  exists s', batch_run T lower threads s s' /\ batch_finished s'.
Proof.
  intros Ht D Cd. induction k as [|k IH]; intros s Wk R; [lia|].
  pose proof (uncrashed threads rows s D Cd R) as Nc. destruct (batch_cli threads rows s D R) as [n N].
  destruct (progress lower cold_ans threads rows n (abs s) Ht (fun r => ex_intro _ (cold r) eq_refl) N Nc) as [F|[x St]].
  - exists s. split; [constructor|]. apply finished_abs. exact F.
  - assert (Cx : cl_crashed x = false).
    { destruct (cl_crashed x) eqn:E; [|reflexivity]. exfalso. destruct (crash_row _ _ _ _ St E) as (r & Hr & Q).
      assert (Ir : In r rows).
      { pose proof (inv_run _ _ _ _ _ _ N) as (dn & bl & part & P & _). symmetry in P. eapply Permutation_in; [exact P|]. rewrite !in_app_iff. auto. }
      exact (Cd r Ir (eq_sym Q)). }
    destruct (realise threads s x (binv_run threads rows s D R) Nc St Cx) as (s' & R' & E).
    pose proof (step_weight lower cold_ans threads _ _ St) as Lt. subst x.
    destruct (IH s') as (s2 & R2 & F2); [lia|eapply run_trans; eassumption|].
    exists s2. split; [eapply run_trans; eassumption|exact F2].
Qed.
Lemma batch_completes threads rows s : 0 < threads -> all_different rows ->
  (forall r, In r rows -> detects T ClientTypeAll DeviceTypeAll (r_ua r) /\ small_row T (r_ua r) /\ forall g, In g asked_of_row -> library T (r_ua r) g <> Panic) ->
  batch_run T lower threads (batch_start threads rows) s ->
  exists s', batch_run T lower threads s s' /\ batch_finished s'.
Proof.
  intros Ht D A R. refine (completed_from threads rows Ht D _ (S (weight (abs s))) s (Nat.lt_succ_diag_r _) R).
  intros r Hr. destruct (A r Hr) as (Dt & Sm & Np). rewrite (cold_texts r Dt Sm). change asked_of_row with batch_getters in Np.
  clear -Np. induction batch_getters as [|g gs IH]; cbn [texts map]; [discriminate|].
  destruct (library T (r_ua r) g) as [v|] eqn:E; [|exfalso; exact (Np g (or_introl eq_refl) E)].
  destruct (texts gs (map (library T (r_ua r)) gs)) as [l|]; [discriminate|]. exfalso. apply IH; [|reflexivity]. intros; apply Np; right; assumption.
Qed.

(** ** Any user agents without collisions: all answers but the model *)
Notation mC := ClientTypeAll.
Notation mD := DeviceTypeAll.
Definition right_but (ua : bytes) (gs : list getter) (x : option (list bytes)) : Prop :=
  match x with
  | Some got => detects T mC mD ua -> Forall2 (fun g t => g <> GModel -> exists v, library T ua g = Ok v /\ text_of g v t) gs got
  | None => True
  end.
Lemma row_safe gs : forall ua c, weak T mC mD ua 0 c ->
  safe (G' T mC mD) (row_prog T gs c) (fun x => right_but ua gs (fst x)).
Proof.
  induction gs as [|g gs IH]; intros ua c W; cbn [row_prog].
  - cbn. intros _. constructor.
  - assert (Env : fst (fst (env c)) = ua) by (destruct W as [E _]; rewrite E; reflexivity).
    apply safe_bind. destruct (no_panics_dec T mC mD ua) as [NP|NP].
    + pose proof (safe_keyed_G' T mC mD ua (env c) _ _ NP Env (keyed_getter T g c) (safe_getter_any T mC mD ua 0 c g NP (proj2 W NP))) as S.
      eapply safe_mono; [|exact S]. intros [c1 r]. cbn [fst snd]. intros [[G1 R] E1]. destruct r as [v|]; [|exact I]. apply safe_bind.
      eapply safe_mono; [|apply (IH ua c1)].
      * intros [[got|] c2] F; cbn [fst snd option_map safe right_but] in *; [|exact I]. intros D. constructor; [|apply F; exact D].
        intros Hg. specialize (R Hg). exists v.
        assert (E : library T ua g = Ok v) by (unfold library; rewrite R; symmetry; apply final_alone; assumption).
        split; [exact E|]. exact (show_text T g _ v E).
      * split; [rewrite E1; exact (proj1 W)|]. intros _. exact G1.
    + assert (NP' : ~ Proof_Safe.no_panics T mC mD (fst (fst (env c)))) by (rewrite Env; exact NP).
      pose proof (keyed_safe_G' T mC mD (env c) _ NP' (keyed_getter T g c)) as S.
      eapply safe_mono; [|exact S]. intros [c1 r]. cbn [fst snd]. intros E1. destruct r as [v|]; [|exact I]. apply safe_bind.
      eapply safe_mono; [|apply (IH ua c1)].
      * intros [[got|] c2] F; cbn [fst snd option_map safe right_but] in *; [|exact I]. intros D. exfalso. apply NP. apply detects_no_panics. exact D.
      * split; [rewrite E1; exact (proj1 W)|]. intros H. contradiction.
Qed.

Definition ok_d (uas : list bytes) (w : bstate) : Prop :=
  match w with
  | BBusy r => In (r_ua r) uas
  | BRun r p => keys_in uas p /\ safe (G' T mC mD) p (fun x => right_but (r_ua r) batch_getters (fst x))
  | _ => True
  end.
Definition dinv (uas : list bytes) (s : batch) : Prop :=
  cache_inv T mC mD uas (b_cache s) /\ pool_reach (b_pool s) /\
  (forall r, In r (b_chan s ++ b_todo s) -> In (r_ua r) uas) /\ Forall (ok_d uas) (b_workers s).
Lemma keys_more {A} uas uas' (p : prog A) : incl uas uas' -> keys_in uas p -> keys_in uas' p.
Proof. intros H. induction p as [a|k f IH|k e p IH]; cbn; [auto| |]; intros [K1 K2]; auto. Qed.
Lemma weak_fresh ua : weak T mC mD ua 0 (fresh ua).
Proof. rewrite <- fresh_single. apply (weak_set_ua T mC mD [] 0 ua new_ctx). apply (weak_recycle T mC mD new_ctx). Qed.
Lemma dinv_step uas threads s s' : collision_free uas -> dinv uas s -> batch_step T lower threads s s' -> dinv uas s'.
Proof.
  intros CF (CI & Pl & C & W) St.
  destruct St; unfold dinv in *; cbn [b_todo b_closed b_chan b_lock b_workers b_out b_count b_crashed b_cache b_pool] in *;
    try (split; [exact CI|split; [exact Pl|split; [exact C|first [exact W|eapply forall_mid; [|exact W]; auto]]]]; fail).
  - (* send *) split; [exact CI|]. split; [exact Pl|]. rewrite <- app_assoc. split; [exact C|exact W].
  - (* recv *) split; [exact CI|]. split; [exact Pl|]. split; [intros x Hx; apply C; right; exact Hx|].
    eapply forall_mid; [|exact W]. intros _. apply C. left. reflexivity.
  - (* acquire *) split; [exact CI|]. split; [eapply Pool_get; eassumption|]. split; [exact C|].
    eapply forall_mid; [|exact W]. cbn [ok_d]. intros L. rewrite (set_ua_fresh pl c pl' (r_ua r) Pl H).
    split; [|apply row_safe; apply weak_fresh]. eapply keys_more; [|apply (row_keys batch_getters (fresh (r_ua r)))].
    intros u [<-|[]]. exact L.
  - (* get *) assert (Hk : In key uas /\ ok_d uas (BRun r (CGet key k))).
    { apply Forall_app in W as [_ W]. apply Forall_inv in W. destruct W as [[K K'] S]. split; [exact K|]. split; [split; assumption|exact S]. }
    destruct Hk as [Hk [[_ K] S]]. destruct (cache_inv_get T mC mD uas st key now CF Hk CI) as [CI' Row].
    split; [exact CI'|]. split; [exact Pl|]. split; [exact C|]. eapply forall_mid; [|exact W]. intros _. split; [apply K|]. apply S. exact Row.
  - (* set *) assert (Hk : ok_d uas (BRun r (CSet key e k))).
    { apply Forall_app in W as [_ W]. apply Forall_inv in W. exact W. }
    destruct Hk as [[K1 K2] [S1 S2]]. split; [eapply cache_inv_set; eassumption|]. split; [exact Pl|]. split; [exact C|].
    eapply forall_mid; [|exact W]. intros _. split; assumption.
  - (* done *) split; [exact CI|]. split; [apply Pool_put; exact Pl|]. split; [exact C|].
    eapply forall_mid; [|exact W]. intros _. destruct (errors_of lower r got); exact I.
  - (* clean *) split; [apply cache_inv_clean; exact CI|]. split; [exact Pl|]. split; [exact C|exact W].
  - (* drop *) split; [exact CI|]. split; [eapply Pool_drop; eassumption|]. split; [exact C|exact W].
Qed.
Lemma dinv_run threads rows s : collision_free (map r_ua rows) -> batch_run T lower threads (batch_start threads rows) s -> dinv (map r_ua rows) s.
Proof.
  intros CF R. remember (batch_start threads rows) as s0 eqn:E. induction R as [s|s1 s2 s3 R IH St].
  - subst. split; [apply cache_inv_empty|]. split; [constructor|]. split; [intros r Hr; apply in_map; exact Hr|].
    apply Forall_forall. intros w Hw. apply repeat_spec in Hw as ->. exact I.
  - eapply dinv_step; [exact CF|apply IH; exact E|exact St].
Qed.
Definition but_ans (r : row) (x : option (list bytes)) : Prop := right_but (r_ua r) batch_getters x.
Lemma batch_but_model threads rows s : 0 < threads -> collision_free (map r_ua rows) ->
  (forall r, In r rows -> detects T mC mD (r_ua r)) ->
  batch_run T lower threads (batch_start threads rows) s -> batch_finished s ->
  b_count s = length rows /\
  exists ds, Permutation (map (fun d => fst (fst d)) ds) rows /\
    Forall (fun d => answered_but_model (library T (r_ua (fst (fst d)))) (snd (fst d)) /\ block lower (fst (fst d)) (snd (fst d)) (snd d)) ds /\
    concat (b_out s) = concat (map snd ds).
Proof.
  intros Ht CF A R F.
  assert (O : forall s, batch_run T lower threads (batch_start threads rows) s -> outs but_ans s).
  { intros s0 R0 r x c Hi. destruct (dinv_run threads rows s0 CF R0) as (_ & _ & _ & W). rewrite Forall_forall in W.
    destruct (W _ Hi) as [_ S]. exact S. }
  destruct (sim_run but_ans threads rows s O R) as [n N].
  destruct (finished_report lower but_ans threads rows n (abs s) Ht N (abs_finished s F)) as (Cn & ds & P & Q & Ou).
  split; [exact Cn|]. exists ds. split; [exact P|]. split; [|exact Ou]. apply Forall_forall. intros d Hd. rewrite Forall_forall in Q.
  destruct (Q d Hd) as [Q1 Q2]. split; [|exact Q2]. apply Q1. apply A. eapply Permutation_in; [exact P|]. apply in_map_iff. exists d. auto.
Qed.
End Batch.

(** ** One worker, driven *)
Section Drive.
Variable T : tables.
Variable lower : bytes -> bytes.
Definition next (s : batch) : option batch :=
  match s with
  | mkBatch t cl ch lk [w] out n false st pl =>
      match w, t, cl with
      | BIdle, r :: t', false => if length ch <? capacity 1 then Some (mkBatch t' false (ch ++ [r]) lk [w] out n false st pl)
          else match ch with r :: ch' => Some (mkBatch t cl ch' lk [BBusy r] out n false st pl) | [] => None end
      | BIdle, [], false => Some (mkBatch [] true ch lk [w] out n false st pl)
      | BIdle, _, true => match ch with r :: ch' => Some (mkBatch t cl ch' lk [BBusy r] out n false st pl) | [] => Some (mkBatch t cl [] lk [BDone] out n false st pl) end
      | BBusy r, _, _ => Some (mkBatch t cl ch lk [BRun r (row_prog T batch_getters (set_user_agent (r_ua r) new_ctx))] out n false st pl)
      | BRun r (CGet key k), _, _ => Some (mkBatch t cl ch lk [BRun r (k (option_map (cs_heap (fst (cache_get st key 0))) (snd (cache_get st key 0))))] out n false (fst (cache_get st key 0)) pl)
      | BRun r (CSet key e k), _, _ => match cstep st (OSet key e 0) with Ok st' => Some (mkBatch t cl ch lk [BRun r k] out n false st' pl) | Panic => None end
      | BRun r (Ret (Some got, c)), _, _ =>
          Some (mkBatch t cl ch lk [match errors_of lower r got with [] => BCount r got | _ => BReport r got end] out n false st (pool_put pl c))
      | BReport r got, _, _ => if lk then None else Some (mkBatch t cl ch true [BWrite r got (pieces r (errors_of lower r got))] out n false st pl)
      | BWrite r got (p :: ps), _, _ => Some (mkBatch t cl ch lk [BWrite r got ps] (out ++ [p]) n false st pl)
      | BWrite r got [], _, _ => if lk then Some (mkBatch t cl ch false [BCount r got] out n false st pl) else None
      | BCount r got, _, _ => Some (mkBatch t cl ch lk [BIdle] out (S n) false st pl)
      | _, _, _ => None
      end
  | _ => None
  end.
Lemma some_inj {A} (a b : A) : Some a = Some b -> a = b.
Proof. congruence. Qed.
Lemma next_step s s' : next s = Some s' -> batch_step T lower 1 s s'.
Proof.
  destruct s as [t cl ch lk [|w [|]] out n [] st pl]; cbn [next]; try discriminate.
  destruct w as [|r|r p|r got|r got ps|r got|].
  - destruct t as [|r t], cl; try discriminate.
    + destruct ch as [|r ch]; intros H; apply some_inj in H; subst s'; [apply (BS_stop T lower 1 [] lk [] [])|apply (BS_recv T lower 1 [] true r ch lk [] [])].
    + intros H; apply some_inj in H; subst s'. apply BS_close.
    + destruct ch as [|r' ch]; intros H; apply some_inj in H; subst s'; [apply (BS_stop T lower 1 (r :: t) lk [] [])|apply (BS_recv T lower 1 (r :: t) true r' ch lk [] [])].
    + destruct (length ch <? capacity 1) eqn:E; [intros H; apply some_inj in H; subst s'; apply BS_send; apply Nat.ltb_lt; exact E|].
      destruct ch as [|r' ch]; [discriminate|]. intros H; apply some_inj in H; subst s'. apply (BS_recv T lower 1 (r :: t) false r' ch lk [] []).
  - intros H; apply some_inj in H; subst s'. apply (BS_acquire T lower 1 t cl ch lk [] [] out n r new_ctx st pl pl). constructor.
  - destruct p as [[[got|] c]|key k|key e k].
    + intros H; apply some_inj in H; subst s'. apply (BS_done T lower 1 t cl ch lk [] []).
    + discriminate.
    + intros H; apply some_inj in H; subst s'. apply (BS_get T lower 1 t cl ch lk [] [] out n r key k 0%Z st pl).
    + destruct (cstep st (OSet key e 0)) as [st'|] eqn:E; [|discriminate]. intros H; apply some_inj in H; subst s'. apply (BS_set T lower 1 t cl ch lk [] []) with (now := 0%Z). exact E.
  - destruct lk; [discriminate|]. intros H; apply some_inj in H; subst s'. apply (BS_lock T lower 1 t cl ch [] []).
  - destruct ps as [|p ps]; [destruct lk; [|discriminate]|]; intros H; apply some_inj in H; subst s'; [apply (BS_unlock T lower 1 t cl ch [] [])|apply (BS_write T lower 1 t cl ch lk [] [])].
  - intros H; apply some_inj in H; subst s'. apply (BS_count T lower 1 t cl ch lk [] []).
  - discriminate.
Qed.
Fixpoint drive (k : nat) (s : batch) : batch := match k with O => s | S k => match next s with Some s' => drive k s' | None => s end end.
Lemma drive_run k : forall s0 s, batch_run T lower 1 s0 s -> batch_run T lower 1 s0 (drive k s).
Proof.
  induction k as [|k IH]; intros s0 s R; cbn [drive]; [exact R|]. destruct (next s) as [s'|] eqn:E; [|exact R].
  apply IH. econstructor; [exact R|]. apply next_step. exact E.
Qed.
Definition ended (s : batch) : bool := negb (b_crashed s) && b_closed s && forallb (fun w => match w with BDone => true | _ => false end) (b_workers s).
Lemma ended_finished s : ended s = true -> batch_finished s.
Proof.
  unfold ended. rewrite !andb_true_iff, negb_true_iff. intros [[H1 H2] H3]. split; [exact H1|]. split; [exact H2|].
  apply Forall_forall. intros w Hw. rewrite forallb_forall in H3. specialize (H3 w Hw). destruct w; congruence.
Qed.
End Drive.

(** ** Two rows with the same user agent *)
From Verif Require Import Model_Compiler Model_Built Data_Tiny.
Definition batch_ua : bytes := bs "Foo/29.0 Beta Tab X1 Debian 9_1 WebKit/5.36 Chrome/70.2".
Definition batch_other : bytes := bs "Foo/30.1 Debian 9_1".
Definition wants_model (ua m : bytes) : row := mkRow ua [[]; []; []; []; []; []; []; m; []; []].
Fixpoint same_texts (a b : list bytes) : bool :=
  match a, b with [], [] => true | x :: a, y :: b => beqs x y && same_texts a b | _, _ => false end.
Definition row_okb (T : tables) (r : row) (got : list bytes) : bool :=
  detectsb T ClientTypeAll DeviceTypeAll (r_ua r) &&
  (let '(_, c, _, _) := run_getters T batch_getters (fresh_ctx ClientTypeAll DeviceTypeAll 0 (r_ua r)) None [] in
   (N.of_nat (length (c_buf c)) <? 4294967296)%N) &&
  match texts batch_getters (map (library T (r_ua r)) batch_getters) with Some l => same_texts l got | None => false end.
Lemma row_okb_ok T r got : row_okb T r got = true ->
  detects T ClientTypeAll DeviceTypeAll (r_ua r) /\ small_row T (r_ua r) /\ answered (library T (r_ua r)) got.
Proof.
  unfold row_okb. rewrite !andb_true_iff. intros [[D S] A]. split; [apply detectsb_ok; exact D|]. split.
  - unfold small_row. change asked_of_row with batch_getters.
    destruct (run_getters T batch_getters (fresh_ctx ClientTypeAll DeviceTypeAll 0 (r_ua r)) None []) as [[[rs c] o] ev]. lia.
  - destruct (texts batch_getters (map (library T (r_ua r)) batch_getters)) as [l|] eqn:E; [|discriminate].
    assert (l = got) as <-.
    { revert got A. clear E. induction l as [|x l IH]; intros [|y got] A; cbn in A; try discriminate; [reflexivity|].
      apply andb_true_iff in A as [A1 A2]. apply beqs_eq in A1 as ->. f_equal. apply IH. exact A2. }
    exact (texts_answered T _ _ _ E).
Qed.
Lemma twice_wrong T ua m got k :
  row_okb T (wants_model ua m) got && (match nth_error got 7 with Some x => beqs x m | None => false end) &&
  (let s := drive T (fun b => b) k (batch_start 1 [wants_model ua m; wants_model ua m]) in
   ended s && negb (length (concat (b_out s)) =? 0)) = true ->
  exists T rows s, (forall r, In r rows -> detects T ClientTypeAll DeviceTypeAll (r_ua r) /\ small_row T (r_ua r) /\
      exists got, answered (library T (r_ua r)) got /\ block (fun b => b) r got []) /\
    batch_run T (fun b => b) 1 (batch_start 1 rows) s /\ batch_finished s /\ concat (b_out s) <> [].
Proof.
  intros H. apply andb_true_iff in H as [H E]. apply andb_true_iff in H as [R M]. cbv zeta in E. apply andb_true_iff in E as [E1 E2].
  exists T, [wants_model ua m; wants_model ua m], (drive T (fun b => b) k (batch_start 1 [wants_model ua m; wants_model ua m])).
  split; [|split; [apply drive_run; constructor|split; [apply ended_finished; exact E1|]]].
  - assert (X : forall r, r = wants_model ua m -> detects T ClientTypeAll DeviceTypeAll (r_ua r) /\ small_row T (r_ua r) /\
      exists got, answered (library T (r_ua r)) got /\ block (fun b => b) r got []).
    { intros r ->. destruct (row_okb_ok _ _ _ R) as (D & S & A). split; [exact D|]. split; [exact S|]. exists got. split; [exact A|].
      clear -M A. exists []. split; [|left; auto].
      unfold answered, asked_of_row in A.
      repeat match goal with H : Forall2 _ (_ :: _) _ |- _ => inversion H; subst; clear H end.
      match goal with H : Forall2 _ [] _ |- _ => inversion H; subst; clear H end.
      cbn in M. match goal with H : beqs ?x m = true |- _ => apply beqs_eq in H; subst end.
      unfold compared, topics, wants_model. cbn [r_want combine].
      repeat (apply LN_ok; [unfold wrong; intros [W1 W2]; first [apply W1; reflexivity|apply W2; reflexivity]|]). constructor. }
    intros r [<-|[<-|[]]]; apply X; reflexivity.
  - intros C. rewrite C in E2. discriminate.
Qed.

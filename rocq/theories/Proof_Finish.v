(** Proofs for C66 and C67: executions of the machine of Model_Threads.v can be brought to an end; the library runs on
    that machine as in Spec_Getters.v; and a scheduler with which executions are exhibited. *)
From Coq Require Import Lia PeanoNat.
From Verif Require Import Model_Base Model_CacheEntry Model_Version Model_Ctx Model_Parse Model_Cache Model_Threads
  Spec_Cache Spec_Getters Spec_Race Proof_Base Proof_Cache Proof_Reports Proof_Repeat Proof_Race Proof_Atomic.
Open Scope nat_scope.

(** ** Termination *)
Definition sub (c' c : code) : Prop :=
  match c with
  | Done _ | Crash => False
  | Lock k | Unlock k | Once k | OnceEnd k | Spawn k | StIdx _ k | StBuf _ k | StKey _ _ k | StStamp _ _ k | StBody _ _ k => c' = k
  | LdIdx k => exists v, c' = k v
  | LdBuf k => exists v, c' = k v
  | LdKey _ k => exists v, c' = k v
  | LdStamp _ k => exists v, c' = k v
  | LdBody _ k => exists v, c' = k v
  | New k => exists v, c' = k v
  | Now k => exists v, c' = k v
  end.
Lemma sub_wf c : Acc sub c.
Proof. induction c; constructor; intros c' H'; cbn in H'; try contradiction; try (subst; assumption); destruct H' as [v ->]; auto. Qed.
Definition subs (l' l : list code) : Prop := exists t c c', nth_error l t = Some c /\ sub c' c /\ l' = store l t c'.
Lemma subs_wf l : Acc subs l.
Proof.
  induction l as [|c l IH].
  - constructor. intros l' ([|t] & c & c' & H & _); discriminate.
  - revert c. induction IH as [l Hl IHl]. intros c. induction (sub_wf c) as [c _ IHc].
    constructor. intros l' ([|t] & d & d' & H & S & ->); cbn in *.
    + injection H as <-. exact (IHc d' S).
    + apply IHl. exists t, d, d'. auto.
Qed.
Lemma step_sub t c m c' m' evs : act_step t c m c' m' evs ->
  (sub c' c \/ m_once m = Fresh /\ m_once m' <> Fresh) /\ (m_once m' = Fresh -> m_once m = Fresh).
Proof. intros S; destruct S; cbn; split; eauto; try congruence. right. split; congruence. Qed.

Section Finish.
  Variable ps : list (prog (list (res value))).
  Hypothesis B : forall p, In p ps -> blind p.

  Lemma finish_from s : mach_run (mach_start ps) s -> (m_once (k_mem s) <> Fresh \/ forall s', mach_run (mach_start ps) s' -> m_once (k_mem s') <> Fresh ->
      exists s2, mach_run s' s2 /\ Forall idle (k_threads s2)) ->
    exists s', mach_run s s' /\ Forall idle (k_threads s').
  Proof.
    remember (k_threads s) as ts eqn:E. revert s E. induction (subs_wf ts) as [ts _ IH]. intros s -> R Hf.
    destruct (atomic ps s B R) as (_ & _ & _ & NC).
    assert (D : Forall idle (k_threads s) \/ exists t c, nth_error (k_threads s) t = Some c /\ ~ (exists rs, c = Done rs) /\ c <> Crash).
    { assert (X : forall l, (forall t, nth_error l t <> Some Crash) -> Forall idle l \/ exists t c, nth_error l t = Some c /\ ~ (exists rs, c = Done rs) /\ c <> Crash).
      { induction l as [|c l IHl]; intros H; [left; constructor|].
        destruct (IHl (fun t => H (S t))) as [F|(t & d & Ht & X)]; [|right; exists (S t), d; auto].
        destruct c; try (right; exists 0; eexists; split; [reflexivity|]; split; [intros [? Y]; discriminate Y|discriminate]; fail).
        - left. constructor; [eexists; reflexivity|exact F].
        - destruct (H 0 eq_refl). }
      apply X, NC. }
    destruct D as [D|D]; [exists s; split; [constructor|exact D]|].
    destruct (progress ps s R D) as (u & d & c' & m' & evs & Hu & St). destruct s as [m ts tr]. cbn [k_mem k_threads] in *.
    set (s' := mkMach m' (store ts u c') (tr ++ map (fun e => (u, e)) evs)).
    assert (Ss : mach_step (mkMach m ts tr) s') by (eapply M_act; eassumption).
    assert (R' : mach_run (mach_start ps) s') by (eapply MRun_step; eassumption).
    assert (Fin : exists s2, mach_run s' s2 /\ Forall idle (k_threads s2)).
    { destruct (step_sub _ _ _ _ _ _ St) as [[Sb|[Fr Nf]] Mo].
      - apply (IH (k_threads s')); [exists u, d, c'; auto|reflexivity|exact R'|].
        destruct Hf as [Hf|Hf]; [left|right; exact Hf]. intros X. exact (Hf (Mo X)).
      - destruct Hf as [Hf|Hf]; [congruence|]. exact (Hf s' R' Nf). }
    destruct Fin as (s2 & R2 & F2). exists s2. split; [|exact F2]. clear - Ss R2. induction R2 as [s|a b c R2 IH S2].
    - eapply MRun_step; [constructor|exact Ss].
    - eapply MRun_step; [exact (IH Ss)|exact S2].
  Qed.
  Lemma finish s : mach_run (mach_start ps) s -> exists s', mach_run s s' /\ Forall idle (k_threads s').
  Proof. intros R. apply finish_from; [exact R|]. right. intros s' R' N. apply finish_from; auto. Qed.
End Finish.

(** ** The library *)
Lemma start_blind T mC mD scripts : forall p, In p (cf_threads (start T mC mD scripts)) -> blind p.
Proof. intros p H. cbn in H. apply in_map_iff in H. destruct H as (l & <- & _). apply blind_script. Qed.

Lemma library_atomic T mC mD scripts s : mach_run (mach_start (cf_threads (start T mC mD scripts))) s ->
  exists cf, conc_run (start T mC mD scripts) cf /\
    (forall i rs, nth_error (k_threads s) (S i) = Some (Done rs) -> nth_error (cf_threads cf) i = Some (Ret rs)) /\
    (forall t, nth_error (k_threads s) t <> Some Crash).
Proof. exact (atomic _ s (start_blind T mC mD scripts)). Qed.
Lemma library_finish T mC mD scripts s : mach_run (mach_start (cf_threads (start T mC mD scripts))) s ->
  exists s', mach_run s s' /\ Forall idle (k_threads s').
Proof. exact (finish _ (start_blind T mC mD scripts) s). Qed.
Lemma library_isolated T mC mD scripts s i l rs : mach_run (mach_start (cf_threads (start T mC mD scripts))) s ->
  collision_free (concat (map (fun l => asked l []) scripts)) ->
  nth_error scripts i = Some l -> nth_error (k_threads s) (S i) = Some (Done rs) ->
  Forall2 (fun x r => detects T mC mD (fst (fst x)) -> snd x <> GModel -> as_alone T mC mD x r) (calls l [] 0) rs.
Proof.
  intros R CF Hl Hd. destruct (library_atomic T mC mD scripts s R) as (cf & C & D & _).
  exact (proj1 (isolated T mC mD scripts cf C) i l rs CF Hl (D i rs Hd)).
Qed.

(** ** A scheduler *)
Definition one (t : nat) (c : code) (m : mem) : option (code * mem * list event) :=
  match c with
  | Done _ | Crash => None
  | Lock k => match m_lock m with None => Some (k, w_lock (Some t) m, [ELock]) | Some _ => None end
  | Unlock k => match m_lock m with Some h => if h =? t then Some (k, w_lock None m, [EUnlock]) else None | None => None end
  | Once k => match m_once m with Fresh => Some (init_code k, w_once Running m, []) | Running => None | Finished => Some (k, m, [EOncePass]) end
  | OnceEnd k => Some (k, w_once Finished m, [EOnceEnd])
  | Spawn k => Some (k, w_tick true m, [ESpawn])
  | LdIdx k => Some (k (m_idx m), m, [ERead LIdx])
  | StIdx v k => Some (k, w_idx v m, [EWrite LIdx])
  | LdBuf k => Some (k (m_buf m), m, [ERead LBuf])
  | StBuf v k => Some (k, w_buf v m, [EWrite LBuf])
  | LdKey p k => Some (k (m_key m p), m, [ERead (LKey p)])
  | StKey p v k => Some (k, w_key p v m, [EWrite (LKey p)])
  | LdStamp p k => Some (k (m_stamp m p), m, [ERead (LStamp p)])
  | StStamp p v k => Some (k, w_stamp p v m, [EWrite (LStamp p)])
  | LdBody p k => Some (k (m_body m p), m, [ERead (LBody p)])
  | StBody p v k => Some (k, w_body p v m, [EWrite (LBody p)])
  | New k => Some (k (m_next m), w_next (S (m_next m)) m, [])
  | Now k => Some (k 0%Z, m, [])
  end.
Lemma one_sound t c m c' m' evs : one t c m = Some (c', m', evs) -> act_step t c m c' m' evs.
Proof.
  destruct c; cbn [one]; intros E; try discriminate; try (injection E as <- <- <-; constructor; fail).
  - destruct (m_lock m) eqn:L; [discriminate|]. injection E as <- <- <-. constructor. exact L.
  - destruct (m_lock m) as [h|] eqn:L; [|discriminate]. destruct (Nat.eqb_spec h t) as [->|]; [|discriminate]. injection E as <- <- <-. constructor. exact L.
  - destruct (m_once m) eqn:L; [|discriminate|]; injection E as <- <- <-; constructor; exact L.
Qed.
(** Number 0 wakes the cleaner; a goroutine that cannot go on is passed over. *)
Fixpoint sched (l : list nat) (s : mach) : mach :=
  match l with
  | [] => s
  | t :: l' =>
      sched l' match nth_error (k_threads s) t with
               | None => s
               | Some c =>
                   match one t c (k_mem s) with
                   | Some (c', m', evs) => mkMach m' (store (k_threads s) t c') (k_trace s ++ map (fun e => (t, e)) evs)
                   | None => match t, c with
                             | 0, Done _ => if m_tick (k_mem s) then mkMach (k_mem s) (store (k_threads s) 0 clean_code) (k_trace s) else s
                             | _, _ => s
                             end
                   end
               end
  end.
Lemma sched_run l : forall s s0, mach_run s0 s -> mach_run s0 (sched l s).
Proof.
  induction l as [|t l IH]; intros s s0 R; cbn [sched]; [exact R|]. apply IH. destruct (nth_error (k_threads s) t) as [c|] eqn:Ht; [|exact R].
  destruct (one t c (k_mem s)) as [[[c' m'] evs]|] eqn:E1.
  - eapply MRun_step; [exact R|]. destruct s as [m ts tr]. cbn in *. apply (M_act t c c' m m' ts evs tr Ht). apply one_sound, E1.
  - destruct t as [|t]; [|exact R]. destruct c; try exact R. destruct (m_tick (k_mem s)) eqn:Hk; [|exact R].
    eapply MRun_step; [exact R|]. destruct s as [m ts tr]. cbn in *. eapply M_tick; eassumption.
Qed.

(** ** A race *)
Definition releases (e : event) : bool := match e with EUnlock | EOnceEnd | ESpawn => true | _ => false end.
Definition quiet (tr : list (nat * event)) (i u : nat) : bool := forallb (fun x => negb ((fst x =? u) && releases (snd x))) (skipn i tr).
Lemma nth_skipn {A} (l : list A) : forall i j a, i <= j -> nth_error l j = Some a -> In a (skipn i l).
Proof.
  induction l as [|b l IH]; intros [|i] [|j] a L E; cbn in *; try discriminate; try lia; try (injection E as <-; auto); [right; exact (nth_error_In _ _ E)|].
  apply (IH i j); [lia|exact E].
Qed.
Lemma quiet_stays tr i u : quiet tr i u = true -> forall a b, hb tr a b -> i <= a -> (exists e, nth_error tr a = Some (u, e)) ->
  i <= b /\ exists e, nth_error tr b = Some (u, e).
Proof.
  intros Q. assert (X : forall a t e, i <= a -> nth_error tr a = Some (t, e) -> releases e = true -> t <> u).
  { intros a t e L E Re ->. pose proof (proj1 (forallb_forall _ _) Q _ (nth_skipn tr i a _ L E)) as Y. cbn in Y. rewrite Nat.eqb_refl, Re in Y. discriminate. }
  intros a b H. induction H as [a b t e e' L Ha Hb|a b t w L Ha Hb|a b t w L Ha Hb|a b t e L Ha Hb|a b c H1 IH1 H2 IH2]; intros La (d & Hd).
  - rewrite Ha in Hd. injection Hd as <- <-. split; [lia|eauto].
  - rewrite Ha in Hd. injection Hd as -> <-. destruct (X a u EUnlock La Ha eq_refl eq_refl).
  - rewrite Ha in Hd. injection Hd as -> <-. destruct (X a u EOnceEnd La Ha eq_refl eq_refl).
  - rewrite Ha in Hd. injection Hd as -> <-. destruct (X a u ESpawn La Ha eq_refl eq_refl).
  - destruct (IH1 La (ex_intro _ d Hd)) as [Lb Eb]. exact (IH2 Lb Eb).
Qed.
Lemma race_of tr i j t u e e' l : i < j -> nth_error tr i = Some (u, e) -> nth_error tr j = Some (t, e') -> u <> t ->
  e = EWrite l -> e' = EWrite l -> quiet tr i u = true -> race tr.
Proof.
  intros L Hi Hj N -> -> Q. exists i, j, u, t, (EWrite l), (EWrite l). do 4 (split; [assumption|]). split; [exists l; repeat split; left + right; reflexivity|].
  intros H. destruct (quiet_stays tr i u Q i j H (Nat.le_refl i) (ex_intro _ _ Hi)) as [_ [d Hd]]. congruence.
Qed.

(** ** Checking an execution *)
Definition answered (s : mach) (i : nat) (l : list bytes) : bool :=
  match nth_error (k_threads s) (S i) with
  | Some (Done rs) => (length rs =? length l) && forallb (fun x => is_bytes (fst x) (snd x)) (combine rs l)
  | _ => false
  end.
Definition ev_eq (e e' : event) : bool :=
  match e, e' with EWrite LBuf, EWrite LBuf | ERead LBuf, ERead LBuf => true | _, _ => false end.
Definition seen (s : mach) (i t : nat) (e : event) : bool :=
  match nth_error (k_trace s) i with Some (u, e') => (u =? t) && ev_eq e' e | None => false end.
Lemma answered_ok s i l : answered s i l = true -> nth_error (k_threads s) (S i) = Some (Done (map (fun b => Ok (VB b)) l)).
Proof.
  unfold answered. destruct (nth_error (k_threads s) (S i)) as [[rs| | | | | | | | | | | | | | | | | |]|]; try discriminate.
  intros H. apply andb_prop in H as [L H]. apply Nat.eqb_eq in L. do 2 f_equal. revert l L H.
  induction rs as [|r rs IH]; intros [|b l] L H; try discriminate; [reflexivity|]. cbn in *. apply andb_prop in H as [H1 H2].
  rewrite (is_bytes_ok _ _ H1). f_equal. apply IH; congruence.
Qed.
Lemma seen_ok s i t e : seen s i t e = true -> nth_error (k_trace s) i = Some (t, e).
Proof.
  unfold seen. destruct (nth_error (k_trace s) i) as [[u e']|]; [|discriminate]. intros H. apply andb_prop in H as [H1 H2]. apply Nat.eqb_eq in H1. subst u.
  destruct e' as [[]|[]| | | | |], e as [[]|[]| | | | |]; try discriminate; reflexivity.
Qed.
Lemma execution T mC mD scripts sch i j x y :
  (let s := sched sch (mach_start (cf_threads (start T mC mD scripts))) in
   (i <? j) && seen s i 1 (EWrite LBuf) && seen s j 2 (ERead LBuf) && answered s 0 x && answered s 1 y) = true ->
  exists s, mach_run (mach_start (cf_threads (start T mC mD scripts))) s /\
    i < j /\ nth_error (k_trace s) i = Some (1, EWrite LBuf) /\ nth_error (k_trace s) j = Some (2, ERead LBuf) /\
    nth_error (k_threads s) 1 = Some (Done (map (fun b => Ok (VB b)) x)) /\
    nth_error (k_threads s) 2 = Some (Done (map (fun b => Ok (VB b)) y)).
Proof.
  cbv zeta. intros H. apply andb_prop in H as [H H5]. apply andb_prop in H as [H H4]. apply andb_prop in H as [H H3]. apply andb_prop in H as [H1 H2].
  apply Nat.ltb_lt in H1. eexists. split; [apply sched_run; constructor|]. split; [exact H1|]. split; [exact (seen_ok _ _ _ _ H2)|]. split; [exact (seen_ok _ _ _ _ H3)|]. split; [exact (answered_ok _ 0 _ H4)|exact (answered_ok _ 1 _ H5)].
Qed.

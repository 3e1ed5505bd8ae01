(** Proofs for C67: a critical section takes effect as a whole; every execution of the machine of Model_Threads.v gives
    results that an interleaving of whole cache calls (Spec_Getters.v) gives as well. *)
From Coq Require Import Lia PeanoNat.
From Verif Require Import Model_Base Model_CacheEntry Model_Version Model_Ctx Model_Parse Model_Cache Model_Threads
  Spec_Cache Spec_Getters Spec_Race Proof_Base Proof_Cache Proof_Race.
Open Scope nat_scope.
Local Arguments Nat.ltb : simpl never.
Local Arguments nth : simpl never.
Local Arguments Nat.sub : simpl never.

(** ** Programs that do not look at the two bookkeeping fields of a row *)
Fixpoint blind {A} (p : prog A) : Prop :=
  match p with
  | Ret _ => True
  | CGet _ k => (forall e hk ts, k (Some (with_stamp e hk ts)) = k (Some e)) /\ forall o, blind (k o)
  | CSet _ _ k => blind k
  end.
Definition blindP {A} (p : P A) : Prop := forall c, blind (p c).
Lemma blind_bind {A B} (p : prog A) (f : A -> prog B) : blind p -> (forall a, blind (f a)) -> blind (prog_bind p f).
Proof.
  intros H K. induction p as [a|key k IH|key e k IH]; cbn in *.
  - apply K.
  - destruct H as [H1 H2]. split; [intros; rewrite H1; reflexivity|]. intros o. apply IH, H2.
  - apply IH, H.
Qed.
Lemma blind_pbind {A B} (p : P A) (f : A -> P B) : blindP p -> (forall a, blindP (f a)) -> blindP (pbind p f).
Proof. intros H K c. unfold pbind. apply blind_bind; [apply H|]. intros [c' [a|]]; [apply K|exact I]. Qed.
Lemma blind_pmap {A B} (f : A -> B) (p : P A) : blindP p -> blindP (pmap f p).
Proof. intros H. unfold pmap. apply blind_pbind; [exact H|]. intros a c. exact I. Qed.
Lemma blind_lift {A} (m : M A) : blindP (plift m).
Proof. intros c. exact I. Qed.
Lemma blind_ret {A} (a : A) : blindP (pret a).
Proof. intros c. exact I. Qed.
Lemma blind_set key e : blindP (pcset key e).
Proof. intros c. exact I. Qed.
Lemma blind_defer {A} (b : P A) d : blindP b -> (forall r, blindP (d r)) -> blindP (pdefer b d).
Proof.
  intros H K c. unfold pdefer. apply blind_bind; [apply H|]. intros [c1 r]. apply blind_bind; [apply K|]. intros [c2 [a|]]; exact I.
Qed.

Section Library.
  Variable T : tables.
  Lemma blind_look {A} key (f : option entry -> P A) : (forall e hk ts c, f (Some (with_stamp e hk ts)) c = f (Some e) c) ->
    (forall o, blindP (f o)) -> blindP (pbind (pcget key) f).
  Proof. intros H K c. cbn. split; [intros; apply H|]. intros o. apply K. Qed.
  Lemma blind_finish f : blindP (finish f).
  Proof. apply blind_pbind; [apply blind_lift|]. intros _. apply blind_set. Qed.
  Lemma blind_hit {A} (m : M A) : blindP (pbind (plift m) (fun _ => pret true)).
  Proof. apply blind_pbind; [apply blind_lift|intros _; apply blind_ret]. Qed.
  Lemma blind_client : blindP (parse_client T).
  Proof.
    apply blind_look; [reflexivity|]. assert (D : blindP (pdefer (plift (client_try T client_classes)) (fun _ => finish flagClientDetect))).
    { apply blind_defer; [apply blind_lift|intros r; apply blind_finish]. }
    intros [e|]; [|exact D]. destruct (check_bit _ _); [apply blind_hit|exact D].
  Qed.
  Lemma blind_os : blindP (parse_os T).
  Proof.
    apply blind_look; [reflexivity|]. assert (D : blindP (pdefer (plift (eval_os T)) (fun _ => finish flagOSDetect))).
    { apply blind_defer; [apply blind_lift|intros r; apply blind_finish]. }
    intros [e|]; [|exact D]. destruct (check_bit _ _); [apply blind_hit|exact D].
  Qed.
  Lemma blind_ensure f p : blindP p -> blindP (ensure f p).
  Proof. intros H c. unfold ensure. destruct (check_bit _ _); [exact I|]. apply (blind_pbind p); [exact H|intros _; apply blind_ret]. Qed.
  Lemma blind_get_os : blindP (get_os T).
  Proof. apply blind_pbind; [apply blind_ensure, blind_os|intros _; apply blind_lift]. Qed.
  Lemma blind_force idx r : blindP (force_desktop T idx r).
  Proof.
    assert (D : blindP (if idx =? dpNotebook then
      pbind (get_os T) (fun os => if in_list os desktopOS then plift (mmod (set_flag flagDeviceForceDesktop)) else pret tt) else pret tt)).
    { destruct (idx =? dpNotebook); [|apply blind_ret]. apply blind_pbind; [apply blind_get_os|]. intros os.
      destruct (in_list os desktopOS); [apply blind_lift|apply blind_ret]. }
    unfold force_desktop. destruct r as [[n|]|]; [apply blind_ret|exact D|exact D].
  Qed.
  Lemma blind_try l : blindP (device_try T l).
  Proof.
    induction l as [|[[bit idx] def] l IH]; [apply blind_ret|]. cbn [device_try]. apply blind_pbind; [apply blind_lift|]. intros mask.
    destruct (negb _); [|exact IH]. apply blind_pbind.
    - apply blind_defer; [apply blind_lift|intros r; apply blind_force].
    - intros [typ|]; [|exact IH]. apply blind_hit.
  Qed.
  Lemma blind_body : blindP (device_body T).
  Proof. apply blind_pbind; [apply blind_try|]. intros [|]; [apply blind_ret|apply blind_lift]. Qed.
  Lemma blind_device : blindP (parse_device T).
  Proof.
    apply blind_look; [reflexivity|]. assert (D : blindP (pdefer (device_body T) (fun _ => finish flagDeviceDetect))).
    { apply blind_defer; [apply blind_body|intros r; apply blind_finish]. }
    intros [e|]; [|exact D]. destruct (check_bit _ _); [apply blind_hit|exact D].
  Qed.
  Lemma blind_getter g : blindP (run_getter T g).
  Proof.
    assert (C : forall A (m : M A), blindP (pbind (ensure flagClientDetect (parse_client T)) (fun _ => plift m))).
    { intros A m. apply blind_pbind; [apply blind_ensure, blind_client|intros _; apply blind_lift]. }
    assert (O : forall A (m : M A), blindP (pbind (ensure flagOSDetect (parse_os T)) (fun _ => plift m))).
    { intros A m. apply blind_pbind; [apply blind_ensure, blind_os|intros _; apply blind_lift]. }
    assert (D : forall A (m : M A), blindP (pbind (ensure flagDeviceDetect (parse_device T)) (fun _ => plift m))).
    { intros A m. apply blind_pbind; [apply blind_ensure, blind_device|intros _; apply blind_lift]. }
    destruct g; cbn [run_getter]; try (apply blind_pmap); first [apply C|apply O|apply D|apply blind_lift|idtac].
    - intros c. unfold get_browser_version. destruct (v_p _); [exact I|]. apply (blind_pbind (get_browser_version_string T)); [apply C|].
      intros a. apply blind_pbind; [apply blind_lift|intros _; apply blind_lift].
    - intros c. unfold get_engine_version. destruct (v_p _); [exact I|]. apply (blind_pbind (get_engine_version_string T)); [apply C|].
      intros a. apply blind_pbind; [apply blind_lift|intros _; apply blind_lift].
    - intros c. unfold get_os_version. destruct (v_p _); [exact I|]. apply (blind_pbind (get_os_version_string T)); [apply O|].
      intros a. apply blind_pbind; [apply blind_lift|intros _; apply blind_lift].
  Qed.
  Lemma blind_script mC mD l : forall c, blind (script T mC mD l c).
  Proof.
    induction l as [|[ua|h| |g] l IH]; intros c; cbn [script]; try exact I; try apply IH.
    apply blind_bind; [apply blind_getter|]. intros x. apply blind_bind; [apply IH|]. intros rs. exact I.
  Qed.
End Library.

(** ** Critical sections *)
Definition row (m : mem) (p : ptr) : entry := with_stamp (m_body m p) (m_key m p) (m_stamp m p).

(** The memory holds the same cache as a state of Model_Cache.v, under other addresses. *)
Record rel (m : mem) (cs : cstate) : Prop := {
  r_idx : m_idx m = Some (cs_idx cs);
  r_buf : Forall2 (fun p q => row m p = cs_heap cs q) (m_buf m) (cs_buf cs);
  r_inv : Proof_Cache.Inv cs
}.
(** Before init. *)
Definition rel0 (m : mem) (cs : cstate) : Prop := m_idx m = None /\ m_buf m = [] /\ cs = cs_empty.

(** The rest of a critical section, run without interruption; [zs] are the clock readings. *)
Fixpoint exec (c : code) (zs : list Z) (m : mem) : option (code * mem) :=
  match c with
  | Unlock k => Some (k, m)
  | Spawn k => exec k zs (w_tick true m)
  | LdIdx k => exec (k (m_idx m)) zs m
  | StIdx v k => exec k zs (w_idx v m)
  | LdBuf k => exec (k (m_buf m)) zs m
  | StBuf v k => exec k zs (w_buf v m)
  | LdKey p k => exec (k (m_key m p)) zs m
  | StKey p v k => exec k zs (w_key p v m)
  | LdStamp p k => exec (k (m_stamp m p)) zs m
  | StStamp p v k => exec k zs (w_stamp p v m)
  | LdBody p k => exec (k (m_body m p)) zs m
  | StBody p v k => exec k zs (w_body p v m)
  | Now k => match zs with z :: zs' => exec (k z) zs' m | [] => None end
  | _ => None
  end.

(** What a goroutine has left to do at the level of whole calls; [None] is the cleaner. *)
Definition act_ := option (prog (list (res value))).
Inductive cmove : cstate -> act_ -> cstate -> act_ -> Prop :=
| CM_get cs key k now : cmove cs (Some (CGet key k)) (fst (cache_get cs key now))
    (Some (k (option_map (cs_heap (fst (cache_get cs key now))) (snd (cache_get cs key now)))))
| CM_set cs cs' key e k now : cstep cs (OSet key e now) = Ok cs' -> cmove cs (Some (CSet key e k)) cs' (Some k)
| CM_clean cs now : cmove cs None (cache_clean cs now) None.

(** After a critical section. *)
Definition after_get (k : option entry -> prog (list (res value))) (o : option ptr) : code :=
  match o with Some q => LdBody q (fun e => compile_prog (k (Some e))) | None => compile_prog (k None) end.
Inductive Post (m : mem) : code -> act_ -> Prop :=
| Post_at p : blind p -> Post m (compile_prog p) (Some p)
| Post_load q k : (forall o, blind (k o)) ->
    Post m (LdBody q (fun e => compile_prog (k (Some e)))) (Some (k (Some (m_body m q))))
| Post_clean rs : Post m (Done rs) None.
Definition Sect (m : mem) (c : code) (a : act_) (cs : cstate) : Prop :=
  forall zs c' m', exec c zs m = Some (c', m') -> exists cs' a', cmove cs a cs' a' /\ rel m' cs' /\ Post m' c' a'.

Lemma F2_len {A B} (R : A -> B -> Prop) l l' : Forall2 R l l' -> length l = length l'.
Proof. induction 1; cbn; congruence. Qed.
Lemma F2_nth {A B} (R : A -> B -> Prop) l l' : Forall2 R l l' -> forall i q, nth_error l' i = Some q -> exists p, nth_error l i = Some p /\ R p q.
Proof. induction 1; intros [|i] q; cbn; try discriminate; [intros E; injection E as <-; eauto|apply IHForall2]. Qed.
Lemma F2_intro {A B} (R : A -> B -> Prop) l : forall l', length l = length l' ->
  (forall i p q, nth_error l i = Some p -> nth_error l' i = Some q -> R p q) -> Forall2 R l l'.
Proof.
  induction l as [|a l IH]; intros [|b l'] L H; try discriminate; constructor.
  - exact (H 0 a b eq_refl eq_refl).
  - apply IH; [cbn in L; congruence|]. intros i p q. exact (H (S i) p q).
Qed.
Lemma F2_elim {A B} (R : A -> B -> Prop) l l' : Forall2 R l l' -> forall i p q, nth_error l i = Some p -> nth_error l' i = Some q -> R p q.
Proof. induction 1; intros [|i] p q; cbn; try discriminate; [congruence|apply IHForall2]. Qed.
Lemma row_key m p : e_hkey (row m p) = m_key m p.
Proof. reflexivity. Qed.

(** Rows at different places are different. *)
Lemma rel_inj m cs i j p : rel m cs -> nth_error (m_buf m) i = Some p -> nth_error (m_buf m) j = Some p -> i = j.
Proof.
  intros [_ F [B _]] Hi Hj. pose proof (F2_len _ _ _ F) as L.
  assert (X : forall k, nth_error (m_buf m) k = Some p -> exists q, nth_error (cs_buf cs) k = Some q /\ row m p = cs_heap cs q).
  { intros k Hk. pose proof (nth_lt _ _ _ Hk) as Lk. rewrite L in Lk. apply nth_error_Some in Lk.
    destruct (nth_error (cs_buf cs) k) as [q|] eqn:E; [|congruence]. exists q. split; [reflexivity|]. exact (F2_elim _ _ _ F k p q Hk E). }
  destruct (X i Hi) as (q & Hq & Eq), (X j Hj) as (q' & Hq' & Eq'). apply (Bij_inj _ _ _ i j q q' B Hq Hq'). congruence.
Qed.
Lemma cache_inj cs i j q : Proof_Cache.Inv cs -> nth_error (cs_buf cs) i = Some q -> nth_error (cs_buf cs) j = Some q -> i = j.
Proof. intros [B _] Hi Hj. exact (Bij_inj _ _ _ i j q q B Hi Hj eq_refl). Qed.

Lemma sect_get m cs key k : rel m cs -> blind (CGet key k) -> Sect m (get_section (fnv1 key) (after_get k)) (Some (CGet key k)) cs.
Proof.
  intros R [Bk Bo] zs c' m' E. unfold get_section in E. cbn [exec] in E. pose proof R as R0. destruct R as [Ri Rb Rv]. rewrite Ri in E. cbn [map_find] in E.
  pose proof (get_spec cs key) as GS. destruct (cs_idx cs (fnv1 key)) as [i|] eqn:Ei.
  - destruct (proj1 (inv_bij _ Rv (fnv1 key) i) Ei) as (q & Hq & Eq). destruct (F2_nth _ _ _ Rb i q Hq) as (p & Hp & Ep).
    cbn [exec] in E. assert (Lt : (i <? length (m_buf m)) = true) by (apply Nat.ltb_lt; exact (nth_lt _ _ _ Hp)). rewrite Lt in E.
    cbn [exec] in E. destruct zs as [|z zs]; [discriminate|]. rewrite Hp in E. cbn [exec w_stamp m_buf] in E. rewrite Hp in E. cbn [exec] in E.
    injection E as <- <-. specialize (GS z Rv).
    exists (fst (cache_get cs key z)), (Some (k (option_map (cs_heap (fst (cache_get cs key z))) (snd (cache_get cs key z))))).
    split; [constructor|]. revert GS. unfold cache_get. rewrite Ei, Hq. cbn [fst snd option_map]. intros [Iv _].
    assert (Es : forall e hk ts hk' ts', with_stamp (with_stamp e hk ts) hk' ts' = with_stamp e hk' ts') by reflexivity.
    split.
    + constructor; [exact Ri| |exact Iv]. cbn [w_stamp m_buf cs_buf cs_heap]. apply F2_intro; [exact (F2_len _ _ _ Rb)|].
      intros j p' q' Hp' Hq'. destruct (Nat.eq_dec j i) as [->|N].
      * assert (p' = p) by congruence. assert (q' = q) by congruence. subst p' q'. rewrite upd_same, <- Ep. unfold row, w_stamp, upd_at. cbn.
        rewrite Nat.eqb_refl. reflexivity.
      * rewrite upd_other by (intros ->; apply N; exact (cache_inj cs j i q Rv Hq' Hq)).
        rewrite <- (F2_elim _ _ _ Rb j p' q' Hp' Hq'). unfold row, w_stamp, upd_at. cbn.
        destruct (Nat.eqb_spec p' p) as [->|]; [|reflexivity]. destruct (N (rel_inj m cs j i p R0 Hp' Hp)).
    + cbn [after_get cs_heap]. rewrite upd_same, <- Ep. unfold row. rewrite Es, Bk. exact (Post_load (w_stamp p z m) p k Bo).
  - cbn [exec] in E. injection E as <- <-.
    exists (fst (cache_get cs key 0)), (Some (k (option_map (cs_heap (fst (cache_get cs key 0))) (snd (cache_get cs key 0))))).
    split; [constructor|]. unfold cache_get. rewrite Ei. cbn [fst snd option_map]. split; [constructor; assumption|]. apply Post_at, Bo.
Qed.

Lemma sect_set m cs key e k q : rel m cs -> blind k -> ~ In q (m_buf m) -> m_key m q = fnv1 key -> m_body m q = e ->
  Sect m (set_section q (compile_prog k)) (Some (CSet key e k)) cs.
Proof.
  intros [Ri Rb Rv] Bk Nq Kq Bq zs c' m' E. unfold set_section in E. cbn [exec] in E. rewrite Ri, Kq in E. cbn [map_find] in E.
  set (n := cs_next cs). set (heap := upd_ptr (upd_ptr (cs_heap cs) n e) n (with_stamp e (fnv1 key) (m_stamp m q))).
  assert (Hn : row m q = heap n) by (unfold heap; rewrite upd_same; unfold row; rewrite Kq, Bq; reflexivity).
  assert (Ho : forall q', In q' (cs_buf cs) -> heap q' = cs_heap cs q').
  { intros q' Hq. pose proof (inv_ptr _ Rv q' Hq). unfold heap. rewrite !upd_other by (unfold n; lia). reflexivity. }
  destruct (set_fresh cs key e (m_stamp m q) Rv) as (cs' & Es & Iv & _).
  assert (Em : upd_ptr (cs_heap cs) n e n = e) by apply upd_same.
  pose proof (F2_len _ _ _ Rb) as Len.
  destruct (cs_idx cs (fnv1 key)) as [i|] eqn:Ei.
  - destruct (proj1 (inv_bij _ Rv (fnv1 key) i) Ei) as (p0 & Hp0 & _). pose proof (nth_lt _ _ _ Hp0) as Li.
    assert (Lt : (i <? length (m_buf m)) = true) by (apply Nat.ltb_lt; lia).
    assert (Lt' : (i <? length (cs_buf cs)) = true) by (apply Nat.ltb_lt; lia).
    cbn [exec] in E. rewrite Lt in E. cbn [exec] in E. injection E as <- <-.
    assert (Ec : cs' = mkC heap (S n) (cs_idx cs) (store (cs_buf cs) i n)).
    { cbn [cstep alloc cache_set cs_idx cs_buf cs_heap cs_next] in Es. unfold cache_set in Es. cbn [cs_idx cs_buf cs_heap cs_next] in Es.
      fold n in Es. rewrite Ei, Lt', Em in Es. injection Es as <-. reflexivity. }
    exists cs', (Some k). split; [econstructor; exact Es|]. split; [|apply Post_at, Bk]. rewrite Ec in *. constructor; [exact Ri| |exact Iv].
    cbn [w_buf m_buf cs_buf cs_heap]. apply F2_intro; [rewrite !store_len; exact Len|]. intros j p q' Hj Hj'.
    change (row (w_buf (store (m_buf m) i q) m) p) with (row m p). destruct (Nat.eq_dec i j) as [<-|N].
    + rewrite store_nth_same in Hj, Hj' by lia. injection Hj as <-. injection Hj' as <-. exact Hn.
    + rewrite store_nth_other in Hj, Hj' by exact N. rewrite (Ho q' (nth_error_In _ _ Hj')). exact (F2_elim _ _ _ Rb j p q' Hj Hj').
  - cbn [exec w_buf m_buf m_key m_idx] in E. rewrite Ri, Kq in E. cbn [exec] in E. injection E as <- <-.
    assert (Ec : cs' = mkC heap (S n) (map_set (cs_idx cs) (fnv1 key) (length (cs_buf cs ++ [n]) - 1)) (cs_buf cs ++ [n])).
    { cbn [cstep alloc cache_set cs_idx cs_buf cs_heap cs_next] in Es. unfold cache_set in Es. cbn [cs_idx cs_buf cs_heap cs_next] in Es.
      fold n in Es. rewrite Ei, Em in Es. injection Es as <-. reflexivity. }
    exists cs', (Some k). split; [econstructor; exact Es|]. split; [|apply Post_at, Bk]. rewrite Ec in *. constructor; [| |exact Iv].
    + cbn [w_idx m_idx cs_idx]. rewrite !app_length, Len. reflexivity.
    + cbn [w_idx w_buf m_buf cs_buf cs_heap]. apply F2_intro; [rewrite !app_length, Len; reflexivity|]. intros j p q' Hj Hj'.
      match goal with |- row ?x p = _ => change (row x p) with (row m p) end.
      destruct (nth_split _ _ _ _ Hj) as [H1|[-> ->]], (nth_split _ _ _ _ Hj') as [H2|[H2 ->]].
      * rewrite (Ho q' (nth_error_In _ _ H2)). exact (F2_elim _ _ _ Rb j p q' H1 H2).
      * pose proof (nth_lt _ _ _ H1). lia.
      * pose proof (nth_lt _ _ _ H2). lia.
      * exact Hn.
Qed.

Lemma F2_store {A B} (R : A -> B -> Prop) l l' : Forall2 R l l' -> forall i x y, R x y -> Forall2 R (store l i x) (store l' i y).
Proof. induction 1; intros [|i] a b H'; cbn; constructor; auto. Qed.
Lemma F2_firstn {A B} (R : A -> B -> Prop) l l' : Forall2 R l l' -> forall n, Forall2 R (firstn n l) (firstn n l').
Proof. induction 1; intros [|n]; cbn; constructor; auto. Qed.
Lemma F2_option {A B} (R : A -> B -> Prop) l l' : Forall2 R l l' -> forall i,
  (exists p q, nth_error l i = Some p /\ nth_error l' i = Some q /\ R p q) \/ nth_error l i = None /\ nth_error l' i = None.
Proof. induction 1; intros [|i]; cbn; eauto 6. Qed.
Lemma F2_last {A B} (R : A -> B -> Prop) l l' d d' : Forall2 R l l' -> l <> [] -> R (nth (length l - 1) l d) (nth (length l' - 1) l' d').
Proof.
  intros F N. rewrite <- (F2_len _ _ _ F). assert (L : length l - 1 < length l) by (destruct l; [congruence|cbn [length]; lia]).
  assert (L' : length l - 1 < length l') by (rewrite <- (F2_len _ _ _ F); exact L).
  exact (F2_elim _ _ _ F (length l - 1) _ _ (nth_error_nth' _ _ L) (nth_error_nth' _ _ L')).
Qed.

(** One pass of the cleaner. *)
Lemma clean_exec now heap body key stamp : forall fuel i m zs idx bufC, m_body m = body -> m_key m = key -> m_stamp m = stamp ->
  m_idx m = Some idx -> Forall2 (fun p q => with_stamp (body p) (key p) (stamp p) = heap q) (m_buf m) bufC ->
  exists m', exec (clean_section fuel now i) zs m = Some (Done [], m') /\ m_body m' = body /\ m_key m' = key /\ m_stamp m' = stamp /\
    m_idx m' = Some (fst (clean_loop fuel heap now i idx bufC)) /\
    Forall2 (fun p q => with_stamp (body p) (key p) (stamp p) = heap q) (m_buf m') (snd (clean_loop fuel heap now i idx bufC)).
Proof.
  set (R := fun p q => with_stamp (body p) (key p) (stamp p) = heap q).
  induction fuel as [|fuel IH]; intros i m zs idx bufC Mb Mk Ms Mi F.
  - exists m. cbn. auto 10.
  - cbn [clean_section clean_loop exec]. destruct (F2_option _ _ _ F i) as [(p & q & Hp & Hq & Rpq)|[Hp Hq]]; rewrite Hp, Hq.
    2:{ exists m. cbn. auto 10. }
    cbn [exec]. assert (Et : m_stamp m p = e_timestamp (heap q)) by (rewrite <- Rpq, Ms; reflexivity).
    assert (Ek : forall p q, R p q -> key p = e_hkey (heap q)) by (intros p' q' H; rewrite <- H; reflexivity).
    unfold row_expired. rewrite <- Et. destruct (_ <? _)%Z eqn:Ex; [|apply IH; assumption].
    cbn [exec w_buf m_buf m_key m_idx m_stamp m_body]. rewrite Mk. rewrite (Ek _ _ Rpq). set (old := e_hkey (heap q)).
    assert (Nn : m_buf m <> []) by (intros X; rewrite X in Hp; destruct i; discriminate).
    pose proof (F2_len _ _ _ F) as Len. change (@length ptr (m_buf m)) with (@length nat (m_buf m)) in *.
    assert (F' : Forall2 R (firstn (length bufC - 1) (store (m_buf m) i (nth (length bufC - 1) (m_buf m) 0)))
                           (firstn (length bufC - 1) (store bufC i (nth (length bufC - 1) bufC 0)))).
    { apply F2_firstn, F2_store; [exact F|]. pose proof (F2_last _ _ _ 0 0 F Nn) as X. rewrite Len in X. exact X. }
    rewrite Len. set (b1 := firstn (length bufC - 1) (store (m_buf m) i (nth (length bufC - 1) (m_buf m) 0))) in *.
    set (b2 := firstn (length bufC - 1) (store bufC i (nth (length bufC - 1) bufC 0))) in *.
    destruct (F2_option _ _ _ F' i) as [(p2 & q2 & Hp2 & Hq2 & R2)|[Hp2 Hq2]]; rewrite Hp2, Hq2; cbn [exec w_buf w_idx m_buf m_key m_idx m_stamp m_body].
    + rewrite Mi. cbn [exec w_buf w_idx m_buf m_key m_idx m_stamp m_body]. rewrite Mk, (Ek _ _ R2).
      match goal with |- exists m', exec _ _ ?x = _ /\ _ => apply (IH (S i) x) end; cbn [w_buf w_idx m_buf m_key m_idx m_stamp m_body]; auto.
    + rewrite Mi. cbn [exec w_buf w_idx m_buf m_key m_idx m_stamp m_body].
      match goal with |- exists m', exec _ _ ?x = _ /\ _ => apply (IH (S i) x) end; cbn [w_buf w_idx m_buf m_key m_idx m_stamp m_body]; auto.
Qed.
Lemma sect_clean m cs now : rel m cs -> Sect m (LdBuf (fun b => clean_section (length b) now 0)) None cs.
Proof.
  intros [Ri Rb Rv] zs c' m' E. cbn [exec] in E.
  destruct (clean_exec now (cs_heap cs) (m_body m) (m_key m) (m_stamp m) (length (m_buf m)) 0 m zs (cs_idx cs) (cs_buf cs) eq_refl eq_refl eq_refl Ri Rb)
    as (m2 & E2 & Mb & Mk & Ms & Mi & F). rewrite E in E2. injection E2 as -> ->.
  exists (cache_clean cs now), None. split; [constructor|]. split; [|apply Post_clean].
  pose proof (clean_spec cs now Rv) as CS. cbv zeta in CS.
  rewrite (F2_len _ _ _ Rb) in Mi, F. unfold cache_clean in *. destruct (clean_loop (length (cs_buf cs)) (cs_heap cs) now 0 (cs_idx cs) (cs_buf cs)) as [idx buf].
  constructor; [exact Mi| |apply CS]. cbn [cs_buf cs_heap snd] in *. unfold row. rewrite Mb, Mk, Ms. exact F.
Qed.

(** ** The simulation *)
Inductive Pend (m : mem) (own : list ptr) : code -> act_ -> Prop :=
| P_key key q k : In q own -> blind k -> Pend m own (stamp_code key q (compile_prog k)) (Some (CSet key (m_body m q) k))
| P_now key q k : In q own -> blind k -> m_key m q = fnv1 key ->
    Pend m own (Now (fun now => StStamp q now (Lock (set_section q (compile_prog k))))) (Some (CSet key (m_body m q) k))
| P_stamp key q k z : In q own -> blind k -> m_key m q = fnv1 key ->
    Pend m own (StStamp q z (Lock (set_section q (compile_prog k)))) (Some (CSet key (m_body m q) k))
| P_lock key q k : In q own -> blind k -> m_key m q = fnv1 key ->
    Pend m own (Lock (set_section q (compile_prog k))) (Some (CSet key (m_body m q) k))
| P_get key k : blind (CGet key k) -> Pend m own (Lock (get_section (fnv1 key) (after_get k))) (Some (CGet key k))
| P_clean z : Pend m own (Lock (LdBuf (fun b => clean_section (length b) z 0))) None.

Inductive Stage (m : mem) (own : list ptr) : code -> act_ -> Prop :=
| St_post c a : Post m c a -> Stage m own c a
| St_body key q e k : In q own -> blind k -> Stage m own (StBody q e (set_code key q (compile_prog k))) (Some (CSet key e k))
| St_set key q k : In q own -> blind k -> Stage m own (set_code key q (compile_prog k)) (Some (CSet key (m_body m q) k))
| St_now : Stage m own clean_code None
| St_once z : Stage m own (Once (Lock (LdBuf (fun b => clean_section (length b) z 0)))) None
| St_pend c a : m_once m = Finished -> Pend m own c a -> Stage m own c a
| St_init c a : m_once m = Running -> m_idx m = None -> Pend m own c a -> Stage m own (init_code c) a
| St_end c a : m_once m = Running -> m_idx m <> None -> Pend m own c a -> Stage m own (OnceEnd c) a.

Inductive Held (m : mem) (own : list ptr) : code -> act_ -> cstate -> Prop :=
| H_sect c a cs : m_once m = Finished -> m_idx m <> None -> Sect m c a cs -> Held m own c a cs
| H_init1 c a cs : m_once m = Running -> rel0 m cs -> Pend m own c a ->
    Held m own (StIdx (fun _ => None) (Spawn (Unlock (OnceEnd c)))) a cs
| H_init2 c a cs : m_once m = Running -> rel m cs -> Pend m own c a -> Held m own (Spawn (Unlock (OnceEnd c))) a cs
| H_init3 c a cs : m_once m = Running -> rel m cs -> Pend m own c a -> Held m own (Unlock (OnceEnd c)) a cs.

Definition Thr (m : mem) (t : nat) (own : list ptr) (c : code) (a : act_) (cs : cstate) : Prop :=
  if holds m t then Held m own c a cs else Stage m own c a.

(** *** Frames *)
Definition agree (own known : list ptr) (m m2 : mem) : Prop :=
  m_idx m2 = m_idx m /\ m_buf m2 = m_buf m /\
  forall p, In p own \/ In p known \/ In p (m_buf m) -> m_key m2 p = m_key m p /\ m_stamp m2 p = m_stamp m p /\ m_body m2 p = m_body m p.

Lemma exec_agree c : forall ini own known zs m m2 c' m2', ok c true ini own known -> agree own known m m2 -> exec c zs m2 = Some (c', m2') ->
  exists m' own' known', exec c zs m = Some (c', m') /\ agree own' known' m' m2' /\ ok c' false ini own' known'.
Proof.
  induction c; intros ini own known zs m m2 c' m2' O A E; cbn [ok exec] in *; try discriminate; pose proof A as (Ai & Ab & Ap).
  - destruct O as [_ O]. injection E as <- <-. eauto 6.
  - apply (IHc ini own known zs (w_tick true m) (w_tick true m2)); auto.
  - destruct O as [_ O]. rewrite Ai in E. eapply H; [apply O|exact A|exact E].
  - destruct O as [_ O]. apply (IHc ini own known zs (w_idx v m) (w_idx v m2)); auto. split; [reflexivity|]. split; assumption.
  - destruct O as [_ O]. rewrite Ab in E. eapply H; [apply O| |exact E]. split; [exact Ai|]. split; [exact Ab|].
    intros p Hp. apply Ap. rewrite in_app_iff in Hp. tauto.
  - destruct O as (_ & Inc & O). eapply (IHc _ _ _ zs (w_buf v m) (w_buf v m2)); [exact O| |exact E]. split; [exact Ai|]. split; [reflexivity|].
    intros p Hp. cbn [w_buf m_key m_stamp m_body m_buf] in *. apply Ap. rewrite filter_own, in_app_iff in Hp.
    assert (In p v -> In p own \/ In p known) by (intros Hb; apply in_app_iff, Inc, Hb). tauto.
  - destruct O as [Hp O]. rewrite (proj1 (Ap p ltac:(tauto))) in E. eapply H; [apply O|exact A|exact E].
  - destruct O as [Hp O]. eapply (IHc _ _ _ zs (w_key p v m) (w_key p v m2)); [exact O| |exact E]. split; [exact Ai|]. split; [exact Ab|].
    intros q Hq. cbn [w_key m_key m_stamp m_body m_buf] in *. destruct (Ap q Hq) as (E1 & E2 & E3). unfold upd_at. rewrite ?E1, ?E2, ?E3. auto.
  - destruct O as [Hp O]. rewrite (proj1 (proj2 (Ap p ltac:(tauto)))) in E. eapply H; [apply O|exact A|exact E].
  - destruct O as [Hp O]. eapply (IHc _ _ _ zs (w_stamp p v m) (w_stamp p v m2)); [exact O| |exact E]. split; [exact Ai|]. split; [exact Ab|].
    intros q Hq. cbn [w_stamp m_key m_stamp m_body m_buf] in *. destruct (Ap q Hq) as (E1 & E2 & E3). unfold upd_at. rewrite ?E1, ?E2, ?E3. auto.
  - destruct O as [Hp O]. rewrite (proj2 (proj2 (Ap p ltac:(tauto)))) in E. eapply H; [apply O|exact A|exact E].
  - destruct O as [Hp O]. eapply (IHc _ _ _ zs (w_body p v m) (w_body p v m2)); [exact O| |exact E]. split; [exact Ai|]. split; [exact Ab|].
    intros q Hq. cbn [w_body m_key m_stamp m_body m_buf] in *. destruct (Ap q Hq) as (E1 & E2 & E3). unfold upd_at. rewrite ?E1, ?E2, ?E3. auto.
  - destruct zs as [|z zs]; [discriminate|]. eapply H; [apply O|exact A|exact E].
Qed.

Lemma rel_frame m m2 cs : m_idx m2 = m_idx m -> m_buf m2 = m_buf m -> (forall p, In p (m_buf m) -> row m2 p = row m p) -> rel m cs -> rel m2 cs.
Proof.
  intros Ei Eb Er [Ri Rb Rv]. constructor; [congruence| |exact Rv]. rewrite Eb. apply F2_intro; [exact (F2_len _ _ _ Rb)|].
  intros i p q Hp Hq. rewrite (Er p (nth_error_In _ _ Hp)). exact (F2_elim _ _ _ Rb i p q Hp Hq).
Qed.
Lemma row_eq m m2 p : m_key m2 p = m_key m p /\ m_stamp m2 p = m_stamp m p /\ m_body m2 p = m_body m p -> row m2 p = row m p.
Proof. unfold row. intros (-> & -> & ->). reflexivity. Qed.
Lemma post_frame m m2 c a h ini own known : Post m c a -> ok c h ini own known ->
  (forall p, In p own \/ In p known -> m_body m2 p = m_body m p) -> Post m2 c a.
Proof.
  intros [p B|q k B|rs] O H; [apply Post_at, B| |apply Post_clean]. cbn in O. rewrite <- (H q (proj1 O)). exact (Post_load m2 q k B).
Qed.
Lemma sect_frame m m2 c a cs ini own known : Sect m c a cs -> ok c true ini own known -> agree own known m m2 -> Sect m2 c a cs.
Proof.
  intros S O A zs c' m2' E. destruct (exec_agree c _ _ _ _ _ _ _ _ O A E) as (m' & own' & known' & E' & (Ai & Ab & Ap) & O').
  destruct (S zs c' m' E') as (cs' & a' & C & R & P). exists cs', a'. split; [exact C|]. split.
  - apply (rel_frame m'); try assumption. intros p Hp. apply row_eq, Ap. auto.
  - apply (post_frame m' m2' c' a' false ini own' known' P O'). intros p Hp. apply Ap. tauto.
Qed.
Lemma pend_frame m m2 own c a : Pend m own c a -> (forall p, In p own -> m_key m2 p = m_key m p /\ m_body m2 p = m_body m p) -> Pend m2 own c a.
Proof.
  intros P H. destruct P as [key q k I B|key q k I B K|key q k z I B K|key q k I B K|key k B|z]; try (rewrite <- (proj2 (H q I)); constructor; auto;
    rewrite (proj1 (H q I)); exact K); constructor; exact B.
Qed.
Lemma stage_frame m m2 own known ini c a : Stage m own c a -> ok c false ini own known ->
  (forall p, In p own -> m_key m2 p = m_key m p /\ m_body m2 p = m_body m p) -> (forall p, In p known -> m_body m2 p = m_body m p) ->
  (m_idx m <> None -> m_idx m2 <> None) -> (m_once m = Finished -> m_once m2 = Finished) ->
  (m_once m = Running -> ini = true -> m_once m2 = Running /\ m_idx m2 = m_idx m) -> Stage m2 own c a.
Proof.
  intros S O Ho Hk Hi Hf Hr. destruct S as [c a P|key q e k I B|key q k I B| |z|c a F P|c a R N P|c a R N P].
  - apply St_post, (post_frame m m2 c a _ _ _ _ P O). intros p [H|H]; [apply Ho, H|apply Hk, H].
  - apply St_body; assumption.
  - rewrite <- (proj2 (Ho q I)). apply St_set; assumption.
  - apply St_now.
  - apply St_once.
  - apply St_pend; [auto|]. apply (pend_frame m); assumption.
  - cbn in O. destruct (Hr R ltac:(tauto)) as [R' E]. apply St_init; [exact R'|congruence|]. apply (pend_frame m); assumption.
  - cbn in O. destruct (Hr R ltac:(tauto)) as [R' E]. apply St_end; [exact R'|congruence|]. apply (pend_frame m); assumption.
Qed.
Lemma held_frame m m2 own known ini c a cs : Held m own c a cs -> ok c true ini own known -> agree own known m m2 ->
  (m_once m = Finished -> m_once m2 = Finished) -> (m_once m = Running -> ini = true -> m_once m2 = Running) -> Held m2 own c a cs.
Proof.
  intros H O A Hf Hr. pose proof A as (Ai & Ab & Ap).
  assert (Q : forall p, In p own -> m_key m2 p = m_key m p /\ m_body m2 p = m_body m p) by (intros p Hp; destruct (Ap p (or_introl Hp)); tauto).
  assert (Rl : rel m cs -> rel m2 cs) by (apply rel_frame; [assumption..|]; intros p Hp; apply row_eq, Ap; auto).
  destruct H as [c a cs F N S|c a cs R Z P|c a cs R Z P|c a cs R Z P].
  - apply H_sect; [auto|congruence|exact (sect_frame _ _ _ _ _ _ _ _ S O A)].
  - cbn in O. apply H_init1; [apply Hr; tauto| |exact (pend_frame _ _ _ _ _ P Q)]. destruct Z as (Z1 & Z2 & Z3). repeat split; congruence.
  - cbn in O. apply H_init2; [apply Hr; tauto|auto|exact (pend_frame _ _ _ _ _ P Q)].
  - cbn in O. apply H_init3; [apply Hr; tauto|auto|exact (pend_frame _ _ _ _ _ P Q)].
Qed.

(** *** The goroutine that takes the step *)
Lemma sect_step t c m c' m' evs a cs ini own known : act_step t c m c' m' evs -> holds m t = true -> ok c true ini own known -> Sect m c a cs ->
  (c = Unlock c' /\ m' = w_lock None m) \/ Sect m' c' a cs /\ holds m' t = true /\ m_once m' = m_once m.
Proof.
  intros S L O P. destruct S; cbn [ok] in O; try (exfalso; destruct O as [X _]; discriminate X); try (exfalso; exact O); auto.
  all: right; split; [|split; [exact L|reflexivity]].
  all: intros zs c1 m1 E; first [apply (P zs); exact E|apply (P (z :: zs)); exact E].
Qed.
Lemma w_lock_post v m c a : Post m c a -> Post (w_lock v m) c a.
Proof. intros [p B|q k B|rs]; [apply Post_at, B|exact (Post_load (w_lock v m) q k B)|apply Post_clean]. Qed.
Lemma w_lock_pend v m own c a : Pend m own c a -> Pend (w_lock v m) own c a.
Proof. intros P. apply (pend_frame m); auto. Qed.
Lemma w_lock_rel v m cs : rel m cs -> rel (w_lock v m) cs.
Proof. intros [Ri Rb Rv]. constructor; assumption. Qed.

Lemma compile_get key k : compile_prog (CGet key k) = Once (Lock (get_section (fnv1 key) (after_get k))).
Proof. reflexivity. Qed.

Lemma self_step t c m c' m' evs a cs ini own known : act_step t c m c' m' evs -> ok c (holds m t) ini own known ->
  (forall p, In p own -> ~ In p (m_buf m)) -> (m_lock m = None -> rel m cs \/ rel0 m cs) -> (m_once m = Fresh -> m_idx m = None) ->
  (m_once m = Finished -> m_idx m <> None) -> Thr m t own c a cs ->
  exists cs' a', (cs' = cs /\ a' = a \/ cmove cs a cs' a' /\ holds m t = true) /\ Thr m' t (gown c m own) c' a' cs' /\
    (holds m t = true -> m_lock m' = None -> rel m' cs').
Proof.
  intros S O Ob Rf Hz Hf Th. unfold Thr in Th. destruct (holds m t) eqn:L.
  - (* inside a critical section *)
    destruct Th as [c a cs F N P|c a cs R Z P|c a cs R Z P|c a cs R Z P].
    + destruct (sect_step _ _ _ _ _ _ _ _ _ _ _ S L O P) as [[-> ->]|(P' & L' & Oc)].
      * destruct (P [] c' m eq_refl) as (cs' & a' & C & Rl & Po). exists cs', a'. split; [auto|]. split; [|intros _ _; apply w_lock_rel, Rl].
        unfold Thr. cbn [holds w_lock m_lock]. apply St_post, w_lock_post, Po.
      * exists cs, a. split; [auto|]. split.
        -- unfold Thr. rewrite L'. apply H_sect; [congruence| |exact P'].
           clear - S N. destruct S; cbn; auto; congruence.
        -- intros _ E. apply holds_lock in L'. congruence.
    + inversion S; subst. exists cs, a. split; [auto|]. split.
      * unfold Thr. change (holds (w_idx (fun _ => None) m) t) with (holds m t). rewrite L.
        apply H_init2; [exact R| |apply (pend_frame m); [exact P|auto]]. destruct Z as (Zi & Zb & ->). constructor; [reflexivity| |apply Inv_empty].
        cbn [w_idx m_buf]. rewrite Zb. constructor.
      * intros _ E. apply holds_lock in L. cbn in E. congruence.
    + inversion S; subst. exists cs, a. split; [auto|]. split.
      * unfold Thr. change (holds (w_tick true m) t) with (holds m t). rewrite L. apply H_init3; [exact R|destruct Z; constructor; assumption|apply (pend_frame m); [exact P|auto]].
      * intros _ E. apply holds_lock in L. cbn in E. congruence.
    + inversion S; subst. exists cs, a. split; [auto|]. split; [|intros _ _; apply w_lock_rel, Z].
      unfold Thr. cbn [holds w_lock m_lock]. apply St_end; [exact R| |apply w_lock_pend, P]. destruct Z as [Zi _ _]. cbn. congruence.
  - (* outside *)
    exists cs, a. split; [auto|]. split; [|discriminate].
    assert (Rl : m_lock m = None -> m_once m = Finished -> rel m cs).
    { intros E F. destruct (Rf E) as [Rl|(Zi & _)]; [exact Rl|]. destruct (Hf F Zi). }
    assert (Nh : forall v, holds (w_once v m) t = false) by (intros v; exact L).
    assert (Hs : holds (w_lock (Some t) m) t = true) by (cbn; apply Nat.eqb_refl).
    unfold Thr. destruct Th as [c a P|key q e k I B|key q k I B| |z|c a F P|c a R N P|c a R N P].
    + destruct P as [p B|q k B|rs]; [|inversion S; subst; rewrite L; apply St_post, Post_at, B|inversion S].
      destruct p as [rs|key k|key e k]; [inversion S|rewrite compile_get in *|cbn [compile_prog] in *]; inversion S; subst.
      * rewrite Nh. apply St_init; [reflexivity|apply Hz; assumption|]. apply P_get, B.
      * rewrite L. apply St_pend; [assumption|]. apply P_get, B.
      * change (holds (w_next (Datatypes.S (m_next m)) m) t) with (holds m t). rewrite L. apply St_body; [left; reflexivity|exact B].
    + inversion S; subst. change (holds (w_body q e m) t) with (holds m t). rewrite L.
      assert (E : e = m_body (w_body q e m) q) by (cbn; unfold upd_at; rewrite Nat.eqb_refl; reflexivity). rewrite E at 3. apply St_set; assumption.
    + unfold set_code in S. inversion S; subst.
      * rewrite Nh. apply St_init; [reflexivity|apply Hz; assumption|]. exact (P_key (w_once Running m) own key q k I B).
      * rewrite L. apply St_pend; [assumption|]. apply P_key; assumption.
    + unfold clean_code in S. inversion S; subst. rewrite L. apply St_once.
    + inversion S; subst.
      * rewrite Nh. apply St_init; [reflexivity|apply Hz; assumption|]. apply P_clean.
      * rewrite L. apply St_pend; [assumption|]. apply P_clean.
    + destruct P as [key q k I B|key q k I B K|key q k z I B K|key q k I B K|key k B|z]; inversion S; subst.
      * change (holds (w_key q (fnv1 key) m) t) with (holds m t). rewrite L. apply St_pend; [exact F|].
        apply (P_now (w_key q (fnv1 key) m) own key q k I B). cbn. unfold upd_at. rewrite Nat.eqb_refl. reflexivity.
      * rewrite L. apply St_pend; [exact F|]. apply P_stamp; assumption.
      * change (holds (w_stamp q z m) t) with (holds m t). rewrite L. apply St_pend; [exact F|]. exact (P_lock (w_stamp q z m) own key q k I B K).
      * rewrite Hs. apply H_sect; [exact F|exact (Hf F)|]. apply (sect_set (w_lock (Some t) m)); auto. apply w_lock_rel, Rl; assumption.
      * rewrite Hs. apply H_sect; [exact F|exact (Hf F)|]. apply sect_get; [apply w_lock_rel, Rl; assumption|exact B].
      * rewrite Hs. apply H_sect; [exact F|exact (Hf F)|]. apply sect_clean. apply w_lock_rel, Rl; assumption.
    + unfold init_code in S. inversion S; subst. rewrite Hs. apply H_init1; [exact R| |apply w_lock_pend, P].
      match goal with H : m_lock m = None |- _ => destruct (Rf H) as [[Ri _ _]|(Z1 & Z2 & Z3)] end; [congruence|]. repeat split; assumption.
    + inversion S; subst. rewrite Nh. apply St_pend; [reflexivity|]. apply (pend_frame m); auto.
Qed.

(** *** All goroutines *)
Definition act_of (ps : list (prog (list (res value)))) (t : nat) : option act_ :=
  match t with 0 => Some None | S i => option_map Some (nth_error ps i) end.

Lemma effect t c m c' m' evs ini own known : act_step t c m c' m' evs -> ok c (holds m t) ini own known ->
  (forall p, ~ In p own -> m_key m' p = m_key m p /\ m_body m' p = m_body m p) /\
  (forall p, ~ In p own -> holds m t = false -> m_stamp m' p = m_stamp m p) /\
  (holds m t = false -> m_idx m' = m_idx m /\ m_buf m' = m_buf m) /\
  (m_idx m <> None -> m_idx m' <> None) /\ (m_once m = Finished -> m_once m' = Finished) /\
  (m_once m = Running -> ini = false -> m_once m' = Running) /\
  (m_once m' = Fresh -> m_once m = Fresh) /\
  (m_once m' = Finished -> m_once m = Finished \/ c = OnceEnd c' /\ m' = w_once Finished m).
Proof.
  intros S O. destruct S; cbn [ok] in O; cbn; repeat (apply conj); intros; auto; try congruence; try (destruct O as [O1 O2]; congruence).
  all: try (destruct O as [O1 O2]; try congruence).
  all: try (unfold upd_at; match goal with |- context [?a =? ?b] => destruct (Nat.eqb_spec a b) as [->|] end; [|auto]; try tauto).
  all: try (destruct O1 as [O1|[O1 _]]; congruence).
  all: try congruence.
  all: repeat match goal with H : _ /\ _ |- _ => destruct H end; congruence.
Qed.

Lemma cmove_conc cs ps t a cs' a' : act_of ps t = Some a -> cmove cs a cs' a' -> exists ps', conc_step (mkConf cs ps) (mkConf cs' ps') /\
  length ps' = length ps /\ act_of ps' t = Some a' /\ forall u, u <> t -> act_of ps' u = act_of ps u.
Proof.
  intros E C. destruct t as [|i].
  - cbn in E. injection E as <-. inversion C; subst. exists ps. repeat split. constructor.
  - cbn in E. destruct (nth_error ps i) as [p|] eqn:Ei; [|discriminate]. cbn in E. injection E as <-.
    destruct (nth_error_split ps i Ei) as (l1 & l2 & -> & Li).
    assert (X : exists p', a' = Some p' /\ conc_step (mkConf cs (l1 ++ p :: l2)) (mkConf cs' (l1 ++ p' :: l2))).
    { inversion C; subst; eexists; (split; [reflexivity|]); [apply Step_get|eapply Step_set; eassumption]. }
    destruct X as (p' & -> & X). exists (l1 ++ p' :: l2). split; [exact X|]. split; [rewrite !app_length; reflexivity|]. split.
    + cbn. rewrite nth_error_app2 by lia. subst i. rewrite Nat.sub_diag. reflexivity.
    + intros [|j] N; [reflexivity|]. cbn. assert (j <> i) by congruence. destruct (Nat.ltb_spec j (length l1)).
      * rewrite !nth_error_app1 by assumption. reflexivity.
      * rewrite !nth_error_app2 by assumption. destruct (j - length l1) eqn:D; [lia|reflexivity].
Qed.

Record Sim (m : mem) (ts : list code) (cs : cstate) (ps : list (prog (list (res value)))) (ini : nat -> bool) (own known : nat -> list ptr) : Prop := {
  s_inv : Inv m ts ini own known;
  s_thr : forall t c, nth_error ts t = Some c -> exists a, act_of ps t = Some a /\ Thr m t (own t) c a cs;
  s_free : m_lock m = None -> rel m cs \/ rel0 m cs;
  s_fresh : m_once m = Fresh -> m_idx m = None;
  s_done : m_once m = Finished -> m_idx m <> None
}.

Lemma held_once m own c a cs ini known : Held m own c a cs -> ok c true ini own known -> m_once m = Finished \/ ini = true.
Proof. intros [? ? ? F ? ?|c0 ? ? ? ? ?|c0 ? ? ? ? ?|c0 ? ? ? ? ?] O; [auto|right; cbn in O; tauto..]. Qed.

Lemma sim_step m ts cs ps ini own known t c c' m' evs : Sim m ts cs ps ini own known -> nth_error ts t = Some c -> act_step t c m c' m' evs ->
  exists cs' ps', (cs' = cs /\ ps' = ps \/ conc_step (mkConf cs ps) (mkConf cs' ps')) /\ length ps' = length ps /\
    Sim m' (store ts t c') cs' ps' (at_ ini t (gini c m (ini t))) (at_ own t (gown c m (own t))) (at_ known t (gknown c m (known t))).
Proof.
  intros [I Th Rf Hz Hf] Ht S. pose proof (inv_step _ _ _ _ _ _ _ _ _ _ I Ht S) as I'.
  pose proof (i_ok _ _ _ _ _ I t c Ht) as O. destruct (Th t c Ht) as (a & Ea & T).
  assert (Ob : forall p, In p (own t) -> ~ In p (m_buf m)) by (intros p Hp; apply (i_own _ _ _ _ _ I t p Hp)).
  destruct (self_step _ _ _ _ _ _ _ _ _ _ _ S O Ob Rf Hz Hf T) as (cs' & a' & Mv & T' & Rl').
  destruct (effect _ _ _ _ _ _ _ _ _ S O) as (Er & Es & Ei & En & Ef & Eo & Ez & Ed).
  assert (X : exists ps', (cs' = cs /\ ps' = ps \/ conc_step (mkConf cs ps) (mkConf cs' ps')) /\ length ps' = length ps /\
                act_of ps' t = Some a' /\ forall u, u <> t -> act_of ps' u = act_of ps u).
  { destruct Mv as [[-> ->]|[C _]]; [exists ps; auto|]. destruct (cmove_conc _ _ _ _ _ _ Ea C) as (ps' & C' & Y). exists ps'. auto. }
  destruct X as (ps' & C & Lp & At & Au). exists cs', ps'. split; [exact C|]. split; [exact Lp|]. constructor.
  - exact I'.
  - intros u d Hu. destruct (Nat.eq_dec u t) as [->|N].
    + rewrite (store_same _ _ _ _ Ht) in Hu. injection Hu as <-. exists a'. rewrite at_same. auto.
    + rewrite store_other in Hu by congruence. destruct (Th u d Hu) as (b & Eb & Tu). exists b. rewrite Au by exact N. split; [exact Eb|].
      rewrite at_other by exact N. pose proof (i_ok _ _ _ _ _ I u d Hu) as Ou.
      assert (Du : forall p, In p (own u) \/ In p (known u) -> ~ In p (own t)).
      { intros p [Hp|Hp] Hp'; destruct (i_own _ _ _ _ _ I t p Hp') as (_ & _ & X1 & X2); [apply N, X2, Hp|exact (X1 u Hp)]. }
      unfold Thr in Tu |- *. rewrite (step_holds _ _ _ _ _ _ _ S N). destruct (holds m u) eqn:Lu.
      * (* the mutex is held by [u] *)
        assert (Lt : holds m t = false) by (unfold holds in *; destruct (m_lock m) as [h|]; [|discriminate]; apply Nat.eqb_eq in Lu; subst h; apply Nat.eqb_neq; exact N).
        assert (cs' = cs) as -> by (destruct Mv as [[-> _]|[_ X]]; congruence).
        destruct (Ei Lt) as [Ei1 Ei2]. apply (held_frame m m' (own u) (known u) (ini u) d b cs Tu Ou).
        -- split; [exact Ei1|]. split; [exact Ei2|]. intros p Hp. assert (Np : ~ In p (own t)).
           { destruct Hp as [Hp|[Hp|Hp]]; [apply Du; auto..|]. intros Hp'. exact (Ob p Hp' Hp). }
           destruct (Er p Np) as [-> ->]. rewrite (Es p Np Lt). auto.
        -- exact Ef.
        -- intros R Hiu. apply Eo; [exact R|]. destruct (ini t) eqn:Hit; [|reflexivity]. destruct (N (i_ini_one _ _ _ _ _ I u t Hiu Hit)).
      * apply (stage_frame m m' (own u) (known u) (ini u) d b Tu Ou).
        -- intros p Hp. apply Er, Du. auto.
        -- intros p Hp. apply Er, Du. auto.
        -- exact En.
        -- exact Ef.
        -- intros R Hiu. assert (Hit : ini t = false).
           { destruct (ini t) eqn:Hit; [|reflexivity]. destruct (N (i_ini_one _ _ _ _ _ I u t Hiu Hit)). }
           split; [exact (Eo R Hit)|]. destruct (holds m t) eqn:Lt; [|exact (proj1 (Ei eq_refl))]. unfold Thr in T. rewrite Lt in T.
           destruct (held_once _ _ _ _ _ _ _ T O); congruence.
  - intros L'. destruct (holds m t) eqn:Lt; [left; exact (Rl' eq_refl L')|].
    assert (cs' = cs) as -> by (destruct Mv as [[-> _]|[_ X]]; congruence). destruct (Ei eq_refl) as [Ei1 Ei2].
    assert (L : m_lock m = None).
    { destruct (step_lock _ _ _ _ _ _ S) as [E|[(_ & E & E' & _)|(_ & E & E' & _)]]; [congruence|congruence|].
      apply holds_lock in E. congruence. }
    destruct (Rf L) as [R|(Z1 & Z2 & Z3)]; [left|right; repeat split; congruence].
    apply (rel_frame m); [assumption..| |exact R]. intros p Hp. assert (Np : ~ In p (own t)) by (intros Hp'; exact (Ob p Hp' Hp)).
    apply row_eq. destruct (Er p Np) as [-> ->]. rewrite (Es p Np eq_refl). auto.
  - intros F. pose proof (Hz (Ez F)) as E. destruct (holds m t) eqn:Lt; [|destruct (Ei eq_refl); congruence].
    unfold Thr in T. rewrite Lt in T. destruct (held_once _ _ _ _ _ _ _ T O) as [X|X]; [rewrite (Ez F) in X; discriminate|].
    destruct (i_ini _ _ _ _ _ I t X) as [Y _]. rewrite (Ez F) in Y; discriminate.
  - intros F. destruct (Ed F) as [F'|[-> ->]]; [exact (En (Hf F'))|]. cbn.
    unfold Thr in T. cbn in O. destruct O as (Lt & _). rewrite Lt in T. inversion T; subst; try congruence.
    + match goal with P : Post _ _ _ |- _ => inversion P as [p B E1 E2|q k B E1 E2|rs E1 E2] end. destruct p; discriminate.
    + match goal with P : Pend _ _ _ _ |- _ => inversion P end.
Qed.

Lemma sim_tick m ts cs ps ini own known rs : Sim m ts cs ps ini own known -> nth_error ts 0 = Some (Done rs) ->
  Inv m (store ts 0 clean_code) ini own known -> Sim m (store ts 0 clean_code) cs ps ini own known.
Proof.
  intros [I Th Rf Hz Hf] H0 I'. constructor; try assumption. intros u d Hu. destruct (Nat.eq_dec u 0) as [->|N].
  - rewrite (store_same _ _ _ _ H0) in Hu. injection Hu as <-. exists None. split; [reflexivity|].
    pose proof (i_ok _ _ _ _ _ I 0 _ H0) as O. cbn in O. unfold Thr. destruct O as [-> _]. apply St_now.
  - rewrite store_other in Hu by congruence. exact (Th u d Hu).
Qed.

Lemma inv_tick m ts ini own known rs : Inv m ts ini own known -> nth_error ts 0 = Some (Done rs) -> Inv m (store ts 0 clean_code) ini own known.
Proof.
  intros [I1 I2 I3 I4 I5 I6 I7 I8] Ht. constructor; try assumption.
  - intros u d E. destruct (Nat.eq_dec u 0) as [->|N].
    + rewrite (store_same _ _ _ _ Ht) in E. injection E as <-. pose proof (I1 0 _ Ht) as O. cbn in O. destruct O as [-> ->]. apply clean_ok.
    + rewrite store_other in E by congruence. exact (I1 u d E).
  - intros h E. rewrite store_len. exact (I2 h E).
  - intros t E. rewrite store_len. exact (I3 t E).
Qed.

Lemma sim_start ps : (forall p, In p ps -> blind p) -> Sim mem_empty (Done [] :: map compile_prog ps) cs_empty ps (fun _ => false) (fun _ => []) (fun _ => []).
Proof.
  intros B. constructor; cbn.
  - constructor; cbn; try easy. intros [|t] c; cbn; intros E; [injection E as <-; split; reflexivity|].
    apply nth_error_In, in_map_iff in E. destruct E as (p & <- & _). apply compile_ok.
  - intros [|t] c; cbn; intros E.
    + injection E as <-. exists None. split; [reflexivity|]. apply St_post, Post_clean.
    + rewrite nth_error_map in E. destruct (nth_error ps t) as [p|] eqn:Ep; [|discriminate]. cbn in E. injection E as <-.
      exists (Some p). split; [reflexivity|]. apply St_post, Post_at, B, (nth_error_In _ _ Ep).
  - intros _. right. repeat split.
  - reflexivity.
  - discriminate.
Qed.

Lemma sim_run ps s : (forall p, In p ps -> blind p) -> mach_run (mach_start ps) s ->
  exists cs ps' ini own known, conc_run (mkConf cs_empty ps) (mkConf cs ps') /\ length ps' = length ps /\ Sim (k_mem s) (k_threads s) cs ps' ini own known.
Proof.
  intros B R. remember (mach_start ps) as s0 eqn:E0. induction R as [s|s0 s s' R IH S]; subst.
  - exists cs_empty, ps. do 3 eexists. split; [constructor|]. split; [reflexivity|]. apply sim_start, B.
  - destruct (IH eq_refl) as (cs & ps' & ini & own & known & C & L & Q). destruct S as [t c c' m m' ts evs tr Ht St|rs m ts tr Ht Hk]; cbn [k_mem k_threads] in *.
    + destruct (sim_step _ _ _ _ _ _ _ _ _ _ _ _ Q Ht St) as (cs' & ps2 & C' & L' & Q'). exists cs', ps2. do 3 eexists. split; [|split; [congruence|exact Q']].
      destruct C' as [[-> ->]|C']; [exact C|]. exact (Run_step _ _ _ C C').
    + exists cs, ps', ini, own, known. split; [exact C|]. split; [exact L|]. apply (sim_tick _ _ _ _ _ _ _ rs); [exact Q|exact Ht|].
      exact (inv_tick _ _ _ _ _ rs (s_inv _ _ _ _ _ _ _ Q) Ht).
Qed.

(** What a goroutine of a simulated machine can be. *)
Lemma thr_done m t own rs p cs : Thr m t own (Done rs) (Some p) cs -> (exists ini known, ok (Done rs) (holds m t) ini own known) -> p = Ret rs.
Proof.
  intros T (ini & known & O). cbn in O. destruct O as [L _]. unfold Thr in T. rewrite L in T.
  inversion T as [c a P E1 E2| | | | |c a F P E1 E2| |]; subst; [|inversion P].
  remember (Done rs) as d eqn:Ed. remember (Some p) as a eqn:Ea. destruct P as [p' B| |]; [|discriminate..]. injection Ea as <-.
  destruct p' as [rs'| |]; try discriminate. injection Ed as <-. reflexivity.
Qed.
Lemma thr_crash m t own a cs ini known : Thr m t own Crash a cs -> ok Crash (holds m t) ini own known -> False.
Proof.
  intros T O. cbn in O. destruct O as [L _]. unfold Thr in T. rewrite L in T.
  inversion T as [c a' P E1 E2| | | | |c a' F P E1 E2| |]; subst; [|inversion P]. inversion P as [p' B E1 E2| |]. destruct p'; discriminate.
Qed.

Lemma atomic ps s : (forall p, In p ps -> blind p) -> mach_run (mach_start ps) s ->
  exists cf, conc_run (mkConf cs_empty ps) cf /\
    (forall i rs, nth_error (k_threads s) (S i) = Some (Done rs) -> nth_error (cf_threads cf) i = Some (Ret rs)) /\
    (forall t, nth_error (k_threads s) t <> Some Crash).
Proof.
  intros B R. destruct (sim_run ps s B R) as (cs & ps' & ini & own & known & C & L & Q). exists (mkConf cs ps'). split; [exact C|]. split.
  - intros i rs E. destruct (s_thr _ _ _ _ _ _ _ Q _ _ E) as (a & Ea & T). cbn in Ea. cbn [cf_threads].
    destruct (nth_error ps' i) as [p|] eqn:Ei; [|discriminate]. cbn in Ea. injection Ea as <-. f_equal.
    apply (thr_done _ _ _ _ _ _ T). do 2 eexists. exact (i_ok _ _ _ _ _ (s_inv _ _ _ _ _ _ _ Q) _ _ E).
  - intros t E. destruct (s_thr _ _ _ _ _ _ _ Q _ _ E) as (a & Ea & T). exact (thr_crash _ _ _ _ _ _ _ T (i_ok _ _ _ _ _ (s_inv _ _ _ _ _ _ _ Q) _ _ E)).
Qed.

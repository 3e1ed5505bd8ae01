(** Proofs about the number of rows of the cache. *)
From Verif Require Import Model_Base Model_CacheEntry Model_Cache Spec_Cache Spec_Size Proof_Cache.
From Coq Require Import Permutation Lia ZifyBool ZifyNat ZifyN.
Open Scope nat_scope.

(** Key hash and time stamp of each row. *)
Definition stamps_of (st : cstate) : list (N * Z) :=
  map (fun p => (e_hkey (cs_heap st p), e_timestamp (cs_heap st p))) (cs_buf st).

Lemma stamps_fst st : map fst (stamps_of st) = map (fun p => e_hkey (cs_heap st p)) (cs_buf st).
Proof. unfold stamps_of. rewrite map_map. reflexivity. Qed.

Lemma stamps_length st : length (stamps_of st) = length (cs_buf st).
Proof. apply map_length. Qed.

Lemma stamps_nodup_fst st : Inv st -> NoDup (map fst (stamps_of st)).
Proof. intros I. rewrite stamps_fst. exact (proj1 (Inv_rows st I)). Qed.

Lemma nodup_fst {A B} (l : list (A * B)) : NoDup (map fst l) -> NoDup l.
Proof. apply NoDup_map_inv. Qed.

Lemma lookup_key st h e : Inv st -> lookup st h = Some e -> e_hkey e = h.
Proof.
  intros I L. unfold lookup in L. destruct (cs_idx st h) as [i|] eqn:E; [|discriminate L].
  destruct (proj1 (inv_bij st I h i) E) as (p & Hp & K). rewrite Hp in L. congruence.
Qed.

Lemma stamps_in st h t : Inv st ->
  (In (h, t) (stamps_of st) <-> exists e, lookup st h = Some e /\ e_timestamp e = t).
Proof.
  intros I. unfold stamps_of. rewrite in_map_iff. split.
  - intros (p & E & Hp). injection E as Ek Et. apply In_nth_error in Hp as (i & Hi).
    exists (cs_heap st p). split; [|exact Et]. unfold lookup.
    rewrite (proj2 (inv_bij st I h i)) by (exists p; split; [exact Hi|exact Ek]). rewrite Hi. reflexivity.
  - intros (e & L & Et). unfold lookup in L. destruct (cs_idx st h) as [i|] eqn:E; [|discriminate L].
    destruct (proj1 (inv_bij st I h i) E) as (p & Hp & K). rewrite Hp in L.
    exists p. split; [|eapply nth_error_In, Hp]. assert (e = cs_heap st p) by congruence. subst e. congruence.
Qed.

(** Rows whose stamp lies in a range. *)
Definition between (a b : Z) (x : N * Z) : bool := ((a <=? snd x) && (snd x <=? b))%Z.
Definition older (a : Z) (x : N * Z) : bool := (snd x <? a)%Z.
Definition count (f : N * Z -> bool) (st : cstate) : nat := length (filter f (stamps_of st)).

Lemma nodup_filter {A} (f : A -> bool) l : NoDup l -> NoDup (filter f l).
Proof. apply NoDup_filter. Qed.

Lemma count_incl f g s1 s2 : Inv s1 ->
  (forall x, In x (stamps_of s1) -> f x = true -> In x (stamps_of s2) /\ g x = true) -> count f s1 <= count g s2.
Proof.
  intros I H. unfold count. apply NoDup_incl_length.
  - apply nodup_filter, nodup_fst, stamps_nodup_fst, I.
  - intros x Hx. apply filter_In in Hx as [Hx Fx]. apply filter_In. exact (H x Hx Fx).
Qed.

(** The stamps calls of a history give. *)
Definition stamp_ops (h : list cop) : list (N * Z) :=
  flat_map (fun o => match o with OSet k _ t | OSetPtr k _ t | OGet k t => [(fnv1 k, t)] | OClean _ => [] end) h.

Lemma stamp_ops_app a b : stamp_ops (a ++ b) = stamp_ops a ++ stamp_ops b.
Proof. apply flat_map_app. Qed.

Lemma stamp_ops_uses h a b : length (filter (between a b) (stamp_ops h)) = uses h a b.
Proof.
  unfold uses. induction h as [|o h IH]; [reflexivity|].

  destruct o as [k e t|k p t|k t|t]; cbn [stamp_ops flat_map app filter is_use moment andb];
    unfold between at 1; cbn [snd];
    try (destruct ((a <=? t)%Z && (t <=? b)%Z); cbn [length]; [f_equal; exact IH|exact IH]).
Qed.

(** What one operation does to the stamps. *)
Lemma step_stamps st o st' : Inv st -> fresh_op o -> cstep st o = Ok st' ->
  Inv st' /\
  (forall x, In x (stamps_of st') -> In x (stamps_of st) \/ In x (stamp_ops [o])) /\
  (is_use o = true -> forall x, In x (stamps_of st) -> In x (stamps_of st') \/
     exists t, In (fst x, t) (stamps_of st') /\ In (fst x, t) (stamp_ops [o])).
Proof.
  intros I F E. destruct o as [k e now|k p now|k now|now]; [|destruct F| |].
  - destruct (set_fresh st k e now I) as (s & E' & I' & L & O). assert (s = st') by congruence. subst s.
    split; [exact I'|]. split.
    + intros [h t] Hx. apply (stamps_in st' h t I') in Hx as (e1 & L1 & T1).
      destruct (N.eq_dec h (fnv1 k)) as [->|D].
      * right. rewrite L in L1. injection L1 as <-. cbn in T1. subst t. left. reflexivity.
      * left. apply (stamps_in st h t I). exists e1. rewrite <- (O h D). split; assumption.
    + intros _ [h t] Hx. apply (stamps_in st h t I) in Hx as (e1 & L1 & T1).
      destruct (N.eq_dec h (fnv1 k)) as [->|D].
      * right. exists now. split; [|left; reflexivity]. apply (stamps_in st' _ now I').
        exists (with_stamp e (fnv1 k) now). split; [exact L|reflexivity].
      * left. apply (stamps_in st' h t I'). exists e1. rewrite (O h D). split; assumption.
  - cbn in E. pose proof (get_spec st k now I) as G. destruct (cache_get st k now) as [s r] eqn:Eg.
    cbn [fst] in E. assert (s = st') by congruence. subst s. destruct G as [I' G]. split; [exact I'|].
    destruct G as [G O]. destruct (lookup st (fnv1 k)) as [e0|] eqn:L0.
    + destruct G as (p & _ & _ & L). split.
      * intros [h t] Hx. apply (stamps_in st' h t I') in Hx as (e1 & L1 & T1).
        destruct (N.eq_dec h (fnv1 k)) as [->|D].
        -- right. rewrite L in L1. injection L1 as <-. cbn in T1. subst t. left. reflexivity.
        -- left. apply (stamps_in st h t I). exists e1. rewrite <- (O h D). split; assumption.
      * intros _ [h t] Hx. apply (stamps_in st h t I) in Hx as (e1 & L1 & T1).
        destruct (N.eq_dec h (fnv1 k)) as [->|D].
        -- right. exists now. split; [|left; reflexivity]. apply (stamps_in st' _ now I').
           eexists. split; [exact L|reflexivity].
        -- left. apply (stamps_in st' h t I'). exists e1. rewrite (O h D). split; assumption.
    + destruct G as (_ & S). subst st'. split; [auto|]. intros _ x Hx. left. exact Hx.
  - cbn in E. assert (cache_clean st now = st') by congruence. subst st'.
    destruct (clean_spec st now I) as (I' & C & _). split; [exact I'|]. split; [|discriminate].
    intros [h t] Hx. left. apply (stamps_in _ h t I') in Hx as (e1 & L1 & T1).
    apply (stamps_in st h t I). specialize (C h). destruct (lookup st h) as [e0|].
    + exists e0. split; [reflexivity|]. destruct C as [C|[C _]]; rewrite C in L1; congruence.
    + rewrite C in L1. discriminate L1.
Qed.

Lemma step_ok st o : Inv st -> fresh_op o -> exists st', cstep st o = Ok st'.
Proof. intros I F. destruct (step_inv st o I F) as (st' & E & _). eauto. Qed.

Lemma filter_split {A} (f g : A -> bool) l : (forall x, In x l -> f x = true \/ g x = true) ->
  length l <= length (filter f l) + length (filter g l).
Proof.
  induction l as [|x l IH]; intros H; [cbn; lia|].
  assert (IH' := IH (fun y Hy => H y (or_intror Hy))).
  cbn [filter]. destruct (H x (or_introl eq_refl)) as [E|E]; rewrite E; cbn [length].
  - destruct (g x); cbn [length]; lia.
  - destruct (f x); cbn [length]; lia.
Qed.

Lemma filter_le {A} (f g : A -> bool) l : (forall x, In x l -> f x = true -> g x = true) ->
  length (filter f l) <= length (filter g l).
Proof.
  induction l as [|x l IH]; intros H; [cbn; lia|].
  assert (IH' := IH (fun y Hy => H y (or_intror Hy))). pose proof (H x (or_introl eq_refl)) as Hx.
  cbn [filter]. destruct (f x); [rewrite (Hx eq_refl)|destruct (g x)]; cbn [length]; lia.
Qed.

Lemma filter_or {A} (f g k : A -> bool) l : (forall x, In x l -> f x = true -> g x = true \/ k x = true) ->
  length (filter f l) <= length (filter g l) + length (filter k l).
Proof.
  induction l as [|x l IH]; intros H; [cbn; lia|].
  assert (IH' := IH (fun y Hy => H y (or_intror Hy))). pose proof (H x (or_introl eq_refl)) as Hx.
  cbn [filter]. destruct (f x).
  - destruct (Hx eq_refl) as [E|E]; rewrite E; cbn [length]; [destruct (k x)|destruct (g x)]; cbn [length]; lia.
  - destruct (g x), (k x); cbn [length]; lia.
Qed.

(** Calls in a longer period. *)
Lemma uses_long n h : at_most n h -> forall k a b, (b <= a + Z.of_nat k * half_minute)%Z -> 0 < k -> uses h a b <= k * n.
Proof.
  intros M. induction k as [|k IH]; intros a b Hb Hk; [lia|].
  destruct (Nat.eq_dec k 0) as [->|D].
  - rewrite <- (stamp_ops_uses h a b). eapply Nat.le_trans; [|rewrite Nat.mul_1_l; exact (M a)].
    rewrite <- stamp_ops_uses. apply filter_le. intros x _. unfold between. lia.
  - specialize (IH (a + half_minute)%Z b ltac:(nia) ltac:(lia)).
    pose proof (M a) as Ma. rewrite <- stamp_ops_uses in *. eapply Nat.le_trans.
    + apply (filter_or _ (between a (a + half_minute)) (between (a + half_minute) b)).
      intros x _. unfold between. unfold half_minute. lia.
    + cbn [Nat.mul]. lia.
Qed.

Lemma uses_app h1 h2 a b : uses h1 a b <= uses (h1 ++ h2) a b.
Proof. unfold uses. rewrite filter_app, app_length. lia. Qed.

Lemma at_most_app n h1 h2 : at_most n (h1 ++ h2) -> at_most n h1.
Proof. intros M a. eapply Nat.le_trans; [apply uses_app|apply M]. Qed.

(** Rows in a range of stamps against calls in that range. *)
Lemma count_uses st pre a b : Inv st -> (forall x, In x (stamps_of st) -> In x (stamp_ops pre)) ->
  count (between a b) st <= uses pre a b.
Proof.
  intros I J. rewrite <- stamp_ops_uses. unfold count. apply NoDup_incl_length.
  - apply nodup_filter, nodup_fst, stamps_nodup_fst, I.
  - intros x Hx. apply filter_In in Hx as [Hx Fx]. apply filter_In. split; [exact (J x Hx)|exact Fx].
Qed.

Definition in_clock (prev : Z) (st : cstate) : Prop := forall x, In x (stamps_of st) -> (0 <= snd x <= prev)%Z.

Lemma wrap64_id z : (- 2 ^ 63 <= z < 2 ^ 63)%Z -> wrap64 z = z.
Proof.
  intros H. unfold wrap64. change (2 ^ 63)%Z with 9223372036854775808%Z in *.
  rewrite Z.mod_small by lia. lia.
Qed.

Lemma n_expired_count st now : in_clock now st -> (now < 2 ^ 62)%Z -> n_expired st now = count (older (now - hour)) st.
Proof.
  intros C Hn. unfold n_expired, count, stamps_of.
  assert (E : forall p, In p (cs_buf st) ->
    (hour <? wrap64 (now - e_timestamp (cs_heap st p)))%Z =
    older (now - hour) (e_hkey (cs_heap st p), e_timestamp (cs_heap st p))).
  { intros p Hp. assert (B := C (e_hkey (cs_heap st p), e_timestamp (cs_heap st p))
      (in_map (fun p => (e_hkey (cs_heap st p), e_timestamp (cs_heap st p))) _ _ Hp)).
    cbn [snd] in B. unfold older. cbn [snd]. rewrite wrap64_id by lia. lia. }
  clear C. induction (cs_buf st) as [|p l IH]; [reflexivity|].
  cbn [filter map]. rewrite (E p (or_introl eq_refl)).
  destruct (older _ _); cbn [length]; rewrite IH by (intros q Hq; apply E; right; exact Hq); reflexivity.
Qed.

Record level (n : nat) (pre : list cop) (last prev : Z) (st : cstate) : Prop := {
  lv_inv : Inv st;
  lv_ops : forall x, In x (stamps_of st) -> In x (stamp_ops pre);
  lv_clock : in_clock prev st;
  lv_time : (0 <= last <= prev)%Z;
  lv_soon : (prev <= last + half_minute)%Z;
  lv_old : count (older (last - hour)) st <= n
}.

Lemma level_size n pre last prev st : at_most n pre -> level n pre last prev st -> length (cs_buf st) <= 122 * n.
Proof.
  intros M L. rewrite <- stamps_length.
  eapply Nat.le_trans; [apply (filter_split (older (last - hour)) (between (last - hour) prev))|].
  - intros x Hx. pose proof (lv_clock _ _ _ _ _ L x Hx). unfold older, between. lia.
  - pose proof (lv_old _ _ _ _ _ L) as O. unfold count in O.
    assert (U : uses pre (last - hour) prev <= 121 * n).
    { apply (uses_long n pre M 121); [|lia]. pose proof (lv_soon _ _ _ _ _ L).
      unfold hour, half_minute in *. lia. }
    pose proof (count_uses st pre (last - hour) prev (lv_inv _ _ _ _ _ L) (lv_ops _ _ _ _ _ L)) as C.
    unfold count in C. lia.
Qed.

Lemma stamp_moment o x : In x (stamp_ops [o]) -> snd x = moment o /\ is_use o = true.
Proof. destruct o; cbn; intros H; try (destruct H as [<-|[]]; split; reflexivity). destruct H. Qed.

Lemma level_use n pre last prev o st st' : level n pre last prev st -> fresh_op o -> is_use o = true ->
  (prev <= moment o)%Z -> (moment o <= last + half_minute)%Z -> cstep st o = Ok st' ->
  level n (pre ++ [o]) last (moment o) st'.
Proof.
  intros L F U Hp Hs E. destruct L as [I J C T S O].
  destruct (step_stamps st o st' I F E) as (I' & J' & _).
  constructor.
  - exact I'.
  - intros x Hx. rewrite stamp_ops_app, in_app_iff. destruct (J' x Hx) as [H|H]; [left; exact (J x H)|right; exact H].
  - intros x Hx. destruct (J' x Hx) as [H|H].
    + pose proof (C x H). lia.
    + apply stamp_moment in H as [-> _]. lia.
  - lia.
  - exact Hs.
  - eapply Nat.le_trans; [|exact O]. apply count_incl; [exact I'|]. intros x Hx Fx.
    split; [|exact Fx]. destruct (J' x Hx) as [H|H]; [exact H|].
    apply stamp_moment in H as [E' _]. unfold older in Fx. unfold hour in Fx. lia.
Qed.

Lemma level_pass n pre last prev t st : level n pre last prev st -> at_most n pre ->
  (prev <= t)%Z -> (t <= last + half_minute)%Z -> (t < 2 ^ 62)%Z ->
  level n (pre ++ [OClean t]) t t (cache_clean st t).
Proof.
  intros L M Hp Hs Hb. destruct L as [I J C T S O].
  destruct (step_stamps st (OClean t) (cache_clean st t) I Logic.I eq_refl) as (I' & J' & _).
  assert (C' : in_clock t (cache_clean st t)).
  { intros x Hx. destruct (J' x Hx) as [H|[]]. pose proof (C x H). lia. }
  constructor.
  - exact I'.
  - intros x Hx. rewrite stamp_ops_app, in_app_iff. destruct (J' x Hx) as [H|[]]. left. exact (J x H).
  - exact C'.
  - lia.
  - unfold half_minute. lia.
  - pose proof (proj2 (proj2 (clean_spec st t I))) as H.
    assert (C0 : in_clock t st) by (intros x Hx; pose proof (C x Hx); lia).
    rewrite (n_expired_count _ t C' Hb), (n_expired_count _ t C0 Hb) in H.
    assert (count (older (t - hour)) st <= count (older (last - hour)) st + count (between (last - hour) (t - hour)) st).
    { apply filter_or. intros x _. unfold older, between. lia. }
    pose proof (count_uses st pre (last - hour) (t - hour) I J) as U.
    assert (uses pre (last - hour) (t - hour) <= 1 * n).
    { apply (uses_long n pre M 1); lia. }
    lia.
Qed.

Lemma level_run n h : forall pre last prev st st', level n pre last prev st -> at_most n (pre ++ h) ->
  fresh_history h -> regular last prev h -> crun st h = Ok st' -> length (cs_buf st') <= 122 * n.
Proof.
  induction h as [|o h IH]; intros pre last prev st st' L M F R E.
  - cbn in E. assert (st = st') by congruence. subst st'. eapply level_size; [|exact L].
    eapply at_most_app, M.
  - inversion F as [|? ? Fo Fh]; subst. cbn [crun] in E.
    destruct (cstep st o) as [s|] eqn:Es; [cbn [rbind] in E|discriminate E].
    inversion R as [|? ? ? ? U Hp Hs Hb R'|? ? t ? Hp Hs Hb R']; subst.
    + apply (IH (pre ++ [o]) last (moment o) s st'); try assumption.
      * eapply level_use; eassumption.
      * rewrite <- app_assoc. exact M.
    + apply (IH (pre ++ [OClean t]) t t s st'); try assumption.
      * cbn in Es. assert (cache_clean st t = s) by congruence. subst s. eapply level_pass; try eassumption.
        eapply at_most_app, M.
      * rewrite <- app_assoc. exact M.
Qed.

Lemma bounded n start h st : (0 <= start)%Z -> fresh_history h -> regular start start h -> at_most n h ->
  crun cs_empty h = Ok st -> length (cs_buf st) <= 122 * n.
Proof.
  intros Hs F R M E. apply (level_run n h [] start start cs_empty st); try assumption.
  constructor; try (unfold half_minute; cbn; lia).
  - exact Inv_empty.
  - intros x [].
Qed.

(** After the traffic ends the passes empty the cache. *)
Lemma all_expired st now : (forall x, In x (stamps_of st) -> idle_too_long now (snd x)) -> n_expired st now = length (cs_buf st).
Proof.
  unfold n_expired, stamps_of. intros H.
  induction (cs_buf st) as [|p l IH]; [reflexivity|]. cbn [filter map] in *.
  assert (E : (hour <? wrap64 (now - e_timestamp (cs_heap st p)))%Z = true).
  { pose proof (H _ (or_introl eq_refl)) as E. unfold idle_too_long in E. cbn [snd] in E. lia. }
  rewrite E. cbn [length]. f_equal. apply IH. intros x Hx. apply H. right. exact Hx.
Qed.

Lemma drain ts : forall st, Inv st ->
  (forall t x, In t ts -> In x (stamps_of st) -> idle_too_long t (snd x)) -> length (cs_buf st) < 2 ^ length ts ->
  exists st', crun st (map OClean ts) = Ok st' /\ cs_buf st' = [].
Proof.
  induction ts as [|t ts IH]; intros st I H Hl.
  - cbn in *. exists st. split; [reflexivity|]. destruct (cs_buf st); [reflexivity|cbn in Hl; lia].
  - cbn [map crun cstep rbind length Nat.pow] in *.
    destruct (step_stamps st (OClean t) (cache_clean st t) I Logic.I eq_refl) as (I' & J' & _).
    assert (J : forall x, In x (stamps_of (cache_clean st t)) -> In x (stamps_of st)).
    { intros x Hx. destruct (J' x Hx) as [Hx'|[]]. exact Hx'. }
    pose proof (proj2 (proj2 (clean_spec st t I))) as E.
    rewrite (all_expired st t) in E by (intros x Hx; apply H; [left; reflexivity|exact Hx]).
    rewrite (all_expired (cache_clean st t) t) in E by (intros x Hx; apply H; [left; reflexivity|exact (J x Hx)]).
    apply IH; [exact I'| |lia]. intros t' x Ht Hx. apply H; [right; exact Ht|exact (J x Hx)].
Qed.

Lemma run_stamps h : forall pre st st', Inv st -> (forall x, In x (stamps_of st) -> In x (stamp_ops pre)) ->
  fresh_history h -> crun st h = Ok st' ->
  Inv st' /\ forall x, In x (stamps_of st') -> In x (stamp_ops (pre ++ h)).
Proof.
  induction h as [|o h IH]; intros pre st st' I J F E.
  - cbn in E. assert (st = st') by congruence. subst st'. rewrite app_nil_r. split; assumption.
  - inversion F as [|? ? Fo Fh]; subst. cbn [crun] in E.
    destruct (cstep st o) as [s|] eqn:Es; [cbn [rbind] in E|discriminate E].
    destruct (step_stamps st o s I Fo Es) as (I' & J' & _).
    replace (pre ++ o :: h) with ((pre ++ [o]) ++ h) by (rewrite <- app_assoc; reflexivity).
    apply (IH (pre ++ [o]) s st' I'); try assumption.
    intros x Hx. rewrite stamp_ops_app, in_app_iff. destruct (J' x Hx) as [H|H]; [left; exact (J x H)|right; exact H].
Qed.

Lemma stamp_ops_in h x : In x (stamp_ops h) -> exists o, In o h /\ is_use o = true /\ snd x = moment o.
Proof.
  intros H. apply in_flat_map in H as (o & Ho & Hx). exists o. split; [exact Ho|].
  assert (Hx' : In x (stamp_ops [o])) by (cbn; rewrite app_nil_r; exact Hx).
  apply stamp_moment in Hx' as [E U]. split; [exact U|exact E].
Qed.

Lemma drained h ts st : fresh_history h -> crun cs_empty h = Ok st ->
  (forall t o, In t ts -> In o h -> is_use o = true -> idle_too_long t (moment o)) ->
  length (cs_buf st) < 2 ^ length ts ->
  exists st', crun cs_empty (h ++ map OClean ts) = Ok st' /\ cs_buf st' = [].
Proof.
  intros F E H Hl. destruct (run_stamps h [] cs_empty st Inv_empty (fun x (X : In x []) => match X with end) F E) as [I J].
  rewrite crun_app, E. cbn [rbind]. apply drain; [exact I| |exact Hl].
  intros t x Ht Hx. apply J in Hx. apply stamp_ops_in in Hx as (o & Ho & U & ->). apply H; assumption.
Qed.

(** Nothing is dropped within the hour. *)
Lemma keeps_run h : forall pre st st', Inv st ->
  (forall x, In x (stamps_of st) -> In x (stamp_ops pre)) ->
  (forall k, In k (set_hashes pre) <-> In k (map fst (stamps_of st))) ->
  fresh_history h -> within_the_hour (pre ++ h) -> crun st h = Ok st' ->
  Inv st' /\ forall k, In k (set_hashes (pre ++ h)) <-> In k (map fst (stamps_of st')).
Proof.
  induction h as [|o h IH]; intros pre st st' I J K F W E.
  - cbn in E. assert (st = st') by congruence. subst st'. rewrite app_nil_r. split; assumption.
  - inversion F as [|? ? Fo Fh]; subst. cbn [crun] in E.
    destruct (cstep st o) as [s|] eqn:Es; [cbn [rbind] in E|discriminate E].
    destruct (step_stamps st o s I Fo Es) as (I' & J' & _).
    assert (Ew : pre ++ o :: h = (pre ++ [o]) ++ h) by (rewrite <- app_assoc; reflexivity).
    rewrite Ew in *. apply (IH (pre ++ [o]) s st' I'); try assumption.
    + intros x Hx. rewrite stamp_ops_app, in_app_iff. destruct (J' x Hx) as [H|H]; [left; exact (J x H)|right; exact H].
    + intros k. unfold set_hashes in *. rewrite flat_map_app, in_app_iff, K.
      rewrite (stamps_fst st), (stamps_fst s).
      rewrite (proj2 (Inv_rows st I) k), (proj2 (Inv_rows s I') k).
      destruct o as [k0 e now|k0 p now|k0 now|now]; [|destruct Fo| |]; cbn [flat_map app In].
      * destruct (set_fresh st k0 e now I) as (s2 & E2 & _ & L & O). assert (s2 = s) by congruence. subst s2.
        destruct (N.eq_dec (fnv1 k0) k) as [<-|D].
        -- rewrite L. split; [intros _; discriminate|intros _; right; left; reflexivity].
        -- rewrite (O k (not_eq_sym D)). split; [intros [H|[H|[]]]; [exact H|congruence]|intros H; left; exact H].
      * cbn in Es. pose proof (get_spec st k0 now I) as G. destruct (cache_get st k0 now) as [s2 r].
        cbn [fst] in Es. assert (s2 = s) by congruence. subst s2. destruct G as (_ & G & O).
        destruct (N.eq_dec (fnv1 k0) k) as [<-|D].
        -- destruct (lookup st (fnv1 k0)) as [e0|] eqn:L0.
           ++ destruct G as (p & _ & _ & L). rewrite L. split; [intros _; discriminate|intros _; left; discriminate].
           ++ destruct G as [_ ->]. rewrite L0. tauto.
        -- rewrite (O k (not_eq_sym D)). tauto.
      * cbn in Es. assert (cache_clean st now = s) by congruence. subst s.
        destruct (clean_spec st now I) as (_ & C & _). specialize (C k).
        destruct (lookup st k) as [e0|] eqn:L0.
        -- destruct C as [C|[C X]]; [rewrite C; split; [intros _; discriminate|intros _; left; discriminate]|].
           exfalso. assert (Hx : In (k, e_timestamp e0) (stamps_of st)) by (apply (stamps_in st k _ I); eauto).
           apply J in Hx. apply stamp_ops_in in Hx as (o & Ho & U & Eo). cbn [snd] in Eo.
           unfold expired_row in X. rewrite Eo in X. rewrite <- Ew in W. exact (W pre now h o eq_refl Ho U X).
        -- rewrite C. tauto.
Qed.

Lemma kept_all h st : fresh_history h -> within_the_hour h -> crun cs_empty h = Ok st ->
  length (cs_buf st) = length (nodup N.eq_dec (set_hashes h)).
Proof.
  intros F W E.
  destruct (keeps_run h [] cs_empty st Inv_empty (fun x (X : In x []) => match X with end) (fun k => conj (fun x => x) (fun x => x)) F W E) as [I K].
  cbn [app] in K. rewrite <- stamps_length, <- (map_length fst).
  apply Permutation_length, NoDup_Permutation.
  - apply stamps_nodup_fst, I.
  - apply NoDup_nodup.
  - intros k. rewrite nodup_In. symmetry. apply K.
Qed.

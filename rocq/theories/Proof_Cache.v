(** Proofs about cache.go. *)
From Verif Require Import Proof_Base Model_CacheEntry Model_Cache Spec_Cache.

Lemma hour_ttl : cacheTTL = hour. Proof. reflexivity. Qed.

Lemma row_expired_iff heap now p :
  row_expired heap now p = true <-> idle_too_long now (e_timestamp (heap p)).
Proof. unfold row_expired, idle_too_long. rewrite hour_ttl. lia. Qed.

(** store *)
Lemma store_length {A} (l : list A) i x : length (store l i x) = length l.
Proof. revert i; induction l as [|y l IH]; intros [|i]; cbn; try reflexivity. now rewrite IH. Qed.

Lemma store_nth_same {A} (l : list A) i x : i < length l -> nth_error (store l i x) i = Some x.
Proof. revert i; induction l as [|y l IH]; intros [|i] H; cbn in *; try lia; [reflexivity|]. apply IH. lia. Qed.

Lemma store_nth_other {A} (l : list A) i j x : i <> j -> nth_error (store l i x) j = nth_error l j.
Proof.
  revert i j; induction l as [|y l IH]; intros [|i] [|j] H; cbn; try reflexivity; [congruence|].
  apply IH. congruence.
Qed.

Lemma firstn_nth_error {A} (l : list A) n i : nth_error (firstn n l) i = if i <? n then nth_error l i else None.
Proof.
  revert l i; induction n as [|n IH]; intros l i.
  - cbn. destruct i; reflexivity.
  - destruct l as [|x l].
    + cbn [firstn]. destruct (i <? S n); destruct i; reflexivity.
    + destruct i as [|i]; [reflexivity|]. cbn [firstn nth_error]. rewrite IH.
      destruct (Nat.ltb_spec i n), (Nat.ltb_spec (S i) (S n)); try lia; reflexivity.
Qed.

Lemma upd_same h p e : upd_ptr h p e p = e.
Proof. unfold upd_ptr. now rewrite Nat.eqb_refl. Qed.
Lemma upd_other h p e q : q <> p -> upd_ptr h p e q = h q.
Proof. unfold upd_ptr. intros H. apply Nat.eqb_neq in H. now rewrite H. Qed.

(** Representation invariant. *)
Definition Bij (heap : ptr -> entry) (idx : N -> option nat) (buf : list ptr) : Prop :=
  forall h i, idx h = Some i <-> exists p, nth_error buf i = Some p /\ e_hkey (heap p) = h.

Record Inv (st : cstate) : Prop := {
  inv_bij : Bij (cs_heap st) (cs_idx st) (cs_buf st);
  inv_ptr : forall p, In p (cs_buf st) -> p < cs_next st
}.

Lemma Inv_empty : Inv cs_empty.
Proof.
  split.
  - intros h i. cbn. split; [congruence|]. intros (p & H & _). destruct i; discriminate.
  - intros p [].
Qed.

Lemma Bij_inj heap idx buf i j p q :
  Bij heap idx buf -> nth_error buf i = Some p -> nth_error buf j = Some q -> e_hkey (heap p) = e_hkey (heap q) -> i = j.
Proof.
  intros B Hi Hj E.
  assert (H1 : idx (e_hkey (heap p)) = Some i) by (apply B; eauto).
  assert (H2 : idx (e_hkey (heap p)) = Some j) by (apply B; exists q; split; [exact Hj|congruence]).
  congruence.
Qed.

Lemma Bij_heap heap heap' idx buf :
  (forall p, In p buf -> e_hkey (heap' p) = e_hkey (heap p)) -> Bij heap idx buf -> Bij heap' idx buf.
Proof.
  intros H B h i. rewrite (B h i). split; intros (p & Hp & E); exists p; (split; [exact Hp|]);
    pose proof (H p (nth_error_In _ _ Hp)); congruence.
Qed.

(** Set of a fresh row. *)
Lemma set_fresh st k e now :
  Inv st ->
  exists st', cstep st (OSet k e now) = Ok st' /\ Inv st' /\
    lookup st' (fnv1 k) = Some (with_stamp e (fnv1 k) now) /\
    (forall h, h <> fnv1 k -> lookup st' h = lookup st h).
Proof.
  intros [B P]. cbn [cstep alloc]. unfold cache_set. cbn [cs_heap cs_next cs_idx cs_buf].
  rewrite upd_same.
  set (hk := fnv1 k). set (n := cs_next st).
  set (heap := upd_ptr (upd_ptr (cs_heap st) n e) n (with_stamp e hk now)).
  assert (Hn : heap n = with_stamp e hk now) by apply upd_same.
  assert (Ho : forall q, q <> n -> heap q = cs_heap st q).
  { intros q Hq. unfold heap. rewrite !upd_other by exact Hq. reflexivity. }
  assert (Hb : forall q, In q (cs_buf st) -> heap q = cs_heap st q).
  { intros q Hq. apply Ho. apply P in Hq. unfold n. lia. }
  destruct (cs_idx st hk) as [i|] eqn:Ei.
  - destruct (proj1 (B hk i) Ei) as (p & Hp & Ep).
    assert (Hlt : i < length (cs_buf st)) by (apply nth_error_Some; congruence).
    apply Nat.ltb_lt in Hlt as Hltb. rewrite Hltb.
    eexists. split; [reflexivity|].
    assert (Bij' : Bij heap (cs_idx st) (store (cs_buf st) i n)).
    { intros h j. destruct (Nat.eq_dec i j) as [<-|Hij].
      - rewrite store_nth_same by exact Hlt. rewrite (B h i). split.
        + intros (q & Hq & Eq). exists n. split; [reflexivity|]. rewrite Hn. cbn. congruence.
        + intros (q & [= <-] & Eq). rewrite Hn in Eq. cbn in Eq. exists p. split; [exact Hp|congruence].
      - rewrite store_nth_other by exact Hij. rewrite (B h j).
        split; intros (q & Hq & Eq); exists q; (split; [exact Hq|]);
          pose proof (Hb q (nth_error_In _ _ Hq)); congruence. }
    split; [|split].
    + split; cbn [cs_heap cs_next cs_idx cs_buf].
      * exact Bij'.
      * intros q Hq. apply In_nth_error in Hq as (j & Hj).
        destruct (Nat.eq_dec i j) as [<-|Hij].
        -- rewrite store_nth_same in Hj by exact Hlt. injection Hj as <-. unfold n. lia.
        -- rewrite store_nth_other in Hj by exact Hij. apply nth_error_In, P in Hj. unfold n in *. lia.
    + unfold lookup. cbn [cs_heap cs_idx cs_buf]. rewrite Ei, store_nth_same by exact Hlt. f_equal. exact Hn.
    + intros h Hh. unfold lookup. cbn [cs_heap cs_idx cs_buf].
      destruct (cs_idx st h) as [j|] eqn:Ej; [|reflexivity].
      assert (Hij : i <> j).
      { intros <-. destruct (proj1 (B h i) Ej) as (q & Hq & Eq). congruence. }
      rewrite store_nth_other by exact Hij.
      destruct (nth_error (cs_buf st) j) as [q|] eqn:Eq; [|reflexivity].
      f_equal. apply Hb. eapply nth_error_In, Eq.
  - eexists. split; [reflexivity|]. rewrite app_length, Nat.add_sub.
    assert (Bij' : Bij heap (map_set (cs_idx st) hk (length (cs_buf st))) (cs_buf st ++ [n])).
    { intros h j. unfold map_set. destruct (N.eqb_spec h hk) as [->|Hh].
      - split.
        + intros [= <-]. exists n. split; [|rewrite Hn; reflexivity].
          rewrite nth_error_app2, Nat.sub_diag by lia. reflexivity.
        + intros (q & Hq & Eq). destruct (Nat.lt_ge_cases j (length (cs_buf st))) as [Hj|Hj].
          * rewrite nth_error_app1 in Hq by exact Hj.
            rewrite (Hb q (nth_error_In _ _ Hq)) in Eq.
            assert (cs_idx st hk = Some j) by (apply B; eauto). congruence.
          * rewrite nth_error_app2 in Hq by exact Hj.
            destruct (j - length (cs_buf st)) as [|d] eqn:Ed; [f_equal; lia|destruct d; discriminate].
      - rewrite (B h j). split.
        + intros (q & Hq & Eq). exists q. rewrite nth_error_app1 by (apply nth_error_Some; congruence).
          split; [exact Hq|]. rewrite (Hb q (nth_error_In _ _ Hq)). exact Eq.
        + intros (q & Hq & Eq). destruct (Nat.lt_ge_cases j (length (cs_buf st))) as [Hj|Hj].
          * rewrite nth_error_app1 in Hq by exact Hj. exists q. split; [exact Hq|].
            rewrite <- (Hb q (nth_error_In _ _ Hq)). exact Eq.
          * rewrite nth_error_app2 in Hq by exact Hj.
            destruct (j - length (cs_buf st)) as [|d]; [|destruct d; discriminate].
            injection Hq as <-. rewrite Hn in Eq. cbn in Eq. congruence. }
    split; [|split].
    + split; cbn [cs_heap cs_next cs_idx cs_buf].
      * exact Bij'.
      * intros q Hq. apply in_app_or in Hq as [Hq|[<-|[]]]; [apply P in Hq; unfold n; lia|unfold n; lia].
    + unfold lookup. cbn [cs_heap cs_idx cs_buf]. unfold map_set at 1. rewrite N.eqb_refl.
      rewrite nth_error_app2, Nat.sub_diag by lia. cbn. f_equal. exact Hn.
    + intros h Hh. unfold lookup. cbn [cs_heap cs_idx cs_buf]. unfold map_set at 1.
      apply N.eqb_neq in Hh. rewrite Hh.
      destruct (cs_idx st h) as [j|] eqn:Ej; [|reflexivity].
      destruct (proj1 (B h j) Ej) as (q & Hq & Eq).
      rewrite nth_error_app1 by (apply nth_error_Some; congruence). rewrite Hq.
      f_equal. apply Hb. eapply nth_error_In, Hq.
Qed.

(** Get. *)
Lemma get_spec st k now :
  Inv st ->
  let '(st', r) := cache_get st k now in
  Inv st' /\
  match lookup st (fnv1 k) with
  | Some e => exists p, r = Some p /\ cs_heap st' p = with_stamp e (fnv1 k) now /\
                        lookup st' (fnv1 k) = Some (with_stamp e (fnv1 k) now)
  | None => r = None /\ st' = st
  end /\
  (forall h, h <> fnv1 k -> lookup st' h = lookup st h).
Proof.
  intros [B P]. unfold cache_get, lookup. set (hk := fnv1 k).
  destruct (cs_idx st hk) as [i|] eqn:Ei.
  - destruct (proj1 (B hk i) Ei) as (p & Hp & Ep). rewrite Hp.
    set (heap := upd_ptr (cs_heap st) p (with_stamp (cs_heap st p) (e_hkey (cs_heap st p)) now)).
    assert (Hk : forall q, e_hkey (heap q) = e_hkey (cs_heap st q)).
    { intros q. unfold heap. destruct (Nat.eq_dec q p) as [->|Hq].
      - rewrite upd_same. reflexivity.
      - rewrite upd_other by exact Hq. reflexivity. }
    split; [|split].
    + split; cbn [cs_heap cs_next cs_idx cs_buf]; [|exact P].
      eapply Bij_heap; [|exact B]. intros q _. apply Hk.
    + exists p. split; [reflexivity|]. cbn [cs_heap cs_idx cs_buf]. rewrite Ei, Hp.
      unfold heap. rewrite upd_same, Ep. split; reflexivity.
    + intros h Hh. cbn [cs_heap cs_idx cs_buf].
      destruct (cs_idx st h) as [j|] eqn:Ej; [|reflexivity].
      destruct (proj1 (B h j) Ej) as (q & Hq & Eq). rewrite Hq. f_equal.
      unfold heap. apply upd_other. intros ->. congruence.
  - split; [split; assumption|]. split; [split; reflexivity|]. reflexivity.
Qed.

(** Cleaning: relation between the state before and after a loop. *)
Definition look (heap : ptr -> entry) (idx : N -> option nat) (buf : list ptr) (h : N) : option ptr :=
  match idx h with Some i => nth_error buf i | None => None end.

Lemma Bij_look heap idx buf h p :
  Bij heap idx buf -> (look heap idx buf h = Some p <-> In p buf /\ e_hkey (heap p) = h).
Proof.
  intros B. unfold look. split.
  - destruct (idx h) as [i|] eqn:E; [|congruence]. intros Hp.
    destruct (proj1 (B h i) E) as (q & Hq & Eq). split; [eapply nth_error_In, Hp|congruence].
  - intros [Hi E]. apply In_nth_error in Hi as (i & Hi).
    assert (idx h = Some i) as -> by (apply B; eauto). exact Hi.
Qed.

(** One removal: swap with the last, shrink, re-index. *)
Definition remove_at (heap : ptr -> entry) (i : nat) (p : ptr) (idx : N -> option nat) (buf : list ptr)
  : (N -> option nat) * list ptr :=
  let l := length buf in
  let buf' := firstn (l - 1) (store buf i (nth (l - 1) buf 0)) in
  let idx' := match nth_error buf' i with Some q => map_set idx (e_hkey (heap q)) i | None => idx end in
  (map_del idx' (e_hkey (heap p)), buf').

Lemma remove_at_nth buf i j :
  i < length buf ->
  nth_error (firstn (length buf - 1) (store buf i (nth (length buf - 1) buf 0))) j =
  if j <? length buf - 1 then if j =? i then nth_error buf (length buf - 1) else nth_error buf j else None.
Proof.
  intros Hi. rewrite firstn_nth_error. destruct (Nat.ltb_spec j (length buf - 1)) as [Hj|Hj]; [|reflexivity].
  destruct (Nat.eqb_spec j i) as [Eji|Hji]; [subst j|].
  - rewrite store_nth_same by exact Hi. symmetry. apply nth_error_nth'. lia.
  - apply store_nth_other. congruence.
Qed.

Lemma remove_at_bij heap i p idx buf :
  Bij heap idx buf -> nth_error buf i = Some p ->
  let '(idx', buf') := remove_at heap i p idx buf in
  Bij heap idx' buf' /\ (forall q, In q buf' <-> In q buf /\ q <> p) /\ length buf' = length buf - 1.
Proof.
  intros B Hp. unfold remove_at.
  assert (Hi : i < length buf) by (apply nth_error_Some; congruence).
  set (l := length buf) in *.
  set (buf' := firstn (l - 1) (store buf i (nth (l - 1) buf 0))).
  assert (Nth : forall j, nth_error buf' j = if j <? l - 1 then if j =? i then nth_error buf (l - 1) else nth_error buf j else None)
    by (intros j; apply remove_at_nth; exact Hi).
  destruct (nth_error buf (l - 1)) as [z|] eqn:Hz; [|apply nth_error_None in Hz; lia].
  assert (In' : forall q, In q buf' <-> In q buf /\ q <> p).
  { intros q. split.
    - intros Hq. apply In_nth_error in Hq as (j & Hj). rewrite Nth in Hj.
      destruct (Nat.ltb_spec j (l - 1)) as [Hjl|]; [|discriminate].
      destruct (Nat.eqb_spec j i) as [Eji|Hji]; [subst j|].
      + injection Hj as <-. split; [eapply nth_error_In, Hz|]. intros ->.
        assert (i = l - 1) by (eapply Bij_inj; [exact B|exact Hp|exact Hz|reflexivity]). lia.
      + split; [eapply nth_error_In, Hj|]. intros ->. apply Hji.
        eapply Bij_inj; [exact B|exact Hj|exact Hp|reflexivity].
    - intros [Hq Hne]. apply In_nth_error in Hq as (j & Hj).
      assert (Hjl : j < l) by (apply nth_error_Some; congruence).
      destruct (Nat.eq_dec j (l - 1)) as [->|Hjn].
      + assert (z = q) by congruence. subst z.
        assert (i <> l - 1) by (intros ->; congruence).
        apply (nth_error_In buf' i). rewrite Nth, Nat.eqb_refl.
        destruct (Nat.ltb_spec i (l - 1)); [reflexivity|lia].
      + apply (nth_error_In buf' j). rewrite Nth.
        destruct (Nat.ltb_spec j (l - 1)); [|lia].
        destruct (Nat.eqb_spec j i) as [Eji|]; [subst j; congruence|exact Hj]. }
  assert (Len : length buf' = l - 1).
  { unfold buf'. rewrite firstn_length, store_length. fold l. lia. }
  split; [|split; [exact In'|exact Len]].
  intros h j. unfold map_del.
  destruct (N.eqb_spec h (e_hkey (heap p))) as [->|Hh].
  { split; [congruence|]. intros (q & Hq & Eq). exfalso.
    apply nth_error_In in Hq. apply In' in Hq as [Hq Hne]. apply Hne.
    apply In_nth_error in Hq as (j' & Hj').
    assert (i = j') by (eapply Bij_inj; [exact B|exact Hp|exact Hj'|congruence]). congruence. }
  pose proof (Nth i) as Hi'. rewrite Nat.eqb_refl in Hi'.
  destruct (Nat.ltb_spec i (l - 1)) as [Hil|Hil]; rewrite Hi'.
  - unfold map_set. destruct (N.eqb_spec h (e_hkey (heap z))) as [->|Hhz].
    + split.
      * intros [= <-]. exists z. split; [exact Hi'|reflexivity].
      * intros (q & Hq & Eq). f_equal. rewrite Nth in Hq.
        destruct (Nat.ltb_spec j (l - 1)) as [Hjl|]; [|discriminate].
        destruct (Nat.eqb_spec j i) as [Eji|Hji]; [congruence|].
        assert (j = l - 1) by (eapply Bij_inj; [exact B|exact Hq|exact Hz|congruence]). lia.
    + rewrite (B h j). split.
      * intros (q & Hq & Eq). exists q. split; [|exact Eq]. rewrite Nth.
        assert (Hjl : j < l) by (apply nth_error_Some; congruence).
        assert (j <> l - 1) by (intros ->; congruence).
        destruct (Nat.ltb_spec j (l - 1)); [|lia].
        destruct (Nat.eqb_spec j i) as [Eji|]; [subst j; congruence|exact Hq].
      * intros (q & Hq & Eq). rewrite Nth in Hq.
        destruct (Nat.ltb_spec j (l - 1)) as [Hjl|]; [|discriminate].
        destruct (Nat.eqb_spec j i) as [Eji|Hji]; [subst j; congruence|]. eauto.
  - assert (i = l - 1) by lia. rewrite (B h j). split.
    + intros (q & Hq & Eq). exists q. split; [|exact Eq]. rewrite Nth.
      assert (Hjl : j < l) by (apply nth_error_Some; congruence).
      assert (j <> l - 1) by (intros ->; congruence).
      destruct (Nat.ltb_spec j (l - 1)); [|lia].
      destruct (Nat.eqb_spec j i); [lia|exact Hq].
    + intros (q & Hq & Eq). rewrite Nth in Hq.
      destruct (Nat.ltb_spec j (l - 1)) as [Hjl|]; [|discriminate].
      destruct (Nat.eqb_spec j i) as [Eji|Hji]; [subst j; lia|]. eauto.
Qed.

Lemma clean_loop_unfold fuel heap now i idx buf :
  clean_loop (S fuel) heap now i idx buf =
  match nth_error buf i with
  | None => (idx, buf)
  | Some p => if row_expired heap now p
              then clean_loop fuel heap now (S i) (fst (remove_at heap i p idx buf)) (snd (remove_at heap i p idx buf))
              else clean_loop fuel heap now (S i) idx buf
  end.
Proof. reflexivity. Qed.

Lemma clean_loop_spec fuel : forall heap now i idx buf,
  Bij heap idx buf ->
  let '(idx', buf') := clean_loop fuel heap now i idx buf in
  Bij heap idx' buf' /\
  (forall q, In q buf' -> In q buf) /\
  (forall q, In q buf -> row_expired heap now q = false -> In q buf').
Proof.
  induction fuel as [|fuel IH]; intros heap now i idx buf B; [cbn; tauto|].
  rewrite clean_loop_unfold. destruct (nth_error buf i) as [p|] eqn:Hp; [|tauto].
  destruct (row_expired heap now p) eqn:Ex.
  - pose proof (remove_at_bij heap i p idx buf B Hp) as R.
    destruct (remove_at heap i p idx buf) as [idx1 buf1]. destruct R as (B1 & In1 & _). cbn [fst snd].
    specialize (IH heap now (S i) idx1 buf1 B1).
    destruct (clean_loop fuel heap now (S i) idx1 buf1) as [idx2 buf2].
    destruct IH as (B2 & H1 & H2). split; [exact B2|]. split.
    + intros q Hq. apply H1, In1 in Hq. tauto.
    + intros q Hq Hne. apply H2; [|exact Hne]. apply In1. split; [exact Hq|]. intros ->. congruence.
  - apply IH. exact B.
Qed.

(** Counting: after [fuel] iterations from [i], at least half of the expired rows at positions >= i are gone. *)
Definition nexp (heap : ptr -> entry) (now : Z) (l : list ptr) : nat := length (filter (row_expired heap now) l).

Lemma nexp_app heap now a b : nexp heap now (a ++ b) = nexp heap now a + nexp heap now b.
Proof. unfold nexp. rewrite filter_app, app_length. reflexivity. Qed.

Lemma store_app {A} (a : list A) x b y : store (a ++ x :: b) (length a) y = a ++ y :: b.
Proof. induction a as [|z a IH]; cbn; [reflexivity|]. now rewrite IH. Qed.

Lemma remove_at_buf heap a p idx b :
  snd (remove_at heap (length a) p idx (a ++ p :: b)) =
  match rev b with [] => a | z :: r => a ++ z :: rev r end.
Proof.
  unfold remove_at. cbn [snd]. rewrite store_app.
  destruct (rev b) as [|z r] eqn:Eb.
  - assert (b = []) by (rewrite <- (rev_involutive b), Eb; reflexivity). subst b.
    rewrite app_length. cbn [length]. replace (length a + 1 - 1) with (length a) by lia.
    rewrite firstn_app, firstn_all, Nat.sub_diag. cbn. apply app_nil_r.
  - assert (b = rev r ++ [z]) by (rewrite <- (rev_involutive b), Eb; reflexivity). subst b.
    assert (E : nth (length (a ++ p :: rev r ++ [z]) - 1) (a ++ p :: rev r ++ [z]) 0 = z).
    { change (a ++ p :: rev r ++ [z]) with (a ++ (p :: rev r) ++ [z]). rewrite app_assoc.
      rewrite app_length. cbn [length]. rewrite Nat.add_sub.
      rewrite app_nth2, Nat.sub_diag by lia. reflexivity. }
    rewrite E. clear E.
    rewrite !app_length. cbn [length]. rewrite app_length. cbn [length].
    replace (length a + S (length (rev r) + 1) - 1) with (length a + S (length (rev r))) by lia.
    rewrite firstn_app_2. cbn [firstn]. f_equal. f_equal.
    rewrite firstn_app, firstn_all, Nat.sub_diag. cbn. apply app_nil_r.
Qed.

Lemma nexp_one heap now x : nexp heap now [x] <= 1.
Proof. unfold nexp. cbn. destruct (row_expired heap now x); cbn; lia. Qed.

Lemma nexp_cons heap now x l : nexp heap now (x :: l) = nexp heap now [x] + nexp heap now l.
Proof. apply (nexp_app heap now [x] l). Qed.

(** [k]: number of expired rows that were skipped plus those removed. *)
Lemma clean_loop_half fuel : forall heap now a b idx,
  length b <= fuel ->
  let '(_, buf') := clean_loop fuel heap now (length a) idx (a ++ b) in
  2 * nexp heap now buf' <= 2 * nexp heap now a + nexp heap now b.
Proof.
  induction fuel as [|fuel IH]; intros heap now a b idx Hf.
  - destruct b; [|cbn in Hf; lia]. cbn. rewrite app_nil_r. lia.
  - rewrite clean_loop_unfold. destruct b as [|p b].
    + rewrite app_nil_r. assert (nth_error a (length a) = None) as -> by (apply nth_error_None; lia). cbv iota beta. lia.
    + rewrite nth_error_app2, Nat.sub_diag by lia. cbn [nth_error]. cbn in Hf.
      destruct (row_expired heap now p) eqn:Ex.
      * rewrite remove_at_buf. rewrite (nexp_cons heap now p b).
        assert (Ep : nexp heap now [p] = 1) by (unfold nexp; cbn; rewrite Ex; reflexivity). rewrite Ep.
        destruct (rev b) as [|z r] eqn:Eb.
        -- set (idx1 := fst _). pose proof (IH heap now a [] idx1) as IH'. cbn [length] in IH'.
           rewrite app_nil_r in IH'.
           destruct fuel as [|fuel]; cbn [clean_loop].
           { lia. }
           assert (nth_error a (S (length a)) = None) as -> by (apply nth_error_None; lia). cbv iota beta. lia.
        -- assert (b = rev r ++ [z]) by (rewrite <- (rev_involutive b), Eb; reflexivity). subst b.
           rewrite app_length, rev_length in Hf. cbn in Hf.
           set (idx1 := fst _).
           replace (a ++ z :: rev r) with ((a ++ [z]) ++ rev r) by (rewrite <- app_assoc; reflexivity).
           replace (S (length a)) with (length (a ++ [z])) by (rewrite app_length; cbn; lia).
           specialize (IH heap now (a ++ [z]) (rev r) idx1). rewrite rev_length in IH.
           destruct (clean_loop fuel heap now (length (a ++ [z])) idx1 ((a ++ [z]) ++ rev r)) as [i2 b2].
           assert (2 * nexp heap now b2 <= 2 * nexp heap now (a ++ [z]) + nexp heap now (rev r)) by (apply IH; lia).
           rewrite nexp_app in *. pose proof (nexp_one heap now z). lia.
      * replace (a ++ p :: b) with ((a ++ [p]) ++ b) by (rewrite <- app_assoc; reflexivity).
        replace (S (length a)) with (length (a ++ [p])) by (rewrite app_length; cbn; lia).
        specialize (IH heap now (a ++ [p]) b idx).
        destruct (clean_loop fuel heap now (length (a ++ [p])) idx ((a ++ [p]) ++ b)) as [i2 b2].
        assert (2 * nexp heap now b2 <= 2 * nexp heap now (a ++ [p]) + nexp heap now b) by (apply IH; lia).
        rewrite (nexp_cons heap now p b). rewrite nexp_app in H.
        assert (Ep : nexp heap now [p] = 0) by (unfold nexp; cbn; rewrite Ex; reflexivity). lia.
Qed.

Lemma clean_spec st now :
  Inv st ->
  Inv (cache_clean st now) /\
  (forall h, match lookup st h with
             | Some e => lookup (cache_clean st now) h = Some e \/
                         (lookup (cache_clean st now) h = None /\ expired_row now e)
             | None => lookup (cache_clean st now) h = None
             end) /\
  2 * n_expired (cache_clean st now) now <= n_expired st now.
Proof.
  intros [B P]. unfold cache_clean.
  pose proof (clean_loop_spec (length (cs_buf st)) (cs_heap st) now 0 (cs_idx st) (cs_buf st) B) as S.
  pose proof (clean_loop_half (length (cs_buf st)) (cs_heap st) now [] (cs_buf st) (cs_idx st) (le_n _)) as H.
  cbn [length app] in H.
  destruct (clean_loop (length (cs_buf st)) (cs_heap st) now 0 (cs_idx st) (cs_buf st)) as [idx' buf'].
  destruct S as (B' & S1 & S2). split; [|split].
  - split; cbn [cs_heap cs_next cs_idx cs_buf]; [exact B'|]. intros p Hp. apply P, S1, Hp.
  - intros h. unfold lookup. cbn [cs_heap cs_idx cs_buf].
    assert (L : forall idx buf, match idx h with Some i => match nth_error buf i with Some p => Some (cs_heap st p) | None => None end | None => None end
                  = match look (cs_heap st) idx buf h with Some p => Some (cs_heap st p) | None => None end).
    { intros idx buf. unfold look. destruct (idx h) as [i|]; [|reflexivity]. destruct (nth_error buf i); reflexivity. }
    rewrite !L.
    destruct (look (cs_heap st) (cs_idx st) (cs_buf st) h) as [p|] eqn:E.
    + pose proof (proj1 (Bij_look _ _ _ h p B) E) as [Hp Eh].
      destruct (row_expired (cs_heap st) now p) eqn:Ex.
      * destruct (look (cs_heap st) idx' buf' h) as [q|] eqn:E'.
        -- left. pose proof (proj1 (Bij_look _ _ _ h q B') E') as [Hq Eq]. f_equal.
           assert (look (cs_heap st) (cs_idx st) (cs_buf st) h = Some q) by (apply Bij_look; auto). congruence.
        -- right. split; [reflexivity|]. apply row_expired_iff. exact Ex.
      * left. assert (look (cs_heap st) idx' buf' h = Some p) as ->; [|reflexivity].
        apply Bij_look; [exact B'|]. auto.
    + destruct (look (cs_heap st) idx' buf' h) as [q|] eqn:E'; [|reflexivity].
      pose proof (proj1 (Bij_look _ _ _ h q B') E') as [Hq Eq].
      assert (look (cs_heap st) (cs_idx st) (cs_buf st) h = Some q) by (apply Bij_look; auto). congruence.
  - unfold n_expired. cbn [cs_heap cs_buf]. change (2 * nexp (cs_heap st) now buf' <= nexp (cs_heap st) now (cs_buf st)).
    change (nexp (cs_heap st) now []) with 0 in H. lia.
Qed.

(** Runs. *)
Lemma crun_app st h1 h2 : crun st (h1 ++ h2) = rbind (crun st h1) (fun st' => crun st' h2).
Proof.
  revert st; induction h1 as [|o h1 IH]; intros st; cbn; [reflexivity|].
  destruct (cstep st o); cbn; [apply IH|reflexivity].
Qed.

Lemma step_inv st o : Inv st -> fresh_op o -> exists st', cstep st o = Ok st' /\ Inv st'.
Proof.
  intros I F. destruct o as [k e now|k p now|k now|now]; [| destruct F | |].
  - destruct (set_fresh st k e now I) as (st' & E & I' & _). eauto.
  - cbn. pose proof (get_spec st k now I) as G. destruct (cache_get st k now) as [st' r].
    exists st'. split; [reflexivity|]. tauto.
  - cbn. eexists. split; [reflexivity|]. apply clean_spec. exact I.
Qed.

Lemma run_inv h : forall st, Inv st -> fresh_history h -> exists st', crun st h = Ok st' /\ Inv st'.
Proof.
  induction h as [|o h IH]; intros st I F; [cbn; eauto|].
  inversion F; subst. destruct (step_inv st o I) as (st' & E & I'); [assumption|].
  cbn. rewrite E. cbn. apply IH; assumption.
Qed.

Lemma run_reach h st : crun cs_empty h = Ok st -> fresh_history h -> Inv st.
Proof.
  intros E F. destruct (run_inv h cs_empty Inv_empty F) as (st' & E' & I). congruence.
Qed.

Lemma same_contents_stamp e hk now : same_contents (with_stamp e hk now) e.
Proof. reflexivity. Qed.

Lemma same_contents_trans a b c : same_contents a b -> same_contents b c -> same_contents a c.
Proof. unfold same_contents. congruence. Qed.

Lemma kept_lookup hk h : forall t st e,
  Inv st -> lookup st hk = Some e -> e_timestamp e = t -> Kept hk t h ->
  exists st' e', crun st h = Ok st' /\ Inv st' /\ lookup st' hk = Some e' /\ same_contents e' e.
Proof.
  induction h as [|o h IH]; intros t st e I L T K.
  - exists st, e. exact (conj eq_refl (conj I (conj L eq_refl))).
  - inversion K; subst; cbn [crun].
    + destruct (set_fresh st k e0 now I) as (st' & E & I' & _ & Lo).
      rewrite E. cbn [rbind]. apply (IH (e_timestamp e) st' e I'); [|reflexivity|assumption].
      rewrite Lo by congruence. exact L.
    + cbn [cstep]. pose proof (get_spec st k now I) as G. destruct (cache_get st k now) as [st' r].
      destruct G as (I' & _ & Lo). cbn [rbind fst].
      apply (IH (e_timestamp e) st' e I'); [|reflexivity|assumption]. rewrite Lo by congruence. exact L.
    + cbn [cstep]. pose proof (get_spec st k now I) as G. destruct (cache_get st k now) as [st' r].
      destruct G as (I' & G & _). rewrite L in G. destruct G as (p & _ & _ & L').
      cbn [rbind fst].
      destruct (IH now st' (with_stamp e (fnv1 k) now) I' L' eq_refl) as (st2 & e2 & E2 & I2 & L2 & S2); [assumption|].
      exists st2, e2. exact (conj E2 (conj I2 (conj L2 S2))).
    + cbn [cstep rbind]. destruct (clean_spec st now I) as (I' & C & _).
      specialize (C hk). rewrite L in C. destruct C as [C|[_ C]].
      * eapply IH; [exact I'|exact C|reflexivity|assumption].
      * exfalso. match goal with H : ~ idle_too_long _ _ |- _ => apply H end. exact C.
Qed.

Lemma get_after_set pre k e now h now' st st' :
  fresh_history pre -> Kept (fnv1 k) now h ->
  crun cs_empty (pre ++ OSet k e now :: h) = Ok st -> cache_get st k now' = st' ->
  exists p, snd st' = Some p /\ same_contents (cs_heap (fst st') p) e.
Proof.
  intros F K R G. subst st'.
  rewrite crun_app in R. destruct (run_inv pre cs_empty Inv_empty F) as (s1 & E1 & I1).
  rewrite E1 in R. cbn [rbind crun] in R.
  destruct (set_fresh s1 k e now I1) as (s2 & E2 & I2 & L2 & _). rewrite E2 in R. cbn [rbind] in R.
  destruct (kept_lookup (fnv1 k) h now s2 _ I2 L2 eq_refl K) as (s3 & e3 & E3 & I3 & L3 & S3).
  assert (s3 = st) by congruence. subst s3.
  pose proof (get_spec st k now' I3) as G. destruct (cache_get st k now') as [s4 r].
  destruct G as (_ & G & _). rewrite L3 in G. destruct G as (p & -> & Hp & _).
  exists p. cbn [fst snd]. split; [reflexivity|]. rewrite Hp. unfold same_contents in *. exact S3.
Qed.

Lemma run_after_set pre k e now h :
  fresh_history pre -> Kept (fnv1 k) now h -> exists st, crun cs_empty (pre ++ OSet k e now :: h) = Ok st.
Proof.
  intros F K. rewrite crun_app. destruct (run_inv pre cs_empty Inv_empty F) as (s1 & E1 & I1).
  rewrite E1. cbn [rbind crun].
  destruct (set_fresh s1 k e now I1) as (s2 & E2 & I2 & L2 & _). rewrite E2. cbn [rbind].
  destruct (kept_lookup (fnv1 k) h now s2 _ I2 L2 eq_refl K) as (s3 & e3 & E3 & _). eauto.
Qed.

Lemma never_set_lookup hk h : forall st st',
  Inv st -> lookup st hk = None -> fresh_history h -> never_set hk h -> crun st h = Ok st' -> lookup st' hk = None.
Proof.
  induction h as [|o h IH]; intros st st' I L F Nv R.
  - cbn in R. congruence.
  - inversion F; subst. inversion Nv; subst. cbn [crun] in R.
    destruct o as [k e now|k p now|k now|now]; [| contradiction | |].
    + destruct (set_fresh st k e now I) as (s & E & I' & _ & Lo). rewrite E in R. cbn [rbind] in R.
      eapply IH; [exact I'| | | |exact R]; try assumption. rewrite Lo by congruence. exact L.
    + cbn [cstep] in R. pose proof (get_spec st k now I) as G. destruct (cache_get st k now) as [s r].
      destruct G as (I' & G & Lo). cbn [rbind fst] in R.
      eapply IH; [exact I'| | | |exact R]; try assumption.
      destruct (N.eq_dec hk (fnv1 k)) as [->|Hn]; [|rewrite Lo by exact Hn; exact L].
      rewrite L in G. destruct G as [_ ->]. exact L.
    + cbn [cstep rbind] in R. destruct (clean_spec st now I) as (I' & C & _).
      eapply IH; [exact I'| | | |exact R]; try assumption. specialize (C hk). rewrite L in C. exact C.
Qed.

Lemma never_set_not_found h st k now :
  fresh_history h -> never_set (fnv1 k) h -> crun cs_empty h = Ok st -> snd (cache_get st k now) = None.
Proof.
  intros F Nv R.
  assert (L : lookup st (fnv1 k) = None) by (eapply (never_set_lookup _ h cs_empty); eauto using Inv_empty; reflexivity).
  pose proof (get_spec st k now (run_reach h st R F)) as G. destruct (cache_get st k now) as [s r].
  rewrite L in G. cbn. tauto.
Qed.

(** Repeated cleaning. *)
Lemma clean_halves h st now :
  fresh_history h -> crun cs_empty h = Ok st -> 2 * n_expired (cache_clean st now) now <= n_expired st now.
Proof. intros F R. apply clean_spec. eapply run_reach; eassumption. Qed.

Fixpoint cleans (n : nat) (st : cstate) (now : Z) : cstate :=
  match n with 0 => st | S n' => cleans n' (cache_clean st now) now end.

Lemma cleans_all n : forall st now, Inv st -> n_expired st now < 2 ^ n -> n_expired (cleans n st now) now = 0.
Proof.
  induction n as [|n IH]; intros st now I H; cbn [cleans].
  - cbn in H. lia.
  - destruct (clean_spec st now I) as (I' & _ & Hh). apply IH; [exact I'|].
    cbn [Nat.pow] in H. lia.
Qed.

(** Rows and keys. *)
Lemma Inv_rows st : Inv st ->
  NoDup (map (fun p => e_hkey (cs_heap st p)) (cs_buf st)) /\
  forall h, In h (map (fun p => e_hkey (cs_heap st p)) (cs_buf st)) <-> lookup st h <> None.
Proof.
  intros [B P]. split.
  - apply NoDup_nth_error. intros i j Hi E.
    rewrite map_length in Hi.
    rewrite !nth_error_map in E.
    destruct (nth_error (cs_buf st) i) as [p|] eqn:Ep; [|apply nth_error_None in Ep; lia].
    destruct (nth_error (cs_buf st) j) as [q|] eqn:Eq; [|discriminate].
    cbn in E. injection E as E. eapply Bij_inj; eassumption.
  - intros h. rewrite in_map_iff. unfold lookup. split.
    + intros (p & <- & Hp). apply In_nth_error in Hp as (i & Hi).
      assert (cs_idx st (e_hkey (cs_heap st p)) = Some i) as -> by (apply B; eauto). rewrite Hi. congruence.
    + destruct (cs_idx st h) as [i|] eqn:E; [|congruence].
      destruct (proj1 (B h i) E) as (p & Hp & Ep). intros _. exists p. split; [exact Ep|]. eapply nth_error_In, Hp.
Qed.

Lemma fresh_run_rows h : fresh_history h ->
  exists st, crun cs_empty h = Ok st /\
    NoDup (map (fun p => e_hkey (cs_heap st p)) (cs_buf st)) /\
    (forall hk, In hk (map (fun p => e_hkey (cs_heap st p)) (cs_buf st)) <-> lookup st hk <> None) /\
    (forall hk e, lookup st hk = Some e -> e_hkey e = hk).
Proof.
  intros F. destruct (run_inv h cs_empty Inv_empty F) as (st & E & I).
  exists st. split; [exact E|]. destruct (Inv_rows st I) as [R1 R2]. split; [exact R1|]. split; [exact R2|].
  intros hk e L. unfold lookup in L. destruct (cs_idx st hk) as [i|] eqn:Ei; [|congruence].
  destruct I as [B _]. destruct (proj1 (B hk i) Ei) as (p & Hp & Ep). rewrite Hp in L. congruence.
Qed.

(** Rows stored several times, but always under their own key. *)
From Coq Require Import Lia.
From Verif Require Import Model_Base Model_CacheEntry Model_Cache Spec_Cache Spec_OneKey Proof_Base Proof_Cache.

(** ** The cache as a list of values *)
Definition rows (st : cstate) : list entry := map (cs_heap st) (cs_buf st).
Definition vbij (idx : N -> option nat) (rs : list entry) : Prop := forall h i, idx h = Some i <-> exists e, nth_error rs i = Some e /\ e_hkey e = h.
Lemma vbij_of st : Inv st -> vbij (cs_idx st) (rows st).
Proof.
  intros [B _] h i. rewrite (B h i). unfold rows. split.
  - intros (p & N & E). exists (cs_heap st p). split; [rewrite nth_error_map, N; reflexivity|exact E].
  - intros (e & N & E). rewrite nth_error_map in N. destruct (nth_error (cs_buf st) i) as [p|]; [|discriminate N]. injection N as <-. eauto.
Qed.

Lemma map_store {A B} (f : A -> B) l : forall i x, map f (store l i x) = store (map f l) i (f x).
Proof. induction l as [|y l IH]; intros [|i] x; cbn; [reflexivity|reflexivity|reflexivity|f_equal; apply IH]. Qed.
Lemma map_upd_other heap p e l : ~ In p l -> map (upd_ptr heap p e) l = map heap l.
Proof. intros N. apply map_ext_in. intros q Q. apply upd_other. intros ->. contradiction. Qed.
Lemma upd_rows heap p e l : forall i, (forall j, nth_error l j = Some p -> j = i) -> map (upd_ptr heap p e) (store l i p) = store (map heap l) i e.
Proof.
  induction l as [|y l IH]; intros i U; [destruct i; reflexivity|]. destruct i as [|i]; cbn.
  - rewrite upd_same. f_equal. apply map_upd_other. intros I. apply In_nth_error in I. destruct I as [j J]. discriminate (U (S j) J).
  - rewrite (upd_other heap p e y); [|intros ->; discriminate (U 0 eq_refl)]. f_equal. apply IH. intros j J. specialize (U (S j) J). lia.
Qed.
Lemma store_same {A} (l : list A) : forall i x, nth_error l i = Some x -> store l i x = l.
Proof. induction l as [|y l IH]; intros [|i] x H; try discriminate; cbn in *; [injection H as ->; reflexivity|f_equal; apply IH; exact H]. Qed.

(** ** The operations on values *)
Definition v_set (idx : N -> option nat) (rs : list entry) (e : entry) (hk : N) (now : Z) : option ((N -> option nat) * list entry) :=
  match idx hk with
  | Some i => if i <? length rs then Some (idx, store rs i (with_stamp e hk now)) else None
  | None => Some (map_set idx hk (length rs), rs ++ [with_stamp e hk now])
  end.
Definition v_get (idx : N -> option nat) (rs : list entry) (hk : N) (now : Z) : list entry :=
  match idx hk with
  | Some i => match nth_error rs i with Some e => store rs i (with_stamp e (e_hkey e) now) | None => rs end
  | None => rs
  end.
Definition v_expired (now : Z) (e : entry) : bool := (cacheTTL <? wrap64 (now - e_timestamp e))%Z.
Fixpoint v_loop (fuel : nat) (now : Z) (i : nat) (idx : N -> option nat) (rs : list entry) : (N -> option nat) * list entry :=
  match fuel with
  | 0 => (idx, rs)
  | S fuel' =>
      match nth_error rs i with
      | None => (idx, rs)
      | Some e =>
          if v_expired now e then
            let rs' := firstn (length rs - 1) (store rs i (nth (length rs - 1) rs entry_zero)) in
            let idx' := match nth_error rs' i with Some q => map_set idx (e_hkey q) i | None => idx end in
            v_loop fuel' now (S i) (map_del idx' (e_hkey e)) rs'
          else v_loop fuel' now (S i) idx rs
      end
  end.

Lemma loop_values heap now fuel : forall i idx buf,
  let '(idx', buf') := clean_loop fuel heap now i idx buf in v_loop fuel now i idx (map heap buf) = (idx', map heap buf').
Proof.
  induction fuel as [|fuel IH]; intros i idx buf; [reflexivity|]. cbn [clean_loop v_loop]. rewrite nth_error_map.
  destruct (nth_error buf i) as [p|] eqn:P; [|reflexivity]. cbn [option_map]. unfold row_expired, v_expired.
  destruct (cacheTTL <? wrap64 (now - e_timestamp (heap p)))%Z eqn:X; [|exact (IH (S i) idx buf)]. cbv zeta.
  assert (L : 0 < length buf) by (destruct buf; [destruct i; discriminate P|cbn; lia]).
  assert (E : firstn (length (map heap buf) - 1) (store (map heap buf) i (nth (length (map heap buf) - 1) (map heap buf) entry_zero)) =
              map heap (firstn (length buf - 1) (store buf i (nth (length buf - 1) buf 0)))).
  { rewrite map_length, <- firstn_map, map_store. rewrite (nth_indep _ entry_zero (heap 0)) by (rewrite map_length; lia). rewrite map_nth. reflexivity. }
  rewrite E. rewrite nth_error_map.
  specialize (IH (S i) (map_del (match nth_error (firstn (length buf - 1) (store buf i (nth (length buf - 1) buf 0))) i with Some q => map_set idx (e_hkey (heap q)) i | None => idx end) (e_hkey (heap p)))
    (firstn (length buf - 1) (store buf i (nth (length buf - 1) buf 0)))).
  destruct (nth_error (firstn _ _) i) as [q|]; exact IH.
Qed.
Lemma clean_values st now : v_loop (length (rows st)) now 0 (cs_idx st) (rows st) = (cs_idx (cache_clean st now), rows (cache_clean st now)).
Proof.
  unfold cache_clean, rows. rewrite map_length. pose proof (loop_values (cs_heap st) now (length (cs_buf st)) 0 (cs_idx st) (cs_buf st)) as H.
  destruct (clean_loop _ _ _ _ _ _) as [idx buf]. exact H.
Qed.
Lemma get_values st k now : vbij (cs_idx st) (rows st) ->
  v_get (cs_idx st) (rows st) (fnv1 k) now = rows (fst (cache_get st k now)) /\ cs_idx (fst (cache_get st k now)) = cs_idx st.
Proof.
  intros B. unfold v_get, cache_get. destruct (cs_idx st (fnv1 k)) as [i|] eqn:I; [|split; reflexivity]. unfold rows in *. rewrite nth_error_map.
  destruct (nth_error (cs_buf st) i) as [p|] eqn:P; [|split; reflexivity]. cbn [option_map fst cs_heap cs_buf cs_idx]. split; [|reflexivity].
  rewrite <- (store_same (cs_buf st) i p P) at 2. symmetry. apply upd_rows. intros j J.
  assert (K : cs_idx st (e_hkey (cs_heap st p)) = Some j) by (apply B; exists (cs_heap st p); split; [rewrite nth_error_map, J; reflexivity|reflexivity]).
  assert (K' : cs_idx st (e_hkey (cs_heap st p)) = Some i) by (apply B; exists (cs_heap st p); split; [rewrite nth_error_map, P; reflexivity|reflexivity]).
  congruence.
Qed.
(** A row that is in the list only where its key points. *)
Lemma set_values st k p now : (forall j, nth_error (cs_buf st) j = Some p -> cs_idx st (fnv1 k) = Some j) ->
  match cache_set st k p now with
  | Ok st' => v_set (cs_idx st) (rows st) (cs_heap st p) (fnv1 k) now = Some (cs_idx st', rows st') /\ cs_next st' = cs_next st /\
      cs_heap st' = upd_ptr (cs_heap st) p (with_stamp (cs_heap st p) (fnv1 k) now) /\ (forall q, In q (cs_buf st') -> q = p \/ In q (cs_buf st))
  | Panic => v_set (cs_idx st) (rows st) (cs_heap st p) (fnv1 k) now = None
  end.
Proof.
  intros U. unfold cache_set, v_set, rows. cbv zeta. rewrite map_length. destruct (cs_idx st (fnv1 k)) as [i|] eqn:I.
  - destruct (Nat.ltb_spec i (length (cs_buf st))) as [L|L]; [|reflexivity]. cbn [cs_idx cs_heap cs_buf cs_next]. split; [|split; [reflexivity|split; [reflexivity|]]].
    + f_equal. f_equal. symmetry. apply upd_rows. intros j J. specialize (U j J). congruence.
    + intros q Q. apply In_nth_error in Q. destruct Q as [j J]. destruct (Nat.eq_dec i j) as [<-|D].
      * rewrite store_nth_same in J by exact L. injection J as <-. left. reflexivity.
      * rewrite store_nth_other in J by exact D. right. exact (nth_error_In _ _ J).
  - cbn [cs_idx cs_heap cs_buf cs_next]. rewrite app_length, map_app. cbn [length map]. rewrite upd_same. replace (length (cs_buf st) + 1 - 1) with (length (cs_buf st)) by lia.
    split; [|split; [reflexivity|split; [reflexivity|]]].
    + rewrite map_upd_other; [reflexivity|]. intros Q. apply In_nth_error in Q. destruct Q as [j J]. discriminate (U j J).
    + intros q Q. apply in_app_iff in Q. destruct Q as [Q|[<-|[]]]; auto.
Qed.

(** ** Two runs side by side *)
Record sim (rs : list (bytes * entry)) (st st' : cstate) : Prop := {
  sim_inv : Inv st';
  sim_idx : cs_idx st = cs_idx st';
  sim_rows : rows st = rows st';
  sim_next : cs_next st = length rs;
  sim_ptr : forall p, In p (cs_buf st) -> p < cs_next st;
  sim_home : forall p k e, nth_error rs p = Some (k, e) -> e_hkey (cs_heap st p) = fnv1 k /\ same_contents (cs_heap st p) e
}.
Lemma stamp_contents a b hk now : same_contents a b -> with_stamp a hk now = with_stamp b hk now.
Proof. unfold same_contents, with_stamp. intros H. injection H. intros. f_equal; assumption. Qed.

Lemma sim_pos rs st st' p k' e hk j : sim rs st st' -> nth_error rs p = Some (k', e) -> fnv1 k' = hk -> nth_error (cs_buf st) j = Some p -> cs_idx st hk = Some j.
Proof.
  intros S H E J. destruct S as [I EI ER _ _ HO]. rewrite EI. apply (vbij_of st' I). rewrite <- ER. exists (cs_heap st p). unfold rows.
  rewrite nth_error_map, J. split; [reflexivity|]. destruct (HO p k' e H) as [HK _]. congruence.
Qed.
Lemma fresh_pos st e : (forall p, In p (cs_buf st) -> p < cs_next st) -> forall hk j, nth_error (cs_buf (fst (alloc st e))) j = Some (cs_next st) -> cs_idx (fst (alloc st e)) hk = Some j.
Proof. intros P hk j J. cbn in J. pose proof (P _ (nth_error_In _ _ J)). lia. Qed.
Lemma alloc_rows st e : (forall p, In p (cs_buf st) -> p < cs_next st) -> rows (fst (alloc st e)) = rows st.
Proof. intros P. unfold rows. cbn. apply map_upd_other. intros I. pose proof (P _ I). lia. Qed.

Lemma sim_set rs st st' k p now k' e' : Inv st' -> cs_idx st = cs_idx st' -> rows st = rows st' -> cs_next st = length rs ->
  (forall q, In q (cs_buf st) -> q < cs_next st) ->
  (forall q kq e, q <> p -> nth_error rs q = Some (kq, e) -> e_hkey (cs_heap st q) = fnv1 kq /\ same_contents (cs_heap st q) e) ->
  (forall j, nth_error (cs_buf st) j = Some p -> cs_idx st (fnv1 k) = Some j) -> p < cs_next st ->
  nth_error rs p = Some (k', e') -> fnv1 k' = fnv1 k -> same_contents (cs_heap st p) e' ->
  exists st1 st1', cache_set st k p now = Ok st1 /\ cstep st' (OSet k e' now) = Ok st1' /\ sim rs st1 st1'.
Proof.
  intros I' EI ER EN EP HO U PN HM KK SC. destruct (step_inv st' (OSet k e' now) I' I) as (st1' & C & I1).
  pose proof (set_values st k p now U) as V. pose proof C as C0. cbn [cstep] in C0.
  pose proof (fresh_pos st' e' (inv_ptr _ I') (fnv1 k)) as F. pose proof (alloc_rows st' e' (inv_ptr _ I')) as RA.
  change (alloc st' e') with (fst (alloc st' e'), cs_next st') in C0.
  pose proof (set_values (fst (alloc st' e')) k (cs_next st') now F) as V'. rewrite C0 in V'. destruct V' as (V' & _).
  assert (HH : cs_heap (fst (alloc st' e')) (cs_next st') = e') by (cbn; apply upd_same).
  assert (IA : cs_idx (fst (alloc st' e')) = cs_idx st') by reflexivity.
  rewrite HH, RA, IA, <- EI, <- ER in V'.
  assert (VV : v_set (cs_idx st) (rows st) e' (fnv1 k) now = v_set (cs_idx st) (rows st) (cs_heap st p) (fnv1 k) now).
  { unfold v_set. rewrite (stamp_contents _ _ (fnv1 k) now SC). reflexivity. }
  rewrite VV in V'. destruct (cache_set st k p now) as [st1|]; [|congruence]. destruct V as (V & VN & VH & VB). rewrite V in V'. injection V' as E1 E2.
  exists st1, st1'. split; [reflexivity|]. split; [exact C|]. constructor.
  - exact I1.
  - exact E1.
  - exact E2.
  - congruence.
  - intros q Q. rewrite VN. destruct (VB q Q) as [->|Q']; [exact PN|exact (EP q Q')].
  - intros q kq e H. rewrite VH. destruct (Nat.eq_dec q p) as [->|D].
    + rewrite upd_same. rewrite H in HM. injection HM as -> ->. cbn [e_hkey with_stamp]. split; [congruence|exact SC].
    + rewrite upd_other by exact D. exact (HO q kq e D H).
Qed.

Lemma copies_run h : forall rs st st', sim rs st st' -> one_key rs h ->
  exists st1 st1' rs1, crun st h = Ok st1 /\ crun st' (copies rs h) = Ok st1' /\ sim rs1 st1 st1'.
Proof.
  induction h as [|o h IH]; intros rs st st' S K; [exists st, st', rs; auto|].
  pose proof S as [I' EI ER EN EP HO].
  destruct o as [k e now|k p now|k now|now]; cbn [one_key copies crun] in *.
  - destruct (sim_set (rs ++ [(k, e)]) (fst (alloc st e)) st' k (cs_next st) now k e) as (s1 & s1' & C & C' & S1); try assumption; try reflexivity.
    + rewrite (alloc_rows st e EP). exact ER.
    + cbn. rewrite app_length, EN. cbn. lia.
    + intros q Q. pose proof (EP q Q). cbn. lia.
    + intros q kq eq D H. cbn. rewrite upd_other by exact D. assert (q < length (rs ++ [(k, e)])) by (apply nth_error_Some; congruence).
      rewrite app_length in *. cbn in *. rewrite nth_error_app1 in H by lia. exact (HO q kq eq H).
    + intros j J. exact (fresh_pos st e EP _ j J).
    + cbn. lia.
    + rewrite EN, nth_error_app2, Nat.sub_diag by lia. reflexivity.
    + cbn. rewrite upd_same. reflexivity.
    + cbn [cstep] in C' |- *. rewrite C'. change (alloc st e) with (fst (alloc st e), cs_next st). cbv iota beta. rewrite C. cbn [rbind]. exact (IH _ _ _ S1 K).
  - destruct K as [(k' & e & HM & KK) K]. rewrite HM. destruct (HO p k' e HM) as [HK SC].
    destruct (sim_set rs st st' k p now k' e) as (s1 & s1' & C & C' & S1); try assumption.
    + intros q kq eq _ H. exact (HO q kq eq H).
    + intros j J. exact (sim_pos rs st st' p k' e (fnv1 k) j S HM KK J).
    + rewrite EN. apply nth_error_Some. congruence.
    + cbn [crun]. rewrite C'. cbn [cstep]. rewrite C. cbn [rbind]. exact (IH _ _ _ S1 K).
  - cbn [cstep rbind]. apply (IH rs); [|exact K].
    assert (B : vbij (cs_idx st) (rows st)) by (rewrite EI, ER; exact (vbij_of st' I')).
    destruct (get_values st k now B) as [G1 G2]. destruct (get_values st' k now (vbij_of st' I')) as [G1' G2'].
    constructor.
    + pose proof (get_spec st' k now I') as G. destruct (cache_get st' k now). cbn [fst]. tauto.
    + congruence.
    + congruence.
    + unfold cache_get. destruct (cs_idx st (fnv1 k)); [|exact EN]. destruct (nth_error _ _); exact EN.
    + unfold cache_get. destruct (cs_idx st (fnv1 k)); [|exact EP]. destruct (nth_error _ _); exact EP.
    + unfold cache_get. destruct (cs_idx st (fnv1 k)) as [i|]; [|exact HO]. destruct (nth_error _ _) as [q|]; [|exact HO]. cbn [fst cs_heap].
      intros p kp e H. destruct (HO p kp e H) as [H1 H2]. destruct (Nat.eq_dec p q) as [->|D]; [rewrite upd_same; split; [exact H1|exact H2]|rewrite upd_other by exact D; auto].
  - cbn [cstep rbind]. apply (IH rs); [|exact K]. pose proof (clean_values st now) as C. pose proof (clean_values st' now) as C'. rewrite EI, ER in C. rewrite C in C'. injection C' as E1 E2.
    constructor.
    + apply clean_spec. exact I'.
    + exact E1.
    + exact E2.
    + unfold cache_clean. destruct (clean_loop _ _ _ _ _ _). exact EN.
    + assert (B : Bij (cs_heap st) (cs_idx st) (cs_buf st)).
      { intros hh i. rewrite EI. rewrite (vbij_of st' I' hh i), <- ER. unfold rows. rewrite nth_error_map. split.
        - intros (x & N & X). destruct (nth_error (cs_buf st) i) as [p|]; [|discriminate N]. injection N as <-. eauto.
        - intros (p & N & X). rewrite N. exists (cs_heap st p). auto. }
      pose proof (clean_loop_spec (length (cs_buf st)) (cs_heap st) now 0 (cs_idx st) (cs_buf st) B) as L. unfold cache_clean. destruct (clean_loop _ _ _ _ _ _) as [ix bf].
      cbn [cs_buf cs_next]. intros p P. apply EP. apply L. exact P.
    + unfold cache_clean. destruct (clean_loop _ _ _ _ _ _). exact HO.
Qed.

Lemma lookup_values st hk : lookup st hk = match cs_idx st hk with Some i => nth_error (rows st) i | None => None end.
Proof. unfold lookup, rows. destruct (cs_idx st hk) as [i|]; [|reflexivity]. rewrite nth_error_map. destruct (nth_error _ i); reflexivity. Qed.
Lemma shared_as_copies h : one_key [] h -> exists st st', crun cs_empty h = Ok st /\ crun cs_empty (copies [] h) = Ok st' /\
  forall hk, lookup st hk = lookup st' hk.
Proof.
  intros K. destruct (copies_run h [] cs_empty cs_empty) as (st & st' & rs & C & C' & S); [|exact K|].
  - constructor; try reflexivity; [exact Inv_empty|intros p []|intros p k e H; destruct p; discriminate H].
  - exists st, st'. split; [exact C|]. split; [exact C'|]. intros hk. rewrite !lookup_values, (sim_idx _ _ _ S), (sim_rows _ _ _ S). reflexivity.
Qed.
(** The copies are copies. *)
Lemma copies_fresh h : forall rs, one_key rs h -> fresh_history (copies rs h).
Proof.
  induction h as [|o h IH]; intros rs K; [constructor|]. destruct o as [k e now|k p now|k now|now]; cbn [one_key copies] in *; try (constructor; [exact I|apply IH; exact K]).
  destruct K as [(k' & e & H & _) K]. rewrite H. constructor; [exact I|apply IH; exact K].
Qed.
Lemma shared_safe h : one_key [] h -> exists st st', crun cs_empty h = Ok st /\ fresh_history (copies [] h) /\ crun cs_empty (copies [] h) = Ok st' /\
  forall hk, lookup st hk = lookup st' hk.
Proof. intros K. destruct (shared_as_copies h K) as (st & st' & R). exists st, st'. pose proof (copies_fresh h [] K). tauto. Qed.

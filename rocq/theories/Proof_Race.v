(** Proofs for C66: no data races. *)
From Coq Require Import Lia PeanoNat.
From Verif Require Import Model_Base Model_CacheEntry Model_Ctx Model_Parse Model_Cache Model_Threads Spec_Race.
Open Scope nat_scope.
Local Arguments Nat.ltb : simpl never.
Local Arguments nth : simpl never.
Local Arguments Nat.sub : simpl never.

(** ** A discipline for code *)

(** [ok c held ini own known]: code [c], run by a goroutine that holds the mutex or not, is inside init or not, has rows of its
    own that nobody else knows, and knows some rows that have been published. *)
Fixpoint ok (c : code) (held ini : bool) (own known : list ptr) : Prop :=
  match c with
  | Done _ | Crash => held = false /\ ini = false
  | Lock k => held = false /\ ok k true ini own known
  | Unlock k => held = true /\ ok k false ini own known
  | Once k => held = false /\ ini = false /\ ok k false false own known
  | OnceEnd k => held = false /\ ini = true /\ ok k false false own known
  | Spawn k => ok k held ini own known
  | LdIdx k => held = true /\ forall v, ok (k v) true ini own known
  | StIdx _ k => held = true /\ ok k true ini own known
  | LdBuf k => held = true /\ forall b, ok (k b) true ini own (b ++ known)
  | StBuf b k => held = true /\ incl b (own ++ known) /\
      ok k true ini (filter (fun p => negb (existsb (Nat.eqb p) b)) own) (b ++ known)
  | LdKey p k => (In p own \/ held = true /\ In p known) /\ forall v, ok (k v) held ini own known
  | StKey p _ k => In p own /\ ok k held ini own known
  | LdStamp p k => (In p own \/ held = true /\ In p known) /\ forall v, ok (k v) held ini own known
  | StStamp p _ k => (In p own \/ held = true /\ In p known) /\ ok k held ini own known
  | LdBody p k => (In p own \/ In p known) /\ forall v, ok (k v) held ini own known
  | StBody p _ k => In p own /\ ok k held ini own known
  | New k => held = false /\ forall p, ok (k p) held ini (p :: own) known
  | Now k => forall z, ok (k z) held ini own known
  end.

(** The code of the library follows the discipline. *)
Lemma firstn_incl {A} n (l : list A) x : In x (firstn n l) -> In x l.
Proof. intros H. rewrite <- (firstn_skipn n l). apply in_or_app. left. exact H. Qed.
Lemma in_store {A} (l : list A) i x y : In y (store l i x) -> y = x \/ In y l.
Proof.
  revert i. induction l as [|a l IH]; intros [|i]; cbn [store In]; [tauto|tauto|intuition auto|].
  intros [->|H]; [auto|]. destruct (IH i H); auto.
Qed.
Lemma init_ok k own known : ok k false false own known -> ok (init_code k) false true own known.
Proof. intros H. cbn. repeat split; assumption. Qed.
Lemma set_ok key p k own known : In p own -> (forall own known, ok k false false own known) -> ok (set_code key p k) false false own known.
Proof.
  intros I H. cbn. repeat (split; [reflexivity|]). split; [exact I|]. intros z. split; [auto|]. split; [reflexivity|]. split; [auto|].
  intros hk. split; [reflexivity|]. intros m. destruct (map_find m hk) as [i|].
  - cbn. split; [reflexivity|]. intros b. destruct (i <? length b); cbn.
    + split; [reflexivity|]. split; [|split; [reflexivity|apply H]].
      intros q Hq. apply in_store in Hq. rewrite !in_app_iff. destruct Hq as [->|Hq]; auto.
    + repeat split.
  - cbn. split; [reflexivity|]. intros b. split; [reflexivity|]. split.
    { intros q. rewrite !in_app_iff. cbn. intros [Hq|[<-|[]]]; auto. }
    split; [right; split; [reflexivity|]; rewrite !in_app_iff; cbn; auto|].
    intros hk'. split; [reflexivity|]. intros b'. split; [reflexivity|]. intros [f|]; cbn; repeat split. apply H.
Qed.
Lemma get_ok key k own known : (forall own known, ok (k None) false false own known) ->
  (forall p own known, In p known -> ok (k (Some p)) false false own known) -> ok (get_code key k) false false own known.
Proof.
  intros H1 H2. cbn. repeat (split; [reflexivity|]). intros m. destruct (map_find m (fnv1 key)) as [i|]; cbn; [|split; [reflexivity|apply H1]].
  split; [reflexivity|]. intros b. destruct (i <? length b); cbn; [|split; [reflexivity|apply H1]].
  intros now. split; [reflexivity|]. intros b'. destruct (nth_error b' i) as [p|] eqn:E; cbn; [|repeat split].
  apply nth_error_In in E. split; [right; split; [reflexivity|rewrite !in_app_iff; auto]|]. split; [reflexivity|].
  intros b''. destruct (nth_error b'' i) as [q|] eqn:E'; cbn; [|repeat split].
  apply nth_error_In in E'. split; [reflexivity|]. apply H2. rewrite !in_app_iff; auto.
Qed.
Lemma clean_section_ok now fuel : forall i own known, ok (clean_section fuel now i) true false own known.
Proof.
  induction fuel as [|fuel IH]; intros i own known; cbn; [repeat split|]. split; [reflexivity|]. intros b.
  destruct (nth_error b i) as [p|] eqn:E; [|cbn; repeat split]. pose proof (nth_error_In _ _ E) as Ip. cbn.
  split; [right; split; [reflexivity|rewrite in_app_iff; auto]|]. intros ts. destruct (_ <? _)%Z; [|apply IH]. cbn.
  split; [reflexivity|]. intros b1. split; [right; split; [reflexivity|rewrite !in_app_iff; auto]|]. intros old. split; [reflexivity|]. split.
  { intros q Hq. destruct b1 as [|y b1]; [destruct i; destruct Hq|]. apply in_store in Hq. rewrite !in_app_iff.
    destruct Hq as [->|Hq]; [|auto]. right; left. apply nth_In. cbn [length]. lia. }
  split; [reflexivity|]. intros b2. split; [reflexivity|]. split.
  { intros q Hq. apply (firstn_incl _ _ _) in Hq. rewrite !in_app_iff. auto. }
  split; [reflexivity|]. intros b3. destruct (nth_error b3 i) as [q|] eqn:E3; cbn.
  - apply nth_error_In in E3. split; [right; split; [reflexivity|rewrite !in_app_iff; auto]|]. intros hk. split; [reflexivity|].
    intros [f|]; cbn; [|repeat split]. split; [reflexivity|]. split; [reflexivity|]. intros [g|]; cbn; [split; [reflexivity|]|]; apply IH.
  - split; [reflexivity|]. intros [g|]; cbn; [split; [reflexivity|]|]; apply IH.
Qed.
Lemma clean_ok own known : ok clean_code false false own known.
Proof. cbn. intros z. repeat (split; [reflexivity|]). intros b. apply clean_section_ok. Qed.
Lemma compile_ok p : forall own known, ok (compile_prog p) false false own known.
Proof.
  induction p as [rs|key k IH|key e k IH]; intros own known.
  - cbn. split; reflexivity.
  - cbn [compile_prog]. apply get_ok; [intros; apply IH|]. intros q own' known' I. cbn. split; [right; exact I|]. intros v. apply IH.
  - cbn [compile_prog]. split; [reflexivity|]. intros q. split; [left; reflexivity|]. apply set_ok; [left; reflexivity|exact IH].
Qed.

(** ** Traces *)
Definition trace := list (nat * event).
Lemma nth_left {A} (l x : list A) i a : nth_error l i = Some a -> nth_error (l ++ x) i = Some a.
Proof. intros H. rewrite nth_error_app1; [exact H|]. apply nth_error_Some. congruence. Qed.
Lemma nth_last {A} (l : list A) a : nth_error (l ++ [a]) (length l) = Some a.
Proof. rewrite nth_error_app2, Nat.sub_diag by lia. reflexivity. Qed.
Lemma nth_split {A} (l : list A) a i b : nth_error (l ++ [a]) i = Some b -> nth_error l i = Some b \/ i = length l /\ b = a.
Proof.
  intros H. destruct (Nat.lt_ge_cases i (length l)) as [L|L]; [left; rewrite nth_error_app1 in H; assumption|].
  right. rewrite nth_error_app2 in H by assumption. destruct (i - length l) as [|n] eqn:E; cbn in H.
  - injection H as <-. split; [lia|reflexivity].
  - destruct n; discriminate.
Qed.
Lemma nth_lt {A} (l : list A) i a : nth_error l i = Some a -> i < length l.
Proof. intros H. apply nth_error_Some. congruence. Qed.

Lemma hb_app (tr x : trace) i j : hb tr i j -> hb (tr ++ x) i j.
Proof.
  induction 1; [eapply HB_program|eapply HB_mutex|eapply HB_once|eapply HB_go|eapply HB_trans]; eauto using nth_left.
Qed.

(** Position [i] is before everything goroutine [t] does next. *)
Definition past (t : nat) (tr : trace) (i : nat) : Prop := exists j e, nth_error tr j = Some (t, e) /\ (i = j \/ hb tr i j).
(** Position [i] is before everything that the holder of the mutex does, now or later. *)
Definition sync (lk : option nat) (tr : trace) (i : nat) : Prop :=
  match lk with
  | None => exists j u, nth_error tr j = Some (u, EUnlock) /\ (i = j \/ hb tr i j)
  | Some h => past h tr i
  end.

Lemma past_app t tr x i : past t tr i -> past t (tr ++ x) i.
Proof. intros (j & e & H & K). exists j, e. split; [apply nth_left, H|]. destruct K; auto using hb_app. Qed.
Lemma past_last t tr e : past t (tr ++ [(t, e)]) (length tr).
Proof. exists (length tr), e. split; [apply nth_last|left; reflexivity]. Qed.
Lemma past_hb t tr i e : past t tr i -> hb (tr ++ [(t, e)]) i (length tr).
Proof.
  intros (j & e' & H & K). assert (P : hb (tr ++ [(t, e)]) j (length tr)).
  { eapply HB_program; [exact (nth_lt _ _ _ H)|apply nth_left, H|apply nth_last]. }
  destruct K as [->|K]; [exact P|]. eapply HB_trans; [apply hb_app, K|exact P].
Qed.
Lemma sync_app lk tr x i : sync lk tr i -> sync lk (tr ++ x) i.
Proof.
  destruct lk; [apply past_app|]. intros (j & u & H & K). exists j, u. split; [apply nth_left, H|]. destruct K; auto using hb_app.
Qed.
Lemma sync_lock t tr i : sync None tr i -> sync (Some t) (tr ++ [(t, ELock)]) i.
Proof.
  intros (j & u & H & K). exists (length tr), ELock. split; [apply nth_last|]. right.
  assert (P : hb (tr ++ [(t, ELock)]) j (length tr)).
  { eapply HB_mutex; [exact (nth_lt _ _ _ H)|apply nth_left, H|apply nth_last]. }
  destruct K as [->|K]; [exact P|]. eapply HB_trans; [apply hb_app, K|exact P].
Qed.
Lemma sync_unlock t tr i : sync (Some t) tr i -> sync None (tr ++ [(t, EUnlock)]) i.
Proof. intros H. exists (length tr), t. split; [apply nth_last|]. right. apply past_hb, H. Qed.

(** ** The invariant *)
Definition holds (m : mem) (t : nat) : bool := match m_lock m with Some h => h =? t | None => false end.
Lemma holds_lock m t : holds m t = true <-> m_lock m = Some t.
Proof. unfold holds. destruct (m_lock m) as [h|]; [rewrite Nat.eqb_eq; split; congruence|split; discriminate]. Qed.

Definition gini (c : code) (m : mem) (ini : bool) : bool :=
  match c with Once _ => match m_once m with Fresh => true | _ => ini end | OnceEnd _ => false | _ => ini end.
Definition gown (c : code) (m : mem) (own : list ptr) : list ptr :=
  match c with
  | StBuf b _ => filter (fun p => negb (existsb (Nat.eqb p) b)) own
  | New _ => m_next m :: own
  | _ => own
  end.
Definition gknown (c : code) (m : mem) (known : list ptr) : list ptr :=
  match c with LdBuf _ => m_buf m ++ known | StBuf b _ => b ++ known | _ => known end.
Definition at_ {A} (f : nat -> A) (t : nat) (v : A) : nat -> A := fun u => if u =? t then v else f u.
Lemma at_same {A} (f : nat -> A) t v : at_ f t v t = v.
Proof. unfold at_. rewrite Nat.eqb_refl. reflexivity. Qed.
Lemma at_other {A} (f : nat -> A) t v u : u <> t -> at_ f t v u = f u.
Proof. intros H. unfold at_. apply Nat.eqb_neq in H. rewrite H. reflexivity. Qed.

Lemma step_ok t c m c' m' evs ini own known : act_step t c m c' m' evs ->
  ok c (holds m t) ini own known -> ok c' (holds m' t) (gini c m ini) (gown c m own) (gknown c m known).
Proof.
  intros S. destruct S; cbn [ok gini gown gknown]; intros O; repeat match goal with H : _ /\ _ |- _ => destruct H end;
    repeat match goal with H : holds _ _ = true |- _ => progress rewrite H in * | H : holds _ _ = false |- _ => progress rewrite H in * end;
    unfold holds in *; cbn [m_lock w_lock w_once w_tick w_idx w_buf w_key w_stamp w_body w_next] in *;
    repeat match goal with H : m_lock _ = _ |- _ => progress rewrite H in * | H : m_once _ = _ |- _ => progress rewrite H in * end;
    rewrite ?Nat.eqb_refl; cbn [negb] in *; try assumption; try (match goal with H : forall _, ok _ _ _ _ _ |- _ => apply H end).
  all: try match goal with E : match m_lock _ with _ => _ end = _ |- _ => rewrite E end; subst; first [assumption|apply init_ok; assumption|match goal with H : forall _, ok _ _ _ _ _ |- _ => apply H end].
Qed.

Record Inv (m : mem) (ts : list code) (ini : nat -> bool) (own known : nat -> list ptr) : Prop := {
  i_ok : forall t c, nth_error ts t = Some c -> ok c (holds m t) (ini t) (own t) (known t);
  i_lock : forall h, m_lock m = Some h -> h < length ts;
  i_ini : forall t, ini t = true -> m_once m = Running /\ t < length ts;
  i_ini_one : forall t u, ini t = true -> ini u = true -> t = u;
  i_run : m_once m = Running -> exists t, ini t = true;
  i_own : forall t p, In p (own t) ->
    p < m_next m /\ ~ In p (m_buf m) /\ (forall u, ~ In p (known u)) /\ (forall u, In p (own u) -> u = t);
  i_known : forall t p, In p (known t) -> p < m_next m;
  i_buf : forall p, In p (m_buf m) -> p < m_next m
}.

(** What is known about an access [e] at position [i]. *)
Definition settled (m : mem) (tr : trace) (own known : nat -> list ptr) (i : nat) (e : event) (l : loc) : Prop :=
  match l with
  | LIdx | LBuf => sync (m_lock m) tr i
  | LStamp p => p < m_next m /\ (forall u, In p (own u) -> past u tr i) /\ ((forall u, ~ In p (own u)) -> sync (m_lock m) tr i)
  | LKey p | LBody p => p < m_next m /\ (forall u, In p (own u) -> past u tr i) /\
      (e = EWrite l -> ((forall u, ~ In p (own u)) -> sync (m_lock m) tr i) /\ (forall u, In p (known u) -> past u tr i))
  end.
Record InvT (m : mem) (tr : trace) (own known : nat -> list ptr) : Prop := {
  i_acc : forall i t e l, nth_error tr i = Some (t, e) -> touches e l -> settled m tr own known i e l;
  i_hb : forall i j t u e e', i < j -> nth_error tr i = Some (t, e) -> nth_error tr j = Some (u, e') -> t <> u -> conflict e e' -> hb tr i j
}.

Lemma store_same {A} (l : list A) i x y : nth_error l i = Some y -> nth_error (store l i x) i = Some x.
Proof. revert i. induction l as [|a l IH]; intros [|i]; cbn; try discriminate; [reflexivity|apply IH]. Qed.
Lemma store_other {A} (l : list A) i j x : i <> j -> nth_error (store l i x) j = nth_error l j.
Proof. revert i j. induction l as [|a l IH]; intros [|i] [|j] H; cbn; try reflexivity; [congruence|apply IH; congruence]. Qed.
Lemma store_len {A} (l : list A) i x : length (store l i x) = length l.
Proof. revert i. induction l as [|a l IH]; intros [|i]; cbn; auto. Qed.

Lemma step_lock t c m c' m' evs : act_step t c m c' m' evs ->
  (m_lock m' = m_lock m) \/ (c = Lock c' /\ m_lock m = None /\ m_lock m' = Some t /\ evs = [ELock]) \/
  (c = Unlock c' /\ m_lock m = Some t /\ m_lock m' = None /\ evs = [EUnlock]).
Proof. intros S; destruct S; cbn; auto 10. Qed.
Lemma step_holds t c m c' m' evs u : act_step t c m c' m' evs -> u <> t -> holds m' u = holds m u.
Proof.
  intros S N. unfold holds. destruct (step_lock _ _ _ _ _ _ S) as [->|[(_ & -> & -> & _)|(_ & -> & -> & _)]]; [reflexivity| |];
    [apply Nat.eqb_neq|symmetry; apply Nat.eqb_neq]; congruence.
Qed.

Lemma filter_own p b own : In p (filter (fun p => negb (existsb (Nat.eqb p) b)) own) <-> In p own /\ ~ In p b.
Proof.
  rewrite filter_In, Bool.negb_true_iff. split; intros [A B]; (split; [exact A|]).
  - intros I. apply Bool.not_true_iff_false in B. apply B, existsb_exists. exists p. split; [exact I|apply Nat.eqb_refl].
  - apply Bool.not_true_iff_false. intros E. apply existsb_exists in E. destruct E as (x & I & E). apply Nat.eqb_eq in E. subst x. exact (B I).
Qed.

Section Step.
  Variables (m m' : mem) (ts : list code) (ini : nat -> bool) (own known : nat -> list ptr) (t : nat) (c c' : code) (evs : list event).
  Hypothesis I : Inv m ts ini own known.
  Hypothesis Ht : nth_error ts t = Some c.
  Hypothesis S : act_step t c m c' m' evs.
  Notation ini' := (at_ ini t (gini c m (ini t))).
  Notation own' := (at_ own t (gown c m (own t))).
  Notation known' := (at_ known t (gknown c m (known t))).

  Lemma next_up : m_next m <= m_next m'.
  Proof. destruct S; cbn; lia. Qed.
  Lemma code_ok : ok c (holds m t) (ini t) (own t) (known t).
  Proof. exact (i_ok _ _ _ _ _ I t c Ht). Qed.
  Lemma own_back u p : In p (own' u) -> In p (own u) \/ u = t /\ p = m_next m /\ exists k, c = New k.
  Proof.
    unfold at_. destruct (Nat.eqb_spec u t) as [->|N]; [|auto]. unfold gown. destruct c; auto.
    - rewrite filter_own. tauto.
    - cbn. intros [<-|H]; eauto 6.
  Qed.
  Lemma own_lost p u : In p (own u) -> ~ In p (own' u) -> u = t /\ m_lock m = Some t /\ m_lock m' = Some t.
  Proof.
    intros H. unfold at_. destruct (Nat.eqb_spec u t) as [->|N]; [|tauto]. intros H2. split; [reflexivity|].
    pose proof code_ok as O. unfold gown in H2. destruct S; cbn [ok] in O; try tauto.
    - destruct O as (O & _). apply holds_lock in O. cbn. auto.
    - exfalso. apply H2. right. exact H.
  Qed.
  Lemma known_back u p : In p (known' u) -> In p (known u) \/ u = t /\ m_lock m = Some t /\ m_lock m' = Some t /\
     (In p (m_buf m) \/ In p (own t) \/ In p (known t)).
  Proof.
    unfold at_. destruct (Nat.eqb_spec u t) as [->|N]; [|auto]. unfold gknown. pose proof code_ok as O.
    destruct S; auto; cbn [ok] in O; destruct O as (O & O2); apply holds_lock in O; rewrite in_app_iff; intros [H|H]; auto.
    - right. cbn. auto.
    - right. cbn. destruct O2 as [O2 _]. apply O2 in H. rewrite in_app_iff in H. auto 7.
  Qed.
  Lemma buf_back p : In p (m_buf m') -> In p (m_buf m) \/ (exists b k, c = StBuf b k /\ In p b /\ (In p (own t) \/ In p (known t))).
  Proof.
    pose proof code_ok as O. destruct S; cbn; auto. intros H. right. exists v, k. cbn in O. destruct O as (_ & O & _).
    split; [reflexivity|]. split; [exact H|]. apply O in H. rewrite in_app_iff in H. exact H.
  Qed.

  Lemma inv_step : Inv m' (store ts t c') ini' own' known'.
  Proof.
    pose proof code_ok as O. constructor.
    - intros u d. destruct (Nat.eq_dec u t) as [->|N].
      + rewrite (store_same _ _ _ _ Ht). intros E. injection E as <-. rewrite !at_same. exact (step_ok _ _ _ _ _ _ _ _ _ S O).
      + rewrite store_other, !at_other by congruence. intros E. rewrite (step_holds _ _ _ _ _ _ _ S N). exact (i_ok _ _ _ _ _ I u d E).
    - intros h E. rewrite store_len. destruct (step_lock _ _ _ _ _ _ S) as [E'|[(_ & _ & E' & _)|(_ & _ & E' & _)]]; rewrite E' in E.
      + exact (i_lock _ _ _ _ _ I h E).
      + injection E as <-. exact (nth_lt _ _ _ Ht).
      + discriminate.
    - intros u E. rewrite store_len. destruct (Nat.eq_dec u t) as [Eu|N]; [rewrite Eu, at_same in E|rewrite at_other in E by exact N].
      + rewrite Eu. split; [|exact (nth_lt _ _ _ Ht)]. pose proof (fun X => proj1 (i_ini _ _ _ _ _ I t X)) as R.
        destruct S; cbn [gini] in E; cbn; try discriminate; try (exact (R E)); [reflexivity|].
        rewrite H in E. exact (R E).
      + destruct (i_ini _ _ _ _ _ I u E) as [R L]. split; [|exact L]. destruct S; cbn; try assumption; [congruence|].
        exfalso. cbn in O. destruct O as (_ & O & _). apply N. exact (i_ini_one _ _ _ _ _ I u t E O).
    - assert (X : forall u, gini c m (ini t) = true -> u <> t -> ini u = true -> False).
      { intros u E N E2. destruct (Bool.bool_dec (ini t) true) as [E3|E3]; [apply N; exact (i_ini_one _ _ _ _ _ I u t E2 E3)|].
        unfold gini in E. destruct c; try (exact (E3 E)); [|discriminate]. destruct (m_once m) eqn:Eo; try (exact (E3 E)).
        pose proof (proj1 (i_ini _ _ _ _ _ I u E2)). congruence. }
      intros u v. unfold at_. destruct (Nat.eqb_spec u t) as [->|N], (Nat.eqb_spec v t) as [->|N']; intros E1 E2; auto.
      + exfalso. exact (X v E1 N' E2).
      + exfalso. exact (X u E2 N E1).
      + exact (i_ini_one _ _ _ _ _ I u v E1 E2).
    - intros E. assert (R : m_once m = Running -> (forall k, c <> OnceEnd k) -> exists u, ini' u = true).
      { intros E1 E2. destruct (i_run _ _ _ _ _ I E1) as (u & Eu). exists u. unfold at_. destruct (Nat.eqb_spec u t) as [->|N]; [|exact Eu].
        unfold gini. destruct c; try exact Eu; [rewrite E1; exact Eu|exfalso; eapply E2; reflexivity]. }
      destruct S; cbn in E; try (apply R; [exact E|congruence]).
      + exists t. rewrite at_same. cbn. rewrite H. reflexivity.
      + discriminate.
    - intros u p H. pose proof next_up as NU. destruct (own_back _ _ H) as [H0|(-> & -> & k & Ek)].
      + destruct (i_own _ _ _ _ _ I u p H0) as (P1 & P2 & P3 & P4). split; [lia|]. split; [|split].
        * intros B. destruct (buf_back _ B) as [B'|(b & k & Ec & B1 & [B2|B2])]; [exact (P2 B')| |exact (P3 t B2)].
          pose proof (P4 t B2) as Eu. subst u. rewrite Ec, at_same in H. cbn [gown] in H. apply filter_own in H. tauto.
        * intros v K. destruct (known_back _ _ K) as [K'|(-> & _ & _ & [K1|[K2|K3]])]; [exact (P3 _ K')|exact (P2 K1)| |exact (P3 _ K3)].
          pose proof (P4 t K2) as Eu. subst u. rewrite at_same in H, K. unfold gown in H. unfold gknown in K. destruct c; try exact (P3 _ K).
          -- rewrite in_app_iff in K. destruct K as [K|K]; [exact (P2 K)|exact (P3 _ K)].
          -- apply filter_own in H. rewrite in_app_iff in K. destruct K as [K|K]; [tauto|exact (P3 _ K)].
        * intros v Q. destruct (own_back _ _ Q) as [Q'|(-> & -> & _)]; [exact (P4 v Q')|]. lia.
      + assert (F : forall v, ~ In (m_next m) (own v)) by (intros v Q; destruct (i_own _ _ _ _ _ I v _ Q); lia).
        assert (G : forall v, ~ In (m_next m) (known v)) by (intros v Q; pose proof (i_known _ _ _ _ _ I v _ Q); lia).
        assert (B : ~ In (m_next m) (m_buf m)) by (intros Q; pose proof (i_buf _ _ _ _ _ I _ Q); lia).
        split; [subst c; inversion S; subst; cbn; lia|]. split; [|split].
        * intros Q. destruct (buf_back _ Q) as [Q'|(b & k' & _ & _ & [Q'|Q'])]; [exact (B Q')|exact (F _ Q')|exact (G _ Q')].
        * intros v K. destruct (known_back _ _ K) as [K'|(_ & _ & _ & [K1|[K2|K3]])]; [exact (G _ K')|exact (B K1)|exact (F _ K2)|exact (G _ K3)].
        * intros v Q. destruct (own_back _ _ Q) as [Q'|(-> & _)]; [destruct (F _ Q')|reflexivity].
    - intros u p K. pose proof next_up. destruct (known_back _ _ K) as [K'|(_ & _ & _ & [K1|[K2|K3]])].
      + pose proof (i_known _ _ _ _ _ I u p K'). lia.
      + pose proof (i_buf _ _ _ _ _ I p K1). lia.
      + destruct (i_own _ _ _ _ _ I t p K2). lia.
      + pose proof (i_known _ _ _ _ _ I t p K3). lia.
    - intros p Q. pose proof next_up. destruct (buf_back _ Q) as [Q'|(b & k' & _ & _ & [Q'|Q'])].
      + pose proof (i_buf _ _ _ _ _ I p Q'). lia.
      + destruct (i_own _ _ _ _ _ I t p Q'). lia.
      + pose proof (i_known _ _ _ _ _ I t p Q'). lia.
  Qed.

  (** *** The trace *)
  Variable tr : trace.
  Hypothesis IT : InvT m tr own known.
  Notation tr' := (tr ++ map (fun e => (t, e)) evs).

  Lemma sync_step i : sync (m_lock m) tr i -> sync (m_lock m') tr' i.
  Proof.
    destruct (step_lock _ _ _ _ _ _ S) as [->|[(_ & -> & -> & ->)|(_ & -> & -> & ->)]];
      [apply sync_app|apply sync_lock|apply sync_unlock].
  Qed.
  Lemma lost_all p : (forall u, ~ In p (own' u)) -> In p (own t) /\ m_lock m' = Some t \/ (forall u, ~ In p (own u)).
  Proof.
    intros H. destruct (in_dec Nat.eq_dec p (own t)) as [Hp|Hp].
    - left. split; [exact Hp|]. exact (proj2 (proj2 (own_lost p t Hp (H t)))).
    - right. intros u Q. destruct (Nat.eq_dec u t) as [Eu|N]; [rewrite Eu in Q; exact (Hp Q)|]. apply (H u). rewrite at_other; assumption.
  Qed.
  Lemma settled_old i e l : settled m tr own known i e l -> settled m' tr' own' known' i e l.
  Proof.
    assert (X : forall p, p < m_next m -> (forall u, In p (own u) -> past u tr i) -> forall u, In p (own' u) -> past u tr' i).
    { intros p L H u Q. destruct (own_back _ _ Q) as [Q'|(_ & -> & _)]; [apply past_app, H, Q'|lia]. }
    assert (Y : forall p, (forall u, In p (own u) -> past u tr i) -> ((forall u, ~ In p (own u)) -> sync (m_lock m) tr i) ->
      (forall u, ~ In p (own' u)) -> sync (m_lock m') tr' i).
    { intros p H1 H2 Q. destruct (lost_all p Q) as [[Q1 Q2]|Q1]; [rewrite Q2; apply past_app, H1, Q1|apply sync_step, H2, Q1]. }
    assert (W : forall p, (forall u, In p (own u) -> past u tr i) -> ((forall u, ~ In p (own u)) -> sync (m_lock m) tr i) ->
      (forall u, In p (known u) -> past u tr i) -> forall u, In p (known' u) -> past u tr' i).
    { intros p H1 H2 H3 u K. apply past_app. destruct (known_back _ _ K) as [K'|(-> & Lk & _ & [K1|[K2|K3]])];
        [apply H3, K'| |apply H1, K2|apply H3, K3]. rewrite Lk in H2. apply H2. intros v Q. destruct (i_own _ _ _ _ _ I v p Q). tauto. }
    pose proof next_up. destruct l as [| |p|p|p]; cbn [settled].
    - apply sync_step.
    - apply sync_step.
    - intros (A & B & C). split; [lia|]. split; [exact (X p A B)|]. intros E. destruct (C E) as [C1 C2]. split; [exact (Y p B C1)|exact (W p B C1 C2)].
    - intros (A & B & C). split; [lia|]. split; [exact (X p A B)|exact (Y p B C)].
    - intros (A & B & C). split; [lia|]. split; [exact (X p A B)|]. intros E. destruct (C E) as [C1 C2]. split; [exact (Y p B C1)|exact (W p B C1 C2)].
  Qed.

  Lemma permitted e l : evs = [e] -> touches e l ->
    m_lock m' = m_lock m /\ m_next m' = m_next m /\
    (((l = LIdx \/ l = LBuf) /\ m_lock m = Some t) \/
     (forall u, own' u = own u) /\ (forall u, known' u = known u) /\ exists p,
       (l = LStamp p /\ (In p (own t) \/ m_lock m = Some t /\ In p (known t))) \/
       ((l = LKey p \/ l = LBody p) /\ (In p (own t) \/ e = ERead l /\ In p (known t)))).
  Proof.
    intros E T. pose proof code_ok as O.
    assert (Z : forall A (f : nat -> A) u, at_ f t (f t) u = f u).
    { intros A f u. unfold at_. destruct (Nat.eqb_spec u t) as [Eu|N]; [rewrite Eu|]; reflexivity. }
    destruct S; cbn [ok] in O; try discriminate; injection E as <-; destruct T as [T|T]; try discriminate; injection T as <-;
      (split; [reflexivity|]); (split; [reflexivity|]); cbn [gown gknown];
      try (left; split; [auto|]; apply holds_lock, O); right; (split; [intros u; apply Z|]); (split; [intros u; apply Z|]); exists p.
    - right. split; [auto|]. destruct O as [[O|[_ O]] _]; auto.
    - right. split; [auto|]. destruct O as [O _]; auto.
    - left. split; [auto|]. destruct O as [[O|[O1 O]] _]; [auto|]. apply holds_lock in O1. auto.
    - left. split; [auto|]. destruct O as [[O|[O1 O]] _]; [auto|]. apply holds_lock in O1. auto.
    - right. split; [auto|]. destruct O as [[O|O] _]; auto.
    - right. split; [auto|]. destruct O as [O _]; auto.
  Qed.
  Lemma known_not_own p v : In p (known v) -> forall u, ~ In p (own u).
  Proof. intros K u Q. destruct (i_own _ _ _ _ _ I u p Q) as (_ & _ & Q' & _). exact (Q' v K). Qed.
  Lemma own_only p u : In p (own t) -> In p (own u) -> u = t.
  Proof. intros H Q. destruct (i_own _ _ _ _ _ I t p H) as (_ & _ & _ & Q'). exact (Q' u Q). Qed.

  Lemma settled_new e l : evs = [e] -> touches e l -> settled m' tr' own' known' (length tr) e l.
  Proof.
    intros E T. destruct (permitted e l E T) as (El & En & [([-> | ->] & Lk)|(Eo & Ek & p & C)]); cbn [settled].
    - rewrite El, Lk, E. apply past_last.
    - rewrite El, Lk, E. apply past_last.
    - assert (X : In p (own t) -> forall u, In p (own' u) -> past u tr' (length tr)).
      { intros H u Q. rewrite Eo in Q. rewrite (own_only p u H Q), E. apply past_last. }
      assert (Y : In p (known t) -> forall u, In p (own' u) -> past u tr' (length tr)).
      { intros H u Q. rewrite Eo in Q. destruct (known_not_own p t H u Q). }
      destruct C as [[-> C]|[C0 C]].
      + cbn [settled]. rewrite En, El. destruct C as [C|[C1 C]].
        * split; [exact (proj1 (i_own _ _ _ _ _ I t p C))|]. split; [exact (X C)|]. intros Q. destruct (Q t). rewrite Eo. exact C.
        * split; [exact (i_known _ _ _ _ _ I t p C)|]. split; [exact (Y C)|]. intros _. rewrite C1, E. apply past_last.
      + assert (R : p < m_next m /\ (forall u, In p (own' u) -> past u tr' (length tr)) /\
          (e = EWrite l -> ((forall u, ~ In p (own' u)) -> sync (m_lock m) tr' (length tr)) /\ (forall u, In p (known' u) -> past u tr' (length tr)))).
        { destruct C as [C|[C1 C]].
          - split; [exact (proj1 (i_own _ _ _ _ _ I t p C))|]. split; [exact (X C)|]. intros _. split.
            + intros Q. destruct (Q t). rewrite Eo. exact C.
            + intros u K. rewrite Ek in K. destruct (known_not_own p u K t C).
          - split; [exact (i_known _ _ _ _ _ I t p C)|]. split; [exact (Y C)|]. intros W. rewrite C1 in W. discriminate. }
        destruct C0 as [-> | ->]; cbn [settled]; rewrite En, El; exact R.
  Qed.
  Lemma ordered i u e0 e : evs = [e] -> nth_error tr i = Some (u, e0) -> conflict e0 e -> past t tr i.
  Proof.
    intros E Hi (l & T0 & T & W). pose proof (i_acc _ _ _ _ IT i u e0 l Hi T0) as A.
    destruct (permitted e l E T) as (El & En & [([-> | ->] & Lk)|(Eo & Ek & p & [[-> C]|[C0 C]])]).
    - cbn in A. rewrite Lk in A. exact A.
    - cbn in A. rewrite Lk in A. exact A.
    - cbn in A. destruct A as (_ & A & B). destruct C as [C|[C1 C]]; [exact (A t C)|]. rewrite C1 in B. exact (B (known_not_own p t C)).
    - assert (A' : (forall u, In p (own u) -> past u tr i) /\ (e0 = EWrite l -> (forall u, In p (known u) -> past u tr i))).
      { destruct C0 as [-> | ->]; cbn in A; destruct A as (_ & A & B); (split; [exact A|intros X; apply B, X]). }
      destruct A' as [A1 A2]. destruct C as [C|[C1 C]]; [exact (A1 t C)|].
      destruct W as [W|W]; [exact (A2 W t C)|]. rewrite C1 in W. discriminate.
  Qed.

  Lemma evs_cases : evs = [] \/ exists e, evs = [e].
  Proof. destruct S; eauto. Qed.
  Lemma invT_step : InvT m' tr' own' known'.
  Proof.
    destruct evs_cases as [E|(e & E)].
    - constructor.
      + intros i u e l Hi T. apply settled_old. rewrite E in Hi. cbn in Hi. rewrite app_nil_r in Hi. exact (i_acc _ _ _ _ IT i u e l Hi T).
      + rewrite E. cbn. rewrite app_nil_r. exact (i_hb _ _ _ _ IT).
    - assert (Et : tr' = tr ++ [(t, e)]) by (rewrite E; reflexivity). constructor.
      + intros i u e0 l Hi T. rewrite Et in Hi. destruct (nth_split _ _ _ _ Hi) as [Hi'|[-> X]].
        * apply settled_old. exact (i_acc _ _ _ _ IT i u e0 l Hi' T).
        * injection X as -> ->. exact (settled_new e l E T).
      + intros i j u v e1 e2 L Hi Hj N C. rewrite Et in *. destruct (nth_split _ _ _ _ Hj) as [Hj'|[-> X]].
        * destruct (nth_split _ _ _ _ Hi) as [Hi'|[-> _]]; [|pose proof (nth_lt _ _ _ Hj'); lia].
          apply hb_app. exact (i_hb _ _ _ _ IT i j u v e1 e2 L Hi' Hj' N C).
        * injection X as -> ->. destruct (nth_split _ _ _ _ Hi) as [Hi'|[-> _]]; [|lia].
          apply past_hb. exact (ordered i u e1 e E Hi' C).
  Qed.
End Step.

Definition good (s : mach) : Prop := exists ini own known,
  Inv (k_mem s) (k_threads s) ini own known /\ InvT (k_mem s) (k_trace s) own known.

Lemma good_start ps : good (mach_start ps).
Proof.
  exists (fun _ => false), (fun _ => []), (fun _ => []). split; constructor; cbn; try easy.
  - intros [|t] c; cbn; intros E; [injection E as <-; split; reflexivity|].
    apply nth_error_In, in_map_iff in E. destruct E as (p & <- & _). apply compile_ok.
  - intros [|i] t e l E; discriminate.
  - intros [|i] j t u e e' _ E; discriminate.
Qed.
Lemma good_step s s' : mach_step s s' -> good s -> good s'.
Proof.
  intros [t c c' m m' ts evs tr Ht S|rs m ts tr Ht Hk] (ini & own & known & I & IT); cbn [k_mem k_threads k_trace] in *.
  - do 3 eexists. split; [exact (inv_step _ _ _ _ _ _ _ _ _ _ I Ht S)|exact (invT_step _ _ _ _ _ _ _ _ _ _ I Ht S _ IT)].
  - exists ini, own, known. cbn [k_mem k_threads k_trace]. split; [|exact IT]. destruct I. constructor; try assumption.
    + intros u d E. destruct (Nat.eq_dec u 0) as [->|N].
      * rewrite (store_same _ _ _ _ Ht) in E. injection E as <-. pose proof (i_ok0 0 _ Ht) as O. cbn in O. destruct O as [-> ->]. apply clean_ok.
      * rewrite store_other in E by congruence. exact (i_ok0 u d E).
    + intros h E. rewrite store_len. auto.
    + intros u E. rewrite store_len. auto.
Qed.
Lemma good_run ps s : mach_run (mach_start ps) s -> good s.
Proof. intros H. remember (mach_start ps) as s0. induction H; [subst; apply good_start|eauto using good_step]. Qed.

Lemma no_race ps s : mach_run (mach_start ps) s -> ~ race (k_trace s).
Proof.
  intros R (i & j & t & u & e & e' & L & Hi & Hj & N & C & H). destruct (good_run _ _ R) as (ini & own & known & _ & IT).
  exact (H (i_hb _ _ _ _ IT i j t u e e' L Hi Hj N C)).
Qed.

(** ** Progress *)
Lemma can_step t c m own known ini : ok c (holds m t) ini own known -> (holds m t = true \/ ini = true) ->
  (exists c' m' evs, act_step t c m c' m' evs) \/ (exists k, c = Lock k) /\ holds m t = false.
Proof.
  intros O H. destruct c; cbn [ok] in O; try (left; do 3 eexists; apply (A_now t 0%Z); fail); try (left; repeat eexists; econstructor; fail).
  - destruct O as [O1 O2]. destruct H; congruence.
  - destruct O as [O1 O2]. destruct H; congruence.
  - right. split; [eauto|]. tauto.
  - left. destruct O as [O _]. apply holds_lock in O. do 3 eexists. constructor. exact O.
  - destruct O as (O1 & O2 & _). destruct H; congruence.
Qed.
Lemma progress ps s : mach_run (mach_start ps) s ->
  (exists t c, nth_error (k_threads s) t = Some c /\ ~ (exists rs, c = Done rs) /\ c <> Crash) ->
  exists u d c' m' evs, nth_error (k_threads s) u = Some d /\ act_step u d (k_mem s) c' m' evs.
Proof.
  intros R (t & c & Ht & N1 & N2). destruct (good_run _ _ R) as (ini & own & known & I & _). destruct s as [m ts tr]. cbn in *.
  assert (G : forall u c, nth_error ts u = Some c -> (exists c' m' evs, act_step u c m c' m' evs) -> exists u d c' m' evs, nth_error ts u = Some d /\ act_step u d m c' m' evs).
  { intros u d Hu (c' & m' & evs & S). exists u, d, c', m', evs. auto. }
  assert (NE : forall u, u < length ts -> exists d, nth_error ts u = Some d).
  { intros u L. apply nth_error_Some in L. destruct (nth_error ts u); [eauto|congruence]. }
  assert (HL : m_lock m <> None -> exists u d c' m' evs, nth_error ts u = Some d /\ act_step u d m c' m' evs).
  { intros HL. destruct (m_lock m) as [h|] eqn:El; [|congruence]. destruct (NE h (i_lock _ _ _ _ _ I h El)) as (d & Hd).
    assert (Hh : holds m h = true) by (apply holds_lock; exact El).
    destruct (can_step h d m (own h) (known h) (ini h) (i_ok _ _ _ _ _ I h d Hd) (or_introl Hh)) as [X|[_ X]]; [exact (G h d Hd X)|congruence]. }
  destruct (m_lock m) eqn:El; [apply HL; congruence|].
  assert (NB : forall k, (exists c' m' evs, act_step t (Lock k) m c' m' evs)) by (intros k; do 3 eexists; constructor; exact El).
  pose proof (i_ok _ _ _ _ _ I t c Ht) as O.
  destruct c; try (eapply G; [exact Ht|]; do 3 eexists; apply (A_now t 0%Z); fail); try (eapply G; [exact Ht|]; do 3 eexists; econstructor; fail).
  - destruct N1. eauto.
  - congruence.
  - exact (G t _ Ht (NB _)).
  - cbn in O. destruct O as [O _]. apply holds_lock in O. congruence.
  - destruct (m_once m) eqn:Eo.
    + eapply G; [exact Ht|]. do 3 eexists. apply A_once_run. exact Eo.
    + destruct (i_run _ _ _ _ _ I Eo) as (u & Eu). destruct (NE u (proj2 (i_ini _ _ _ _ _ I u Eu))) as (d & Hd).
      destruct (can_step u d m (own u) (known u) (ini u) (i_ok _ _ _ _ _ I u d Hd) (or_intror Eu)) as [X|[(k' & ->) _]]; [exact (G u d Hd X)|].
      apply (G u _ Hd). do 3 eexists. constructor. exact El.
    + eapply G; [exact Ht|]. do 3 eexists. apply A_once_pass. exact Eo.
Qed.

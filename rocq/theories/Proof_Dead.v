(** Tables without dead entries answer like the tables with them. *)
From Coq Require Import Lia ZifyBool ZifyNat ZifyN.
From Verif Require Import Model_Base Model_CacheEntry Model_Version Model_Ctx Model_Parse Spec_Getters Spec_Select Spec_Dead
  Proof_Base Proof_Safe Proof_Select.
Open Scope nat_scope.

(** ** Calls that do the same *)
Lemma alike_refl {A} (p : prog A) : alike p p.
Proof. induction p; cbn; auto. Qed.
Lemma alike_bind {A B} (p : prog A) : forall q (f g : A -> prog B), alike p q -> (forall a, alike (f a) (g a)) -> alike (prog_bind p f) (prog_bind q g).
Proof.
  induction p as [a|k r IH|k e p IH]; intros [b|k' r'|k' e' q] f g H K; cbn in H; try contradiction; cbn [prog_bind].
  - subst b. apply K.
  - destruct H as [-> H]. split; [reflexivity|]. intros o. apply IH; [apply H|exact K].
  - destruct H as (-> & -> & H). split; [reflexivity|]. split; [reflexivity|]. apply IH; assumption.
Qed.
Lemma alike_cold {A} (p : prog A) : forall q, alike p q -> run_cold p = run_cold q.
Proof.
  induction p as [a|k r IH|k e p IH]; intros [b|k' r'|k' e' q] H; cbn in H; try contradiction; cbn [run_cold].
  - exact H.
  - apply IH, H.
  - apply IH, H.
Qed.
Definition agree {A} (p q : P A) : Prop := forall c, alike (p c) (q c).
Lemma agree_refl {A} (p : P A) : agree p p.
Proof. intros c. apply alike_refl. Qed.
Lemma agree_bind {A B} (p q : P A) (f g : A -> P B) : agree p q -> (forall a, agree (f a) (g a)) -> agree (pbind p f) (pbind q g).
Proof. intros H K c. apply alike_bind; [apply H|]. intros [c' [a|]]; [apply K|reflexivity]. Qed.
Lemma agree_lift {A} (m m' : M A) : (forall c, m c = m' c) -> agree (plift m) (plift m').
Proof. intros H c. cbn. apply H. Qed.
Lemma agree_defer {A} (p q : P A) d e : agree p q -> (forall r, agree (d r) (e r)) -> agree (pdefer p d) (pdefer q e).
Proof. intros H K c. apply alike_bind; [apply H|]. intros [c' r]. apply alike_bind; [apply K|]. intros [c2 r2]. reflexivity. Qed.
Lemma agree_ensure flag p q : agree p q -> agree (ensure flag p) (ensure flag q).
Proof. intros H c. unfold ensure. destruct (check_bit _ _); [reflexivity|]. apply agree_bind; [exact H|intros; apply agree_refl]. Qed.

(** ** Searching a thinned list *)
(** Whenever the test says yes at one of the places, it says so earlier. *)
Definition shadowed {A} (test : A -> res bool) (places : list nat) (l : list A) : Prop :=
  forall i x, In i places -> nth_error l i = Some x -> exists b, test x = Ok b /\ (b = true -> exists j y, j < i /\ nth_error l j = Some y /\ test y = Ok true).
Lemma search_from {A} (test : A -> res bool) places l : forall done, shadowed test places (done ++ l) -> (forall y, In y done -> test y = Ok false) ->
  search test (without_from (length done) places l) = search test l.
Proof.
  induction l as [|x l IH]; intros done S D; [reflexivity|]. cbn [without_from].
  assert (N : nth_error (done ++ x :: l) (length done) = Some x) by (rewrite nth_error_app2, PeanoNat.Nat.sub_diag by lia; reflexivity).
  assert (R : test x = Ok false -> search test (without_from (1 + length done) places l) = search test l).
  { intros F. specialize (IH (done ++ [x])). rewrite app_length in IH. cbn [length] in IH. replace (1 + length done) with (length done + 1) by lia.
    apply IH; [rewrite <- app_assoc; exact S|]. intros y I. apply in_app_iff in I. destruct I as [I|[<-|[]]]; [exact (D y I)|exact F]. }
  destruct (existsb (Nat.eqb (length done)) places) eqn:E.
  - apply existsb_exists in E. destruct E as (i & I & E). apply PeanoNat.Nat.eqb_eq in E. subst i.
    destruct (S _ _ I N) as (b & T & K). destruct b.
    + destruct (K eq_refl) as (j & y & L & J & Y). rewrite nth_error_app1 in J by exact L. apply nth_error_In in J. rewrite (D y J) in Y. discriminate Y.
    + cbn [search]. rewrite T. cbn [rbind]. exact (R T).
  - cbn [search]. destruct (test x) as [[|]|] eqn:T; cbn [rbind]; [reflexivity| |reflexivity]. exact (R eq_refl).
Qed.
Lemma search_without {A} (test : A -> res bool) places l : shadowed test places l -> search test (without places l) = search test l.
Proof. intros H. apply (search_from test places l []); [exact H|intros y []]. Qed.

(** An entry is left if the first place is not taken out. *)
Lemma without_some {A} places (l : list A) : ~ In 0 places -> l <> [] -> without places l <> [].
Proof.
  intros H N. destruct l as [|x l]; [contradiction|]. unfold without. cbn [without_from]. destruct (existsb (Nat.eqb 0) places) eqn:E; [|discriminate].
  apply existsb_exists in E. destruct E as (i & I & E). destruct i; [contradiction|discriminate E].
Qed.
Lemma last_index {A} (l : list A) : (exists x, zindex l (Z.of_nat (length l) - 1) = Ok x) <-> l <> [].
Proof.
  split.
  - intros [x H] ->. discriminate H.
  - intros H. destruct (zindex l (Z.of_nat (length l) - 1)) as [x|] eqn:E; [eauto|]. exfalso.
    unfold zindex in E. destruct l as [|x l]; [contradiction|]. 
    replace (Z.of_nat (length (x :: l)) - 1)%Z with (Z.of_nat (length l)) in E by (cbn [length]; lia).
    destruct (Z.ltb_spec (Z.of_nat (length l)) 0); [lia|]. unfold index in E. replace (N.to_nat (Z.to_N (Z.of_nat (length l)))) with (length l) in E by lia.
    destruct (nth_error (x :: l) (length l)) eqn:F; [discriminate E|]. apply nth_error_None in F. cbn in F. lia.
Qed.
Lemma last_same {A B} (l l' : list A) (m : M B) c : (l <> [] <-> l' <> []) ->
  (mlift (zindex l (Z.of_nat (length l) - 1)) ;; m)%m c = (mlift (zindex l' (Z.of_nat (length l') - 1)) ;; m)%m c.
Proof.
  intros H. unfold mbind, mlift. pose proof (last_index l) as I. pose proof (last_index l') as I'.
  destruct (zindex l _) as [x|]; destruct (zindex l' _) as [x'|]; try reflexivity; exfalso.
  - assert (K : exists y, Panic = Ok y) by (apply I', H, I; eauto). destruct K as [y K]. discriminate K.
  - assert (K : exists y, Panic = Ok y) by (apply I, H, I'; eauto). destruct K as [y K]. discriminate K.
Qed.

Section Thin.
Variable T : tables.
Variables (os : list osTuple) (clients : list (list clientTuple)) (devices : list (list deviceTuple)).
Definition thinner {A} (test : bytes -> A -> res bool) (l l' : list A) : Prop :=
  (l' <> [] <-> l <> []) /\ forall ua, search (test ua) l' = search (test ua) l.
Definition thinner_each {A} (test : bytes -> A -> res bool) (ls ls' : list (list A)) : Prop := Forall2 (thinner test) ls ls'.
Hypothesis HO : thinner (ostest T) (or_os T) os.
Hypothesis HC : thinner_each (ctest T) (cr_idx T) clients.
Hypothesis HD : thinner_each (dtest T) (dr_idx T) devices.
Let T' := with_lists T os clients devices.

Lemma nth_thinner {A} (test : bytes -> A -> res bool) ls ls' : thinner_each test ls ls' -> forall n,
  match nth_error ls n, nth_error ls' n with Some l, Some l' => thinner test l l' | None, None => True | _, _ => False end.
Proof. intros H. induction H as [|l l' ls ls' H F IH]; intros [|n]; cbn; [exact I|exact I|exact H|exact (IH n)]. Qed.

Lemma thin_os c : eval_os T' c = eval_os T c.
Proof.
  unfold eval_os. change (or_os T') with os. rewrite (last_same os (or_os T)) by apply HO.
  unfold mbind, mlift, mget. destruct (zindex (or_os T) _); [|reflexivity].
  rewrite !os_loop_search. change (ostest T' (c_src c)) with (ostest T (c_src c)). rewrite (proj2 HO).
  destruct (search _ _) as [[x|]|]; reflexivity.
Qed.
Lemma class_same {A B} (test : bytes -> A -> res bool) ls ls' n (K K' : list A -> M B) c : thinner_each test ls ls' ->
  (forall l l', thinner test l l' -> forall c, K' l' c = K l c) ->
  (ir <- mlift (index ls' n) ;; mlift (zindex ir (Z.of_nat (length ir) - 1)) ;; K' ir)%m c =
  (ir <- mlift (index ls n) ;; mlift (zindex ir (Z.of_nat (length ir) - 1)) ;; K ir)%m c.
Proof.
  intros H E. unfold index. pose proof (nth_thinner _ _ _ H (N.to_nat n)) as N. unfold mbind at 1 3, mlift at 1 3.
  destruct (nth_error ls _) as [l|]; destruct (nth_error ls' _) as [l'|]; try contradiction; [|reflexivity].
  rewrite (last_same l' l) by apply N. unfold mbind. destruct (mlift _ c) as [c' [z|]]; [|reflexivity]. apply E, N.
Qed.
Lemma bind_same {A B} (m m' : M A) (f f' : A -> M B) c : (forall c, m' c = m c) -> (forall a c, f' a c = f a c) -> mbind m' f' c = mbind m f c.
Proof. intros H E. unfold mbind. rewrite H. destruct (m c) as [c' [a|]]; [apply E|reflexivity]. Qed.
Lemma thin_engine x c : eval_engine T' x c = eval_engine T x c.
Proof.
  unfold eval_engine. apply bind_same; [reflexivity|]. intros [] c1. apply bind_same; [reflexivity|]. intros [] c2.
  apply bind_same; [reflexivity|]. intros en c3. apply bind_same; [|reflexivity]. intros c4. destruct (en =? 0)%N; [|reflexivity].
  apply (class_same (ctest T)); [exact HC|]. intros l l' H c5. apply bind_same; [reflexivity|]. intros src c6.
  apply bind_same; [|reflexivity]. intros c7. unfold mlift. rewrite !engine_loop_search. change (ctest T' src) with (ctest T src).
  rewrite (proj2 H). reflexivity.
Qed.
Lemma thin_client idx c : eval_client T' idx c = eval_client T idx c.
Proof.
  unfold eval_client. apply (class_same (ctest T)); [exact HC|]. intros l l' H c1. apply bind_same.
  - intros c2. rewrite !client_loop_search. change (ctest T' (c_src c2)) with (ctest T (c_src c2)). rewrite (proj2 H).
    destruct (search _ _) as [[x|]|]; reflexivity.
  - intros [x|] c2; [|reflexivity]. apply bind_same; [reflexivity|]. intros [] c3. apply bind_same; [|reflexivity]. intros c4.
    destruct (idx =? cpBrowser); [apply thin_engine|reflexivity].
Qed.
Lemma thin_clients l c : client_try T' l c = client_try T l c.
Proof.
  revert c. induction l as [|[t idx] l IH]; intros c; [reflexivity|]. cbn [client_try]. apply bind_same; [reflexivity|]. intros m c1.
  destruct (negb _); [|apply IH]. apply bind_same; [apply thin_client|]. intros [|] c2; [reflexivity|apply IH].
Qed.
Lemma thin_device idx def c : eval_device_body T' idx def c = eval_device_body T idx def c.
Proof.
  unfold eval_device_body. apply (class_same (dtest T)); [exact HD|]. intros l l' H c1. apply bind_same; [reflexivity|]. intros src c2.
  apply bind_same; [|reflexivity]. intros c3. unfold mlift. rewrite !device_loop_search. change (dtest T' src) with (dtest T src).
  rewrite (proj2 H). reflexivity.
Qed.

Lemma thin_parse_client : agree (parse_client T') (parse_client T).
Proof.
  apply agree_bind; [apply agree_refl|]. intros o.
  assert (D : agree (pdefer (plift (client_try T' client_classes)) (fun _ => finish flagClientDetect))
    (pdefer (plift (client_try T client_classes)) (fun _ => finish flagClientDetect))).
  { apply agree_defer; [|intros; apply agree_refl]. apply agree_lift, thin_clients. }
  destruct o as [e|]; [|exact D]. destruct (check_bit _ _); [apply agree_refl|exact D].
Qed.
Lemma thin_parse_os : agree (parse_os T') (parse_os T).
Proof.
  apply agree_bind; [apply agree_refl|]. intros o.
  assert (D : agree (pdefer (plift (eval_os T')) (fun _ => finish flagOSDetect)) (pdefer (plift (eval_os T)) (fun _ => finish flagOSDetect))).
  { apply agree_defer; [|intros; apply agree_refl]. apply agree_lift, thin_os. }
  destruct o as [e|]; [|exact D]. destruct (check_bit _ _); [apply agree_refl|exact D].
Qed.
Lemma thin_get_os : agree (get_os T') (get_os T).
Proof. apply agree_bind; [apply agree_ensure, thin_parse_os|]. intros []. apply agree_refl. Qed.
Lemma thin_devices l : agree (device_try T' l) (device_try T l).
Proof.
  induction l as [|[[b idx] def] l IH]; [apply agree_refl|]. cbn [device_try]. apply agree_bind; [apply agree_refl|]. intros m.
  destruct (negb _); [|exact IH]. apply agree_bind.
  - apply agree_defer; [apply agree_lift, thin_device|]. intros r. unfold force_desktop.
    assert (D : agree (if idx =? dpNotebook then (os <- get_os T' ;; if in_list os desktopOS then plift (mmod (set_flag flagDeviceForceDesktop)) else pret tt)%p else pret tt)
      (if idx =? dpNotebook then (os <- get_os T ;; if in_list os desktopOS then plift (mmod (set_flag flagDeviceForceDesktop)) else pret tt)%p else pret tt)).
    { destruct (idx =? dpNotebook); [|apply agree_refl]. apply agree_bind; [apply thin_get_os|]. intros x. apply agree_refl. }
    destruct r as [[t|]|]; [apply agree_refl|exact D|exact D].
  - intros [t|]; [apply agree_refl|exact IH].
Qed.
Lemma thin_parse_device : agree (parse_device T') (parse_device T).
Proof.
  apply agree_bind; [apply agree_refl|]. intros o.
  assert (D : agree (pdefer (device_body T') (fun _ => finish flagDeviceDetect)) (pdefer (device_body T) (fun _ => finish flagDeviceDetect))).
  { apply agree_defer; [|intros; apply agree_refl]. apply agree_bind; [apply thin_devices|]. intros b. apply agree_refl. }
  destruct o as [e|]; [|exact D]. destruct (check_bit _ _); [apply agree_refl|exact D].
Qed.
Lemma thin_getter g : agree (run_getter T' g) (run_getter T g).
Proof.
  assert (MP : forall A B (f : A -> B) p q, agree p q -> agree (pmap f p) (pmap f q)) by (intros; apply agree_bind; [assumption|intros; apply agree_refl]).
  assert (C : forall A (m m' : M A), (forall c, m' c = m c) -> agree (ensure flagClientDetect (parse_client T') ;; plift m')%p (ensure flagClientDetect (parse_client T) ;; plift m)%p).
  { intros A m m' H. apply agree_bind; [apply agree_ensure, thin_parse_client|]. intros []. apply agree_lift, H. }
  assert (O : forall A (m m' : M A), (forall c, m' c = m c) -> agree (ensure flagOSDetect (parse_os T') ;; plift m')%p (ensure flagOSDetect (parse_os T) ;; plift m)%p).
  { intros A m m' H. apply agree_bind; [apply agree_ensure, thin_parse_os|]. intros []. apply agree_lift, H. }
  assert (D : forall A (m m' : M A), (forall c, m' c = m c) -> agree (ensure flagDeviceDetect (parse_device T') ;; plift m')%p (ensure flagDeviceDetect (parse_device T) ;; plift m)%p).
  { intros A m m' H. apply agree_bind; [apply agree_ensure, thin_parse_device|]. intros []. apply agree_lift, H. }
  destruct g; cbn [run_getter]; try apply MP; try (apply C; reflexivity); try (apply O; reflexivity); try (apply D; reflexivity).
  - intros c. unfold get_browser_version. destruct (v_p _); [reflexivity|]. apply agree_bind; [apply C; reflexivity|intros; apply agree_refl].
  - intros c. unfold get_engine_version. destruct (v_p _); [reflexivity|]. apply agree_bind; [apply C; reflexivity|intros; apply agree_refl].
  - intros c. unfold get_os_version. destruct (v_p _); [reflexivity|]. apply agree_bind; [apply O; reflexivity|intros; apply agree_refl].
  - apply agree_refl.
Qed.
Lemma thin_alone mC mD h ua g : alone T' mC mD h ua g = alone T mC mD h ua g.
Proof. unfold alone. rewrite (alike_cold _ _ (thin_getter g (fresh_ctx mC mD h ua))). reflexivity. Qed.
End Thin.

(** Taking out shadowed places makes a list thinner. *)
Lemma without_thinner {A} (test : bytes -> A -> res bool) places l : ~ In 0 places -> (forall ua, shadowed (test ua) places l) -> thinner test l (without places l).
Proof.
  intros Z H. split; [|intros ua; apply search_without, H]. split.
  - intros N ->. apply N. reflexivity.
  - apply without_some, Z.
Qed.
Lemma without_each_thinner {A} (test : bytes -> A -> res bool) ds : forall ls n,
  (forall k, ~ In (k, 0) ds) ->
  (forall k l, nth_error ls k = Some l -> forall ua, shadowed (test ua) (map snd (filter (fun d => fst d =? n + k) ds)) l) ->
  thinner_each test ls (without_each_from n ds ls).
Proof.
  induction ls as [|l ls IH]; intros n Z H; [constructor|]. cbn [without_each_from]. constructor.
  - apply without_thinner; [|intros ua; specialize (H 0 l eq_refl ua); rewrite PeanoNat.Nat.add_0_r in H; exact H].
    intros I. apply in_map_iff in I. destruct I as ([k i] & E & I). cbn in E. subst i. apply filter_In in I. exact (Z k (proj1 I)).
  - apply IH; [exact Z|]. intros k l' E ua. specialize (H (S k) l' E ua). replace (n + S k) with (S n + k) in H by lia. exact H.
Qed.

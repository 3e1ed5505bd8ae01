(** Proofs for C68: how often a context uses the cache. *)
From Coq Require Import Lia PeanoNat.
From Verif Require Import Model_Base Model_CacheEntry Model_Version Model_Ctx Model_Parse Model_Cache Spec_Getters Spec_Traffic
  Proof_Base Proof_Local.
Open Scope nat_scope.

(** The three flags. *)
Definition bits3 (b : N) : bool * bool * bool := (check_bit b flagClientDetect, check_bit b flagOSDetect, check_bit b flagDeviceDetect).
Definition has (f : bool * bool * bool) (i : N) : bool :=
  let '(c, o, d) := f in if (i =? flagClientDetect)%N then c else if (i =? flagOSDetect)%N then o else d.
Definition one (b : bool) : nat := if b then 1 else 0.
Definition cnt (f : bool * bool * bool) : nat := let '(c, o, d) := f in one c + one o + one d.
Definition fl (c : ctx) := bits3 (c_bits c).
Definition detect_flag (i : N) : Prop := i = flagClientDetect \/ i = flagOSDetect \/ i = flagDeviceDetect.

Definition keep {A} (m : M A) : Prop := forall c, fl (fst (m c)) = fl c /\ c_src (fst (m c)) = c_src c.
Lemma keep_ret {A} (a : A) : keep (mret a).
Proof. intros c. auto. Qed.
Lemma keep_get {A} (f : ctx -> A) : keep (mget f).
Proof. intros c. auto. Qed.
Lemma keep_lift {A} (r : res A) : keep (mlift r).
Proof. intros c. auto. Qed.
Lemma keep_mod f : (forall c, fl (f c) = fl c /\ c_src (f c) = c_src c) -> keep (mmod f).
Proof. intros H c. apply H. Qed.
Lemma keep_bind {A B} (m : M A) (f : A -> M B) : keep m -> (forall a, keep (f a)) -> keep (mbind m f).
Proof.
  intros H K c. unfold mbind. destruct (H c) as [H1 H2]. destruct (m c) as [c' [a|]]; cbn in *; [|auto].
  destruct (K a c') as [K1 K2]. split; congruence.
Qed.
Lemma keep_client {A} (m : M A) : local client_view client_rest m -> keep m.
Proof. intros [_ H] c. specialize (H c). unf. unfold fl, bits3. split; congruence. Qed.
Lemma keep_os {A} (m : M A) : local os_view os_rest m -> keep m.
Proof. intros [_ H] c. specialize (H c). unf. unfold fl, bits3. split; congruence. Qed.
Lemma keep_device {A} (m : M A) : local device_view device_rest m -> keep m.
Proof. intros [_ H] c. specialize (H c). unf. unfold fl, bits3. split; congruence. Qed.
Ltac keep_tac :=
  repeat first [apply keep_ret|apply keep_get|apply keep_lift|apply keep_bind; [|intros ?]|
    match goal with
    | |- keep (mmod _) => apply keep_mod; intros ?; split; reflexivity
    | |- keep (if ?x then _ else _) => destruct x
    | |- keep (match ?x with _ => _ end) => destruct x
    | |- keep (let _ := _ in _) => cbv zeta
    end].

Section Traffic.
Variable T : tables.
Variable ua : bytes.

(** [p], run with a private row [o] after [g] look-ups and [s] stores, uses the key [ua] only and ends in [Q]. *)
Fixpoint wp {A} (p : prog A) (o : option entry) (g s : nat) (Q : A -> option entry -> nat -> nat -> Prop) : Prop :=
  match p with
  | Ret a => Q a o g s
  | CGet key k => key = ua /\ wp (k None) None (S g) s Q /\
      forall e hk ts, o = Some e -> wp (k (Some (with_stamp e hk ts))) o (S g) s Q
  | CSet key e k => key = ua /\ wp k (Some e) g (S s) Q
  end.
Lemma wp_mono {A} (p : prog A) : forall o g s (Q R : A -> option entry -> nat -> nat -> Prop),
  (forall a o g s, Q a o g s -> R a o g s) -> wp p o g s Q -> wp p o g s R.
Proof.
  induction p as [a|key k IH|key e k IH]; intros o g s Q R H; cbn.
  - apply H.
  - intros (E & H1 & H2). split; [exact E|]. split; [exact (IH _ _ _ _ _ _ H H1)|]. intros. eapply IH; [exact H|apply H2; assumption].
  - intros (E & H1). split; [exact E|]. exact (IH _ _ _ _ _ H H1).
Qed.
Lemma wp_bind {A B} (p : prog A) (f : A -> prog B) : forall o g s Q,
  wp p o g s (fun a o g s => wp (f a) o g s Q) -> wp (prog_bind p f) o g s Q.
Proof.
  induction p as [a|key k IH|key e k IH]; intros o g s Q; cbn.
  - auto.
  - intros (E & H1 & H2). split; [exact E|]. split; [apply IH, H1|]. intros. apply IH, H2. assumption.
  - intros (E & H1). split; [exact E|]. apply IH, H1.
Qed.
Lemma wp_serves {A} o (p : prog A) l a o' : serves o p l a o' -> forall g s Q, wp p o g s Q ->
  Forall (fun x => key_of x = ua) l /\ Q a o' (looks l + g) (stores l + s).
Proof.
  induction 1 as [o a|o key k l a o' H IH|e hk ts key k l a o' H IH|o key e k l a o' H IH]; intros g s Q W; cbn in W.
  - split; [constructor|exact W].
  - destruct W as (E & W & _). destruct (IH _ _ _ W) as [F W']. split; [constructor; [exact E|exact F]|].
    unfold looks, stores in *. cbn. rewrite Nat.add_succ_r in W'. exact W'.
  - destruct W as (E & _ & W). destruct (IH _ _ _ (W e hk ts eq_refl)) as [F W']. split; [constructor; [exact E|exact F]|].
    unfold looks, stores in *. cbn. rewrite Nat.add_succ_r in W'. exact W'.
  - destruct W as (E & W). destruct (IH _ _ _ W) as [F W']. split; [constructor; [exact E|exact F]|].
    unfold looks, stores in *. cbn. rewrite Nat.add_succ_r in W'. exact W'.
Qed.

(** The state: [nd] says that the device detection is running. *)
Definition St (nd : bool) (c : ctx) (o : option entry) (g s : nat) : Prop :=
  c_src c = ua /\ g <= cnt (fl c) + one nd /\ s <= cnt (fl c) /\
  ((forall e, o = Some e -> bits3 (e_bits e) = fl c) \/ cnt (fl c) = 0) /\
  (nd = true -> has (fl c) flagDeviceDetect = false /\ forall e, o = Some e -> has (bits3 (e_bits e)) flagDeviceDetect = false).
Definition Post {A} (nd : bool) (i : option N) (x : ctx * res A) (o : option entry) (g s : nat) : Prop :=
  St nd (fst x) o g s /\ match i with Some i => has (fl (fst x)) i = true | None => True end.

Lemma St_keep nd c c' o g s : fl c' = fl c -> c_src c' = c_src c -> St nd c o g s -> St nd c' o g s.
Proof. unfold St. intros -> ->. auto. Qed.
Lemma bits_set i c : c_bits (set_flag i c) = N.setbit (c_bits c) i.
Proof. reflexivity. Qed.
Lemma fl_set i c : detect_flag i -> has (fl c) i = false ->
  cnt (fl (set_flag i c)) = S (cnt (fl c)) /\ has (fl (set_flag i c)) i = true /\
  (forall j, detect_flag j -> j <> i -> has (fl (set_flag i c)) j = has (fl c) j).
Proof.
  intros D H.
  assert (E : fl (set_flag i c) = ((if (i =? flagClientDetect)%N then true else has (fl c) flagClientDetect),
    (if (i =? flagOSDetect)%N then true else has (fl c) flagOSDetect), (if (i =? flagDeviceDetect)%N then true else has (fl c) flagDeviceDetect))).
  { unfold fl, bits3. rewrite bits_set. unfold check_bit, has.
    rewrite !N.setbit_eqb. destruct D as [->|[->| ->]]; reflexivity. }
  rewrite E. destruct (fl c) as [[x y] z]. clear E c.
  destruct D as [->|[->| ->]]; unfold has, flagClientDetect, flagOSDetect, flagDeviceDetect in *; cbn in H |- *; (split; [destruct x, y, z; first [discriminate H|reflexivity]|split; [reflexivity|]]); intros j [->|[->| ->]] Nj; first [exfalso; apply Nj; reflexivity|reflexivity].
Qed.
Lemma from_cache_fl e hk ts c : fl (from_cache (with_stamp e hk ts) c) = bits3 (e_bits e) /\ c_src (from_cache (with_stamp e hk ts) c) = c_src c.
Proof. destruct e, c. cbn. auto. Qed.
Lemma from_ctx_fl c : bits3 (e_bits (from_ctx c)) = fl c.
Proof. destruct c. reflexivity. Qed.

Lemma wp_finish nd i c o g s : detect_flag i -> (i = flagDeviceDetect -> nd = false) -> has (fl c) i = false ->
  c_src c = ua -> g <= S (cnt (fl c)) + one nd -> s <= cnt (fl c) ->
  (nd = true -> has (fl c) flagDeviceDetect = false) ->
  wp (finish i c) o g s (Post nd (Some i)).
Proof.
  intros D Nd H Es Hg Hs Hd. destruct (fl_set i c D H) as (F1 & F2 & F3).
  change (c_src c = ua /\ Post nd (Some i) (set_flag i c, Ok tt) (Some (from_ctx (set_flag i c))) g (S s)).
  set (c' := set_flag i c) in *. assert (Es' : c_src c' = ua) by exact Es. clearbody c'.
  assert (K : nd = true -> has (fl c') flagDeviceDetect = false).
  { intros E. rewrite F3; [apply Hd; exact E|right; right; reflexivity|]. intros X. rewrite Nd in E; [discriminate E|symmetry; exact X]. }
  split; [exact Es|]. split; [|exact F2]. unfold St. cbn [fst]. rewrite F1.
  split; [exact Es'|]. split; [lia|]. split; [lia|]. split; [left|].
  - intros e E. injection E as <-. apply from_ctx_fl.
  - intros E. split; [apply K, E|]. intros e X. injection X as <-. rewrite from_ctx_fl. apply K, E.
Qed.

Lemma wp_pbind {A B} (m : P A) (f : A -> P B) c o g s Q :
  wp (m c) o g s (fun x o g s => match x with (c', Ok a) => wp (f a c') o g s Q | (c', Panic) => Q (c', Panic) o g s end) ->
  wp (pbind m f c) o g s Q.
Proof. intros H. unfold pbind. apply wp_bind. eapply wp_mono; [|exact H]. intros [c' [a|]] o' g' s' X; exact X. Qed.
Lemma wp_pdefer {A} (body : P A) (d : res A -> P unit) c o g s Q :
  wp (body c) o g s (fun x o g s => wp (d (snd x) (fst x)) o g s
    (fun y o g s => Q (fst y, match snd y with Ok _ => snd x | Panic => Panic end) o g s)) ->
  wp (pdefer body d c) o g s Q.
Proof.
  intros H. unfold pdefer. apply wp_bind. eapply wp_mono; [|exact H]. intros [c1 r] o' g' s' X. cbn [fst snd] in X.
  apply wp_bind. eapply wp_mono; [|exact X]. intros [c2 r2] o2 g2 s2 Y. exact Y.
Qed.
Lemma wp_lift {A} (m : M A) nd i c o g s : keep m -> St nd c o g s ->
  match i with Some i => has (fl c) i = true | None => True end -> wp (plift m c) o g s (Post nd i).
Proof.
  intros K H Hi. destruct (K c) as [K1 K2]. cbn. split; [eapply St_keep; eassumption|]. destruct i; [rewrite K1|]; exact Hi.
Qed.

Lemma has_check i c : detect_flag i -> has (fl c) i = check_bit (c_bits c) i.
Proof. intros [->|[->| ->]]; reflexivity. Qed.
Lemma has_checke i (e : entry) : detect_flag i -> has (bits3 (e_bits e)) i = check_bit (e_bits e) i.
Proof. intros [->|[->| ->]]; reflexivity. Qed.
Lemma cnt_pos f i : detect_flag i -> has f i = true -> 1 <= cnt f.
Proof. destruct f as [[x y] z]. intros [->|[->| ->]]; destruct x, y, z; cbn; intros H; first [discriminate H|lia]. Qed.
Lemma with_stamp_bits e hk ts : e_bits (with_stamp e hk ts) = e_bits e.
Proof. destruct e. reflexivity. Qed.

(** A detection: the look-up, the body, the store. *)
Definition detector (i : N) (body : P bool) : P bool :=
  (o <- pcget get_user_agent ;;
   match o with
   | Some e => if check_bit (e_bits e) i then plift (mmod (from_cache e)) ;; pret true else pdefer body (fun _ => finish i)
   | None => pdefer body (fun _ => finish i)
   end)%p.

(** The state in which the body runs. *)
Definition Bd (nd : bool) (i : N) (c : ctx) (o : option entry) (g s : nat) : Prop :=
  c_src c = ua /\ g <= S (cnt (fl c)) + one nd /\ s <= cnt (fl c) /\ has (fl c) i = false /\
  (forall e, o = Some e -> has (bits3 (e_bits e)) i = false) /\
  ((forall e, o = Some e -> bits3 (e_bits e) = fl c) \/ cnt (fl c) = 0) /\
  (nd = true -> has (fl c) flagDeviceDetect = false /\ forall e, o = Some e -> has (bits3 (e_bits e)) flagDeviceDetect = false).

Lemma wp_detector nd i body c o g s : detect_flag i -> (i = flagDeviceDetect -> nd = false) ->
  St nd c o g s -> has (fl c) i = false ->
  (forall o g s, Bd nd i c o g s -> wp (body c) o g s (fun x o g s => Bd nd i (fst x) o g s)) ->
  wp (detector i body c) o g s (Post nd (Some i)).
Proof.
  intros D Nd (Es & Hg & Hs & Hf & Hd) Hi HB. unfold detector. apply wp_pbind. cbn [pcget wp].
  assert (B : forall o', (forall e, o' = Some e -> o = Some e /\ has (bits3 (e_bits e)) i = false) ->
    wp (pdefer body (fun _ => finish i) c) o' (S g) s (Post nd (Some i))).
  { intros o' Ho'. apply wp_pdefer. eapply wp_mono; [|apply HB].
    - intros [c1 r] o1 g1 s1 (B1 & B2 & B3 & B4 & B5 & B6 & B7). cbn [fst snd] in *.
      eapply wp_mono; [|apply (wp_finish nd); try assumption; intros E; apply (B7 E)].
      intros [c2 r2] o2 g2 s2 [S1 S2]. split; assumption.
    - unfold Bd. split; [exact Es|]. split; [lia|]. split; [exact Hs|]. split; [exact Hi|].
      split; [intros e E; apply (Ho' e E)|]. split.
      + destruct Hf as [Hf|Hf]; [left|right; exact Hf]. intros e E. apply Hf, (Ho' e E).
      + intros E. destruct (Hd E) as [Hd1 Hd2]. split; [exact Hd1|]. intros e X. apply Hd2, (Ho' e X). }
  split; [exact Es|]. split.
  - apply B. discriminate.
  - intros e hk ts E. destruct (check_bit (e_bits (with_stamp e hk ts)) i) eqn:C.
    + rewrite with_stamp_bits, <- has_checke in C by exact D.
      destruct Hf as [Hf|Hf]; [rewrite (Hf e E) in C; congruence|].
      destruct (from_cache_fl e hk ts c) as [F1 F2].
      change (Post nd (Some i) (from_cache (with_stamp e hk ts) c, Ok true) o (S g) s).
      set (c' := from_cache (with_stamp e hk ts) c) in *. clearbody c'. pose proof (cnt_pos _ _ D C).
      split; [|cbn [fst]; rewrite F1; exact C]. unfold St. cbn [fst]. rewrite F1, F2.
      split; [exact Es|]. split; [lia|]. split; [lia|]. split; [left; intros e' E'; congruence|].
      intros X. split; [apply (proj2 (Hd X) e E)|apply (proj2 (Hd X))].
    + rewrite with_stamp_bits, <- has_checke in C by exact D. apply B. intros e' E'. split; [exact E'|]. congruence.
Qed.

Lemma wp_pure nd i (m : M bool) c o g s : keep m -> Bd nd i c o g s -> wp (plift m c) o g s (fun x o g s => Bd nd i (fst x) o g s).
Proof. intros K H. destruct (K c) as [K1 K2]. cbn. unfold Bd in *. rewrite K1, K2. exact H. Qed.

Lemma wp_ensure nd i body c o g s : detect_flag i -> (i = flagDeviceDetect -> nd = false) ->
  (forall o g s, Bd nd i c o g s -> wp (body c) o g s (fun x o g s => Bd nd i (fst x) o g s)) ->
  St nd c o g s -> wp (ensure i (detector i body) c) o g s (Post nd (Some i)).
Proof.
  intros D Nd HB H. unfold ensure. destruct (check_bit (c_bits c) i) eqn:C; rewrite <- has_check in C by exact D.
  - cbn. split; assumption.
  - apply wp_pbind. eapply wp_mono; [|apply wp_detector; eassumption]. intros [c' [b|]] o' g' s' [X Y]; split; assumption.
Qed.

(** ** The getters *)
Lemma os_wp nd c o g s : St nd c o g s -> wp (ensure flagOSDetect (parse_os T) c) o g s (Post nd (Some flagOSDetect)).
Proof.
  apply (wp_ensure nd flagOSDetect (plift (eval_os T))); [right; left; reflexivity|discriminate|].
  intros. apply wp_pure; [apply keep_os, local_eval_os|assumption].
Qed.
Lemma client_wp nd c o g s : St nd c o g s -> wp (ensure flagClientDetect (parse_client T) c) o g s (Post nd (Some flagClientDetect)).
Proof.
  apply (wp_ensure nd flagClientDetect (plift (client_try T client_classes))); [left; reflexivity|discriminate|].
  intros. apply wp_pure; [apply keep_client, local_client_try|assumption].
Qed.

(** The device detection: the body may detect the operating system, once. *)
Definition Bn (c : ctx) (o : option entry) (g s : nat) : Prop := St true c o g s.
Lemma Bd_St c o g s : Bd false flagDeviceDetect c o g s -> St true c o g s.
Proof. unfold Bd, St. cbn [one]. intros (B1 & B2 & B3 & B4 & B5 & B6 & B7). repeat (split; [first [assumption|lia]|]). auto. Qed.
Lemma St_Bd c o g s : St true c o g s -> Bd false flagDeviceDetect c o g s.
Proof.
  unfold Bd, St. cbn [one]. intros (B1 & B2 & B3 & B4 & B5). destruct (B5 eq_refl). repeat (split; [first [assumption|lia]|]). discriminate.
Qed.
Lemma force_fl c : fl (set_flag flagDeviceForceDesktop c) = fl c /\ c_src (set_flag flagDeviceForceDesktop c) = c_src c.
Proof. split; [|reflexivity]. unfold fl, bits3. rewrite bits_set. unfold check_bit. rewrite !N.setbit_eqb. reflexivity. Qed.

Lemma keep_read_os : keep (read_os T).
Proof. unfold read_os. keep_tac. Qed.

Lemma get_os_wp nd c o g s : St nd c o g s -> wp (get_os T c) o g s (Post nd (Some flagOSDetect)).
Proof.
  intros H. unfold get_os. apply wp_pbind. eapply wp_mono; [|apply os_wp, H].
  intros [c' [a|]] o' g' s' [X Y]; [|split; assumption]. apply wp_lift; [apply keep_read_os|exact X|exact Y].
Qed.

Lemma eval_device_wp idx def c o g s : St true c o g s -> wp (eval_device T idx def c) o g s (fun x o g s => St true (fst x) o g s).
Proof.
  intros H. unfold eval_device. apply wp_pdefer. cbn [plift wp].
  destruct (keep_device _ (local_eval_device_body T idx def) c) as [K1 K2].
  pose proof (St_keep _ _ _ _ _ _ K1 K2 H) as H1. clear H. destruct (eval_device_body T idx def c) as [c1 r]. cbn [fst snd] in *.
  assert (S0 : wp (pret tt c1) o g s (fun (y : ctx * res unit) o g s => St true (fst y) o g s)) by exact H1.
  unfold force_desktop. destruct r as [[t|]|]; [exact S0| |].
  all: destruct (idx =? dpNotebook); [|exact S0]; apply wp_pbind; (eapply wp_mono; [|apply get_os_wp, H1]);
    intros [c2 [os|]] o2 g2 s2 [X _]; [|exact X]; (destruct (in_list os desktopOS); [|exact X]);
    destruct (force_fl c2) as [F1 F2]; exact (St_keep _ _ _ _ _ _ F1 F2 X).
Qed.
Lemma device_try_wp l : forall c o g s, St true c o g s -> wp (device_try T l c) o g s (fun x o g s => St true (fst x) o g s).
Proof.
  induction l as [|[[bit idx] def] l IH]; intros c o g s H; cbn [device_try]; [exact H|].
  apply wp_pbind. cbn [plift mget wp]. destruct (negb _); [|apply IH, H].
  apply wp_pbind. eapply wp_mono; [|apply eval_device_wp, H]. intros [c1 [[typ|]|]] o1 g1 s1 X; cbn [fst] in X; [exact X|apply IH, X|exact X].
Qed.
Lemma device_wp c o g s : St false c o g s -> wp (ensure flagDeviceDetect (parse_device T) c) o g s (Post false (Some flagDeviceDetect)).
Proof.
  apply (wp_ensure false flagDeviceDetect (device_body T)); [right; right; reflexivity|reflexivity|].
  clear o g s. intros o g s H%Bd_St. eapply wp_mono; [intros x o' g' s' X; apply St_Bd; exact X|].
  unfold device_body. apply wp_pbind. eapply wp_mono; [|apply device_try_wp, H].
  intros [c1 [[]|]] o1 g1 s1 X; cbn [fst] in X; [exact X| |exact X].
  cbn [plift wp]. destruct (keep_device _ (local_device_fallback T) c1) as [K1 K2]. exact (St_keep _ _ _ _ _ _ K1 K2 X).
Qed.

(** A getter: a detection, then a reading. *)
Lemma wp_read {A} (d : P unit) (read : M A) c o g s :
  keep read -> wp (d c) o g s (fun x o g s => St false (fst x) o g s) ->
  wp ((d ;; plift read)%p c) o g s (fun x o g s => St false (fst x) o g s).
Proof.
  intros K H. apply wp_pbind. eapply wp_mono; [|exact H]. intros [c' [[]|]] o' g' s' X; [|exact X].
  destruct (K c') as [K1 K2]. exact (St_keep _ _ _ _ _ _ K1 K2 X).
Qed.
Lemma wp_map {A B} (f : A -> B) (p : P A) c o g s :
  wp (p c) o g s (fun x o g s => St false (fst x) o g s) -> wp (pmap f p c) o g s (fun x o g s => St false (fst x) o g s).
Proof. intros H. unfold pmap. apply wp_pbind. eapply wp_mono; [|exact H]. intros [c' [a|]] o' g' s' X; exact X. Qed.
Lemma wp_struct (p : P bytes) (get : ctx -> version) (put : version -> ctx -> ctx) c o g s :
  (forall v c, fl (put v c) = fl c /\ c_src (put v c) = c_src c) ->
  wp (p c) o g s (fun x o g s => St false (fst x) o g s) -> St false c o g s ->
  wp ((fun c => if v_p (get c) then Ret (c, Ok (get c))
           else (raw <- p ;; plift (mmod (fun c => put (fst (parse (get c) raw)) c)) ;; plift (mget get))%p c) c) o g s
    (fun x o g s => St false (fst x) o g s).
Proof.
  intros Hp H H0. cbv beta. destruct (v_p (get c)); [exact H0|]. apply wp_pbind. eapply wp_mono; [|exact H].
  intros [c' [raw|]] o' g' s' X; [|exact X]. destruct (Hp (fst (parse (get c') raw)) c') as [K1 K2].
  exact (St_keep _ _ _ _ _ _ K1 K2 X).
Qed.
Lemma Post_St {A} nd i (x : ctx * res A) o g s : Post nd i x o g s -> St nd (fst x) o g s.
Proof. intros [H _]. exact H. Qed.

Lemma getter_wp gt c o g s : St false c o g s -> wp (run_getter T gt c) o g s (fun x o g s => St false (fst x) o g s).
Proof.
  intros H.
  assert (HC : wp (ensure flagClientDetect (parse_client T) c) o g s (fun x o g s => St false (fst x) o g s)).
  { eapply wp_mono; [|apply client_wp, H]. intros x o' g' s'. apply Post_St. }
  assert (HO : wp (ensure flagOSDetect (parse_os T) c) o g s (fun x o g s => St false (fst x) o g s)).
  { eapply wp_mono; [|apply os_wp, H]. intros x o' g' s'. apply Post_St. }
  assert (HD : wp (ensure flagDeviceDetect (parse_device T) c) o g s (fun x o g s => St false (fst x) o g s)).
  { eapply wp_mono; [|apply device_wp, H]. intros x o' g' s'. apply Post_St. }
  destruct gt; cbn [run_getter].
  - apply wp_map, wp_read; [keep_tac|exact HC].
  - apply wp_map, wp_read; [unfold read_browser; keep_tac|exact HC].
  - apply wp_map, wp_struct; [split; reflexivity| |exact H]. apply wp_read; [unfold read_browser_version; keep_tac|exact HC].
  - apply wp_map, wp_read; [unfold read_browser_version; keep_tac|exact HC].
  - apply wp_map, wp_read; [unfold read_engine; keep_tac|exact HC].
  - apply wp_map, wp_struct; [split; reflexivity| |exact H]. apply wp_read; [unfold read_engine_version; keep_tac|exact HC].
  - apply wp_map, wp_read; [unfold read_engine_version; keep_tac|exact HC].
  - apply wp_map, wp_read; [unfold read_device_type; keep_tac|exact HD].
  - apply wp_map, wp_read; [unfold read_brand; keep_tac|exact HD].
  - apply wp_map, wp_read; [unfold read_model; keep_tac|exact HD].
  - apply wp_map, wp_read; [apply keep_read_os|exact HO].
  - apply wp_map, wp_struct; [split; reflexivity| |exact H]. apply wp_read; [unfold read_os_version, append_buf; keep_tac|exact HO].
  - apply wp_map, wp_read; [unfold read_os_version, append_buf; keep_tac|exact HO].
  - exact H.
Qed.
Lemma script_wp mC mD l : Forall stays l -> forall c o g s, St false c o g s ->
  wp (script T mC mD l c) o g s (fun _ _ g s => g <= 3 /\ s <= 3).
Proof.
  induction 1 as [|x l Hx _ IH]; intros c o g s H; cbn [script].
  - destruct H as (_ & Hg & Hs & _). assert (cnt (fl c) <= 3) by (destruct (fl c) as [[[] []] []]; cbn; lia). cbn [one] in Hg. cbn [wp]. lia.
  - destruct x as [u|h| |gt]; try destruct Hx.
    + apply IH. eapply St_keep; [| |exact H]; unfold set_requested_with; destruct h; reflexivity.
    + apply wp_bind. eapply wp_mono; [|apply getter_wp, H]. intros x o' g' s' X. apply wp_bind.
      eapply wp_mono; [|apply IH, X]. intros rs o2 g2 s2 Y. exact Y.
Qed.
End Traffic.

Lemma three T mC mD ua l o c res tr o' :
  Forall stays l -> serves o (script T mC mD (ASetUA ua :: l) c) tr res o' ->
  looks tr <= 3 /\ stores tr <= 3 /\ Forall (fun x => key_of x = ua) tr.
Proof.
  intros Hl H. cbn [script] in H.
  assert (S0 : St ua false (set_user_agent ua c) o 0 0).
  { unfold St. split; [reflexivity|]. split; [cbn; lia|]. split; [cbn; lia|]. split; [right; reflexivity|discriminate]. }
  destruct (wp_serves ua _ _ _ _ _ H 0 0 _ (script_wp T ua mC mD l Hl _ _ _ _ S0)) as [F [G S]]. rewrite Nat.add_0_r in *. auto.
Qed.

(** ** Any cache at all: the budget of a getter *)
Section Any.
Variable T : tables.
Variable ua : bytes.

Fixpoint ta {A} (p : prog A) (g s : nat) (Q : A -> nat -> nat -> Prop) : Prop :=
  match p with
  | Ret a => Q a g s
  | CGet key k => key = ua /\ 0 < g /\ forall o, ta (k o) (pred g) s Q
  | CSet key e k => key = ua /\ 0 < s /\ ta k g (pred s) Q
  end.
Lemma ta_mono {A} (p : prog A) : forall g s (Q R : A -> nat -> nat -> Prop),
  (forall a g s, Q a g s -> R a g s) -> ta p g s Q -> ta p g s R.
Proof.
  induction p as [a|key k IH|key e k IH]; intros g s Q R H; cbn.
  - apply H.
  - intros (E & L & H1). split; [exact E|]. split; [exact L|]. intros o. exact (IH _ _ _ _ _ H (H1 o)).
  - intros (E & L & H1). split; [exact E|]. split; [exact L|]. exact (IH _ _ _ _ H H1).
Qed.
Lemma ta_bind {A B} (p : prog A) (f : A -> prog B) : forall g s Q, ta p g s (fun a g s => ta (f a) g s Q) -> ta (prog_bind p f) g s Q.
Proof.
  induction p as [a|key k IH|key e k IH]; intros g s Q; cbn.
  - auto.
  - intros (E & L & H1). split; [exact E|]. split; [exact L|]. intros o. apply IH, H1.
  - intros (E & L & H1). split; [exact E|]. split; [exact L|]. apply IH, H1.
Qed.
Lemma ta_talks {A} (p : prog A) l a : talks p l a -> forall g s Q, ta p g s Q ->
  Forall (fun x => key_of x = ua) l /\ looks l <= g /\ stores l <= s /\ Q a (g - looks l) (s - stores l).
Proof.
  induction 1 as [a|key k o l a H IH|key e k l a H IH]; intros g s Q W; cbn in W.
  - cbn. rewrite !Nat.sub_0_r. repeat split; try lia; [constructor|exact W].
  - destruct W as (E & L & W). destruct (IH _ _ _ (W o)) as (F & F1 & F2 & F3). unfold looks, stores in *. cbn.
    split; [constructor; [exact E|exact F]|]. split; [lia|]. split; [lia|]. replace (g - S _) with (pred g - length (filter
      (fun x : call => match x with Look _ => true | Store _ => false end) l)) by lia. exact F3.
  - destruct W as (E & L & W). destruct (IH _ _ _ W) as (F & F1 & F2 & F3). unfold looks, stores in *. cbn.
    split; [constructor; [exact E|exact F]|]. split; [lia|]. split; [lia|]. replace (s - S _) with (pred s - length (filter
      (fun x : call => match x with Look _ => false | Store _ => true end) l)) by lia. exact F3.
Qed.
Lemma ta_pbind {A B} (m : P A) (f : A -> P B) c g s Q :
  ta (m c) g s (fun x g s => match x with (c', Ok a) => ta (f a c') g s Q | (c', Panic) => Q (c', Panic) g s end) ->
  ta (pbind m f c) g s Q.
Proof. intros H. unfold pbind. apply ta_bind. eapply ta_mono; [|exact H]. intros [c' [a|]] g' s' X; exact X. Qed.
Lemma ta_pdefer {A} (body : P A) (d : res A -> P unit) c g s Q :
  ta (body c) g s (fun x g s => ta (d (snd x) (fst x)) g s (fun y g s => Q (fst y, match snd y with Ok _ => snd x | Panic => Panic end) g s)) ->
  ta (pdefer body d c) g s Q.
Proof.
  intros H. unfold pdefer. apply ta_bind. eapply ta_mono; [|exact H]. intros [c1 r] g' s' X. cbn [fst snd] in X.
  apply ta_bind. eapply ta_mono; [|exact X]. intros [c2 r2] g2 s2 Y. exact Y.
Qed.

(** After a detection: the flag is set, the user agent is the same. *)
Definition Aft {A} (i : N) (x : ctx * res A) (g s : nat) : Prop := c_src (fst x) = ua /\ has (fl (fst x)) i = true.
Lemma fl_set_same i c : detect_flag i -> has (fl (set_flag i c)) i = true.
Proof. intros D. rewrite has_check by exact D. rewrite bits_set. unfold check_bit. apply N.setbit_eq. Qed.
Lemma ta_detector i body c : detect_flag i -> c_src c = ua -> forall gb sb,
  ta (body c) gb sb (fun x g s => c_src (fst x) = ua) ->
  ta (detector i body c) (S gb) (S sb) (Aft i).
Proof.
  intros D Es gb sb HB. unfold detector. apply ta_pbind. cbn [pcget ta].
  assert (B : ta (pdefer body (fun _ => finish i) c) gb (S sb) (Aft i)).
  { apply ta_pdefer.
    assert (HB' : ta (body c) gb (S sb) (fun x g s => c_src (fst x) = ua /\ 0 < s)).
    { clear - HB. revert gb sb HB. generalize (body c). intros p. induction p as [a|key k IH|key e k IH]; cbn; intros gb sb.
      - intros H. split; [exact H|lia].
      - intros (E & L & H). split; [exact E|]. split; [exact L|]. intros o. apply IH, H.
      - intros (E & L & H). split; [exact E|]. split; [lia|]. destruct sb as [|sb]; [lia|]. apply IH, H. }
    eapply ta_mono; [|exact HB']. intros [c1 r] g1 s1 [X L]. cbn [fst snd] in *.
    change (c_src c1 = ua /\ 0 < s1 /\ Aft i (set_flag i c1, r) g1 (pred s1)).
    split; [exact X|]. split; [exact L|]. split; [exact X|]. apply (fl_set_same i c1 D). }
  split; [exact Es|]. split; [lia|]. intros [e|]; [|exact B].
  destruct (check_bit (e_bits e) i) eqn:C; [|exact B].
  change (Aft i (from_cache e c, Ok true) gb (S sb)). split; [destruct e, c; exact Es|].
  rewrite <- has_checke in C by exact D. rewrite <- C. destruct e, c. reflexivity.
Qed.
Lemma ta_ensure i body c : detect_flag i -> c_src c = ua -> forall gb sb,
  (has (fl c) i = false -> ta (body c) gb sb (fun x g s => c_src (fst x) = ua)) ->
  ta (ensure i (detector i body) c) (if has (fl c) i then 0 else S gb) (if has (fl c) i then 0 else S sb) (Aft i).
Proof.
  intros D Es gb sb HB. unfold ensure. rewrite <- has_check by exact D. destruct (has (fl c) i) eqn:C.
  - cbn. split; assumption.
  - apply ta_pbind. eapply ta_mono; [|apply ta_detector; auto]. intros [c' [b|]] g' s' X; exact X.
Qed.
Lemma ta_pure (m : M bool) c : keep m -> c_src c = ua -> ta (plift m c) 0 0 (fun x g s => c_src (fst x) = ua).
Proof. intros K H. destruct (K c) as [_ K2]. cbn. congruence. Qed.
Lemma os_ta c : c_src c = ua -> ta (ensure flagOSDetect (parse_os T) c) (if has (fl c) flagOSDetect then 0 else 1)
  (if has (fl c) flagOSDetect then 0 else 1) (Aft flagOSDetect).
Proof.
  intros E. apply (ta_ensure flagOSDetect (plift (eval_os T))); [right; left; reflexivity|exact E|].
  intros _. apply ta_pure; [apply keep_os, local_eval_os|exact E].
Qed.
Lemma client_ta c : c_src c = ua -> ta (ensure flagClientDetect (parse_client T) c) (if has (fl c) flagClientDetect then 0 else 1)
  (if has (fl c) flagClientDetect then 0 else 1) (Aft flagClientDetect).
Proof.
  intros E. apply (ta_ensure flagClientDetect (plift (client_try T client_classes))); [left; reflexivity|exact E|].
  intros _. apply ta_pure; [apply keep_client, local_client_try|exact E].
Qed.

(** In the body of the device detection one detection of the operating system is left, or it is done. *)
Definition Dv (c : ctx) (g s : nat) : Prop := c_src c = ua /\ (has (fl c) flagOSDetect = true \/ 1 <= g /\ 1 <= s).
Lemma ta_more {A} (p : prog A) : forall g s g' s' (Q : A -> nat -> nat -> Prop) (R : A -> nat -> nat -> Prop),
  (forall a x y x' y', Q a x y -> R a x' y') -> g <= g' -> s <= s' -> ta p g s Q -> ta p g' s' R.
Proof.
  induction p as [a|key k IH|key e k IH]; intros g s g' s' Q R H Hg Hs; cbn.
  - apply H.
  - intros (E & L & H1). split; [exact E|]. split; [lia|]. intros o. eapply IH; [exact H| |exact Hs|apply H1]. lia.
  - intros (E & L & H1). split; [exact E|]. split; [lia|]. eapply IH; [exact H|exact Hg| |apply H1]. lia.
Qed.
Lemma get_os_ta c g s : Dv c g s -> ta (get_os T c) g s (fun x g s => Dv (fst x) g s).
Proof.
  intros [E H]. unfold get_os. apply ta_pbind. eapply ta_more; [| | |apply os_ta, E].
  - intros [c' [a|]] x y x' y' [X1 X2]; cbn [fst] in *.
    + cbn [plift ta]. destruct (keep_read_os T c') as [K1 K2]. split; [congruence|left; congruence].
    + split; [exact X1|left; exact X2].
  - destruct (has (fl c) flagOSDetect); [lia|]. destruct H; [discriminate|lia].
  - destruct (has (fl c) flagOSDetect); [lia|]. destruct H; [discriminate|lia].
Qed.
Lemma Dv_keep c c' g s : fl c' = fl c -> c_src c' = c_src c -> Dv c g s -> Dv c' g s.
Proof. unfold Dv. intros -> ->. auto. Qed.
Lemma eval_device_ta idx def c g s : Dv c g s -> ta (eval_device T idx def c) g s (fun x g s => Dv (fst x) g s).
Proof.
  intros H. unfold eval_device. apply ta_pdefer. cbn [plift ta].
  destruct (keep_device _ (local_eval_device_body T idx def) c) as [K1 K2].
  pose proof (Dv_keep _ _ _ _ K1 K2 H) as H1. clear H. destruct (eval_device_body T idx def c) as [c1 r]. cbn [fst snd] in *.
  assert (S0 : ta (pret tt c1) g s (fun (y : ctx * res unit) g s => Dv (fst y) g s)) by exact H1.
  unfold force_desktop. destruct r as [[t|]|]; [exact S0| |].
  all: destruct (idx =? dpNotebook); [|exact S0]; apply ta_pbind; (eapply ta_mono; [|apply get_os_ta, H1]);
    intros [c2 [os|]] g2 s2 X; [|exact X]; (destruct (in_list os desktopOS); [|exact X]);
    destruct (force_fl c2) as [F1 F2]; exact (Dv_keep _ _ _ _ F1 F2 X).
Qed.
Lemma device_try_ta l : forall c g s, Dv c g s -> ta (device_try T l c) g s (fun x g s => Dv (fst x) g s).
Proof.
  induction l as [|[[bit idx] def] l IH]; intros c g s H; cbn [device_try]; [exact H|].
  apply ta_pbind. cbn [plift mget ta]. destruct (negb _); [|apply IH, H].
  apply ta_pbind. eapply ta_mono; [|apply eval_device_ta, H]. intros [c1 [[typ|]|]] g1 s1 X; cbn [fst] in X; [exact X|apply IH, X|exact X].
Qed.
Lemma device_ta c : c_src c = ua -> ta (ensure flagDeviceDetect (parse_device T) c) (if has (fl c) flagDeviceDetect then 0 else 2)
  (if has (fl c) flagDeviceDetect then 0 else 2) (Aft flagDeviceDetect).
Proof.
  intros E. apply (ta_ensure flagDeviceDetect (device_body T)); [right; right; reflexivity|exact E|]. intros _.
  eapply ta_mono; [|unfold device_body; apply ta_pbind; eapply ta_mono; [|apply (device_try_ta device_classes c 1 1); split; [exact E|right; lia]]].
  - intros x g s X. exact (proj1 (X : Dv (fst x) g s)).
  - intros [c1 [[]|]] g1 s1 X; cbn [fst] in X; [exact X| |exact X].
    cbn [plift ta]. destruct (keep_device _ (local_device_fallback T) c1) as [K1 K2]. exact (Dv_keep _ _ _ _ K1 K2 X).
Qed.

Definition flag_of (g : getter) : option N :=
  match group_of g with
  | KNone => None
  | KDevice => Some flagDeviceDetect
  | KOS => Some flagOSDetect
  | KClient => Some flagClientDetect
  end.
Definition left (g : getter) (c : ctx) : nat := match flag_of g with Some i => if has (fl c) i then 0 else detections g | None => 0 end.

Lemma ta_read {A} i (d : P unit) (read : M A) c g s :
  keep read -> ta (d c) g s (Aft i) -> ta ((d ;; plift read)%p c) g s (Aft i).
Proof.
  intros K H. apply ta_pbind. eapply ta_mono; [|exact H]. intros [c' [[]|]] g' s' X; [|exact X].
  destruct (K c') as [K1 K2]. unfold Aft in *. cbn [plift ta fst] in *. rewrite K1, K2. exact X.
Qed.
Lemma ta_map {A B} (f : A -> B) (p : P A) c g s (R : ctx -> Prop) :
  ta (p c) g s (fun x _ _ => R (fst x)) -> ta (pmap f p c) g s (fun x _ _ => R (fst x)).
Proof. intros H. unfold pmap. apply ta_pbind. eapply ta_mono; [|exact H]. intros [c' [a|]] g' s' X; exact X. Qed.
Lemma ta_struct i (p : P bytes) (get : ctx -> version) (put : version -> ctx -> ctx) c g s :
  (forall v c, fl (put v c) = fl c /\ c_src (put v c) = c_src c) -> c_src c = ua ->
  ta (p c) g s (Aft i) ->
  ta ((fun c => if v_p (get c) then Ret (c, Ok (get c))
           else (raw <- p ;; plift (mmod (fun c => put (fst (parse (get c) raw)) c)) ;; plift (mget get))%p c) c) g s
    (fun x _ _ => c_src (fst x) = ua).
Proof.
  intros Hp E H. cbv beta. destruct (v_p (get c)); [exact E|]. apply ta_pbind. eapply ta_mono; [|exact H].
  intros [c' [raw|]] g' s' [X _]; [|exact X]. destruct (Hp (fst (parse (get c') raw)) c') as [_ K2].
  cbn [fst] in X. rewrite <- X, <- K2. reflexivity.
Qed.

Lemma getter_ta gt c : c_src c = ua ->
  ta (run_getter T gt c) (left gt c) (left gt c)
    (fun x _ _ => c_src (fst x) = ua /\ (structured gt = false -> match flag_of gt with Some i => has (fl (fst x)) i = true | None => True end)).
Proof.
  intros E. pose proof (client_ta c E) as HC. pose proof (os_ta c E) as HO. pose proof (device_ta c E) as HD.
  assert (W : forall i (p : prog (ctx * res value)) g s, ta p g s (fun x _ _ => c_src (fst x) = ua /\ has (fl (fst x)) i = true) ->
     ta p g s (fun x _ _ => c_src (fst x) = ua /\ (false = false -> has (fl (fst x)) i = true))).
  { intros i p g s. apply ta_mono. tauto. }
  assert (W2 : forall (K : ctx -> Prop) (p : prog (ctx * res value)) g s, ta p g s (fun x _ _ => c_src (fst x) = ua) ->
     ta p g s (fun x _ _ => c_src (fst x) = ua /\ (true = false -> K (fst x)))).
  { intros i p g s. apply ta_mono. intros x _ _ H. split; [exact H|discriminate]. }
  destruct gt; unfold left; unfold flag_of; cbn [run_getter group_of structured detections].
  - apply W. apply (ta_map _ _ _ _ _ (fun c => c_src c = ua /\ has (fl c) flagClientDetect = true)), (ta_read flagClientDetect); [keep_tac|exact HC].
  - apply W. apply (ta_map _ _ _ _ _ (fun c => c_src c = ua /\ has (fl c) flagClientDetect = true)), (ta_read flagClientDetect); [unfold read_browser; keep_tac|exact HC].
  - apply (W2 (fun c => has (fl c) flagClientDetect = true)), (ta_map _ _ _ _ _ (fun c => c_src c = ua)), (ta_struct flagClientDetect); [split; reflexivity|exact E|].
    apply ta_read; [unfold read_browser_version; keep_tac|exact HC].
  - apply W. apply (ta_map _ _ _ _ _ (fun c => c_src c = ua /\ has (fl c) flagClientDetect = true)), (ta_read flagClientDetect); [unfold read_browser_version; keep_tac|exact HC].
  - apply W. apply (ta_map _ _ _ _ _ (fun c => c_src c = ua /\ has (fl c) flagClientDetect = true)), (ta_read flagClientDetect); [unfold read_engine; keep_tac|exact HC].
  - apply (W2 (fun c => has (fl c) flagClientDetect = true)), (ta_map _ _ _ _ _ (fun c => c_src c = ua)), (ta_struct flagClientDetect); [split; reflexivity|exact E|].
    apply ta_read; [unfold read_engine_version; keep_tac|exact HC].
  - apply W. apply (ta_map _ _ _ _ _ (fun c => c_src c = ua /\ has (fl c) flagClientDetect = true)), (ta_read flagClientDetect); [unfold read_engine_version; keep_tac|exact HC].
  - apply W. apply (ta_map _ _ _ _ _ (fun c => c_src c = ua /\ has (fl c) flagDeviceDetect = true)), (ta_read flagDeviceDetect); [unfold read_device_type; keep_tac|exact HD].
  - apply W. apply (ta_map _ _ _ _ _ (fun c => c_src c = ua /\ has (fl c) flagDeviceDetect = true)), (ta_read flagDeviceDetect); [unfold read_brand; keep_tac|exact HD].
  - apply W. apply (ta_map _ _ _ _ _ (fun c => c_src c = ua /\ has (fl c) flagDeviceDetect = true)), (ta_read flagDeviceDetect); [unfold read_model; keep_tac|exact HD].
  - apply W. apply (ta_map _ _ _ _ _ (fun c => c_src c = ua /\ has (fl c) flagOSDetect = true)), (ta_read flagOSDetect); [apply keep_read_os|exact HO].
  - apply (W2 (fun c => has (fl c) flagOSDetect = true)), (ta_map _ _ _ _ _ (fun c => c_src c = ua)), (ta_struct flagOSDetect); [split; reflexivity|exact E|].
    apply ta_read; [unfold read_os_version, append_buf; keep_tac|exact HO].
  - apply W. apply (ta_map _ _ _ _ _ (fun c => c_src c = ua /\ has (fl c) flagOSDetect = true)), (ta_read flagOSDetect); [unfold read_os_version, append_buf; keep_tac|exact HO].
  - cbn. auto.
Qed.
End Any.

Lemma budget T c gt tr x : talks (run_getter T gt c) tr x ->
  looks tr <= detections gt /\ stores tr <= detections gt /\ Forall (fun y => key_of y = get_user_agent c) tr.
Proof.
  intros H. destruct (ta_talks _ _ _ _ H _ _ _ (getter_ta T (c_src c) gt c eq_refl)) as (F & L & S & _).
  assert (B : left gt c <= detections gt). { unfold left. destruct (flag_of gt) as [i|]; [destruct (has (fl c) i)|]; lia. }
  split; [lia|]. split; [lia|]. exact F.
Qed.
Lemma silent l : looks l <= 0 -> stores l <= 0 -> l = [].
Proof. destruct l as [|[k|k] l]; [reflexivity| |]; unfold looks, stores; cbn; lia. Qed.
Lemma again T c gt gt' tr c' r tr' x : structured gt = false -> group_of gt = group_of gt' ->
  talks (run_getter T gt c) tr (c', r) -> talks (run_getter T gt' c') tr' x -> tr' = [].
Proof.
  intros N E0 H H'. assert (E : flag_of gt = flag_of gt') by (unfold flag_of; rewrite E0; reflexivity). destruct (ta_talks _ _ _ _ H _ _ _ (getter_ta T (c_src c) gt c eq_refl)) as (_ & _ & _ & X1 & X2).
  specialize (X2 N). cbn [fst] in X1, X2.
  destruct (ta_talks _ _ _ _ H' _ _ _ (getter_ta T (c_src c') gt' c' eq_refl)) as (_ & L & S & _).
  assert (Z : left gt' c' = 0). { unfold left. rewrite <- E. destruct (flag_of gt); [rewrite X2|]; reflexivity. }
  rewrite Z in L, S. apply silent; assumption.
Qed.

(** ** Examples *)
Lemma shared_case T ua :
  (3 <? looks (of_first (turns T [(true, GOS); (false, GClientType); (true, GClientType); (true, GOS); (true, GDeviceType)]
     (set_user_agent ua new_ctx) (set_user_agent ua new_ctx) None))) = true ->
  exists plan, length plan = 5 /\ 3 < looks (of_first (turns T plan (set_user_agent ua new_ctx) (set_user_agent ua new_ctx) None)).
Proof. intros H. eexists. split; [|apply Nat.ltb_lt, H]. reflexivity. Qed.

(** A cache that loses nothing and adds no stamp. *)
Fixpoint keeps {A} (p : prog A) (o : option entry) : list call * A * option entry :=
  match p with
  | Ret a => ([], a, o)
  | CGet key k =>
      match o with
      | None => let '(l, a, o') := keeps (k None) None in (Look key :: l, a, o')
      | Some e => let '(l, a, o') := keeps (k (Some (with_stamp e 0 0))) o in (Look key :: l, a, o')
      end
  | CSet key e k => let '(l, a, o') := keeps k (Some e) in (Store key :: l, a, o')
  end.
Lemma keeps_serves {A} (p : prog A) : forall o, serves o p (fst (fst (keeps p o))) (snd (fst (keeps p o))) (snd (keeps p o)).
Proof.
  induction p as [a|key k IH|key e k IH]; intros o; cbn.
  - constructor.
  - destruct o as [e|].
    + specialize (IH (Some (with_stamp e 0 0)) (Some e)). destruct (keeps _ _) as [[l a] o']. eapply V_hit. exact IH.
    + specialize (IH None None). destruct (keeps _ _) as [[l a] o']. eapply V_miss. exact IH.
  - specialize (IH (Some e)). destruct (keeps _ _) as [[l a] o']. apply V_set. exact IH.
Qed.
Lemma three_case T ua :
  (let tr := fst (fst (keeps (script T ClientTypeAll DeviceTypeAll (ASetUA ua :: [AGet GClientType; AGet GOS; AGet GDeviceType; AGet GBrand]) new_ctx) None)) in
   (looks tr =? 3) && (stores tr =? 3)) = true ->
  let l := [AGet GClientType; AGet GOS; AGet GDeviceType; AGet GBrand] in
  Forall stays l /\
  exists rs tr o', serves None (script T ClientTypeAll DeviceTypeAll (ASetUA ua :: l) new_ctx) tr rs o' /\ looks tr = 3 /\ stores tr = 3.
Proof.
  intros H l. apply andb_prop in H as [H1%Nat.eqb_eq H2%Nat.eqb_eq]. split; [repeat constructor|].
  eexists _, _, _. split; [apply keeps_serves|]. split; [exact H1|exact H2].
Qed.

(** One context with a cache used by nobody else for its user agent: the cache never answers, and every getter,
    GetModel included, returns the value of a lone call. *)
From Verif Require Import Proof_Base Model_CacheEntry Model_Version Model_Ctx Model_Parse Spec_Getters
  Proof_Local Proof_Version Proof_Safe Proof_Getters.

(** ** The model name in two runs with different buffers *)
Section Sim.
Variable T : tables.
Variables p1 p2 : bytes.

Definition zl {A} (l : list A) : Z := Z.of_nat (length l).

Definition sim (k : Z) (c1 c2 : ctx) : Prop :=
  device_view c1 = device_view c2 /\
  exists s, c_buf c1 = p1 ++ s /\ c_buf c2 = p2 ++ s /\ (0 <= k <= zl s)%Z /\
    ((c_model c1 = 0%N /\ c_model c2 = 0%N) \/
     exists a b, (0 <= a <= b)%Z /\ (b <= zl s)%Z /\
       c_model c1 = encode64 (zl p1 + a) (zl p1 + b) /\ c_model c2 = encode64 (zl p2 + a) (zl p2 + b)).

Definition simM {A} (k : Z) (m1 m2 : M A) : Prop :=
  forall c1 c2, sim k c1 c2 -> snd (m1 c1) = snd (m2 c2) /\ sim k (fst (m1 c1)) (fst (m2 c2)).

Lemma simM_ret {A} k (a : A) : simM k (mret a) (mret a).
Proof. intros c1 c2 H. cbn. auto. Qed.
Lemma simM_lift {A} k (a : res A) : simM k (mlift a) (mlift a).
Proof. intros c1 c2 H. cbn. auto. Qed.
Lemma simM_bind {A B} k (m1 m2 : M A) (f1 f2 : A -> M B) :
  simM k m1 m2 -> (forall a, simM k (f1 a) (f2 a)) -> simM k (mbind m1 f1) (mbind m2 f2).
Proof.
  intros H Hf c1 c2 E. unfold mbind. destruct (H c1 c2 E) as [E1 E2].
  destruct (m1 c1) as [c1' [a1|]], (m2 c2) as [c2' [a2|]]; cbn in *; try discriminate; [|auto].
  injection E1 as ->. apply Hf. exact E2.
Qed.
Lemma simM_get {A} k (f : ctx -> A) :
  (forall c1 c2, device_view c1 = device_view c2 -> f c1 = f c2) -> simM k (mget f) (mget f).
Proof. intros H c1 c2 E. cbn. split; [f_equal; apply H; apply E|exact E]. Qed.
Lemma simM_mod k (f : ctx -> ctx) :
  (forall c1 c2, device_view c1 = device_view c2 -> device_view (f c1) = device_view (f c2)) ->
  (forall c, c_buf (f c) = c_buf c /\ c_model (f c) = c_model c) -> simM k (mmod f) (mmod f).
Proof.
  intros H1 H2 c1 c2 [V (s & B1 & B2 & K & D)]. cbn. split; [reflexivity|]. split; [apply H1; exact V|].
  exists s. destruct (H2 c1) as [-> ->], (H2 c2) as [-> ->]. auto.
Qed.
Lemma simM_append k b : simM k (append_buf b) (append_buf b).
Proof.
  intros c1 c2 [V (s & B1 & B2 & K & D)]. cbn. split; [reflexivity|]. split; [exact V|].
  exists (s ++ b). cbn [c_buf c_model up_buf]. rewrite B1, B2, <- !app_assoc. split; [reflexivity|]. split; [reflexivity|].
  assert (zl (s ++ b) = zl s + zl b)%Z by (unfold zl; rewrite app_length; lia).
  assert (0 <= zl b)%Z by (unfold zl; lia).
  split; [lia|]. destruct D as [D|(x & y & X & Y & D)]; [left; exact D|right].
  exists x, y. split; [exact X|]. split; [lia|exact D].
Qed.
Lemma simM_len {B} k (f1 f2 : Z -> M B) :
  (forall k', (k <= k')%Z -> simM k' (f1 (zl p1 + k')%Z) (f2 (zl p2 + k')%Z)) ->
  simM k (mbind buf_len f1) (mbind buf_len f2).
Proof.
  intros H c1 c2 [V (s & B1 & B2 & K & D)]. unfold mbind, buf_len, mget.
  assert (E1 : Z.of_nat (length (c_buf c1)) = (zl p1 + zl s)%Z) by (rewrite B1, app_length; unfold zl; lia).
  assert (E2 : Z.of_nat (length (c_buf c2)) = (zl p2 + zl s)%Z) by (rewrite B2, app_length; unfold zl; lia).
  rewrite E1, E2.
  destruct (H (zl s)%Z ltac:(lia) c1 c2) as [R [V' (s' & B1' & B2' & K' & D')]].
  { split; [exact V|]. exists s. split; [exact B1|]. split; [exact B2|]. split; [lia|exact D]. }
  split; [exact R|]. split; [exact V'|]. exists s'. split; [exact B1'|]. split; [exact B2'|]. split; [lia|exact D'].
Qed.
Lemma simM_model k lo hi :
  (0 <= lo <= hi)%Z -> (hi <= k)%Z ->
  simM k (mmod (up_model (encode64 (zl p1 + lo) (zl p1 + hi)))) (mmod (up_model (encode64 (zl p2 + lo) (zl p2 + hi)))).
Proof.
  intros H1 H2 c1 c2 [V (s & B1 & B2 & K & D)]. cbn. split; [reflexivity|].
  split; [revert V; view_tac|]. exists s. cbn. split; [exact B1|]. split; [exact B2|]. split; [exact K|].
  right. exists lo, hi. split; [exact H1|]. split; [lia|]. auto.
Qed.

Lemma simM_if {A} k (b : bool) (m1 m2 m1' m2' : M A) :
  simM k m1 m2 -> simM k m1' m2' -> simM k (if b then m1 else m1') (if b then m2 else m2').
Proof. destruct b; auto. Qed.

Ltac sim_step :=
  match goal with
  | |- simM _ (mret _) _ => apply simM_ret
  | |- simM _ (mlift _) _ => apply simM_lift
  | |- simM _ (append_buf _) _ => apply simM_append
  | |- simM _ (mget _) _ => apply simM_get; view_tac
  | |- simM _ (mmod _) _ => apply simM_mod; [view_tac|split; reflexivity]
  | |- simM _ (mbind _ _) (mbind _ _) => apply simM_bind; [|intro]
  | |- simM _ (if ?b then _ else _) _ => destruct b
  | |- simM _ (match ?x with _ => _ end) _ => destruct x
  | |- simM _ (let _ := _ in _) _ => cbv zeta
  end.

Lemma sim_mne1_loop k fuel : forall raw src m p, simM k (mne1_loop fuel raw src m p) (mne1_loop fuel raw src m p).
Proof.
  induction fuel as [|fuel IH]; intros; cbn [mne1_loop]; [apply simM_ret|].
  repeat (first [apply IH | sim_step]).
Qed.

Lemma sim_buf_mne k e : (0 <= k)%Z -> simM k (device_buf_mne T e) (device_buf_mne T e).
Proof.
  intros K0. unfold device_buf_mne. apply simM_bind; [sim_step|]. intro raw. apply simM_len. intros lo Hlo.
  apply simM_bind; [sim_step|]. intro. apply simM_len. intros hi Hhi.
  apply simM_model; lia.
Qed.

Lemma sim_buf_mne1 k e re : (0 <= k)%Z -> simM k (device_buf_mne1 T e re) (device_buf_mne1 T e re).
Proof.
  intros K0. unfold device_buf_mne1. apply simM_bind; [sim_step|]. intro raw. destruct (index_byte raw x24) as [p|].
  - apply simM_len. intros lo Hlo. apply simM_bind; [sim_step|]. intro. apply simM_bind; [sim_step|]. intro src.
    apply simM_bind; [apply sim_mne1_loop|]. intro. apply simM_len. intros hi Hhi. apply simM_model; lia.
  - apply simM_len. intros lo Hlo. apply simM_bind; [sim_step|]. intro. apply simM_len. intros hi Hhi. apply simM_model; lia.
Qed.

Lemma sim_model_loop k x def is_ : (0 <= k)%Z -> simM k (model_loop T x def is_) (model_loop T x def is_).
Proof.
  intros K0. induction is_ as [|i is_ IH]; cbn [model_loop]; [apply simM_ret|].
  repeat (first [exact IH | apply sim_buf_mne1; exact K0 | apply sim_buf_mne; exact K0 | sim_step]).
Qed.

Lemma sim_device_hit k x def : (0 <= k)%Z -> simM k (device_hit T x def) (device_hit T x def).
Proof.
  intros K0. unfold device_hit.
  repeat (first [apply sim_model_loop; exact K0 | apply sim_buf_mne1; exact K0 | apply sim_buf_mne; exact K0 | sim_step]).
Qed.

Lemma sim_eval_device_body k idx def : (0 <= k)%Z -> simM k (eval_device_body T idx def) (eval_device_body T idx def).
Proof. intros K0. unfold eval_device_body. repeat (first [apply sim_device_hit; exact K0 | sim_step]). Qed.

Lemma sim_dev_try k l : (0 <= k)%Z -> simM k (dev_try T l) (dev_try T l).
Proof.
  intros K0. induction l as [|[[b i] d] l IH]; cbn [dev_try]; [apply simM_ret|].
  repeat (first [exact IH | apply sim_eval_device_body; exact K0 | sim_step]).
Qed.

Lemma sim_vendor_inner k b js : simM k (vendor_inner T b js) (vendor_inner T b js).
Proof. induction js as [|j js IH]; cbn [vendor_inner]; [apply simM_ret|]. repeat (first [exact IH | sim_step]). Qed.
Lemma sim_vendor_loop k l : simM k (vendor_loop T l) (vendor_loop T l).
Proof. induction l as [|v l IH]; cbn [vendor_loop]; [apply simM_ret|]. repeat (first [exact IH | apply sim_vendor_inner | sim_step]). Qed.
Lemma sim_device_fallback k : simM k (device_fallback T) (device_fallback T).
Proof. unfold device_fallback, eval_vendor. repeat (first [apply sim_vendor_loop | sim_step]). Qed.

(** Changes outside the device part. *)
Lemma sim_other k c1 c2 c1' c2' :
  sim k c1 c2 ->
  device_view c1' = device_view c1 -> c_buf c1' = c_buf c1 -> c_model c1' = c_model c1 ->
  device_view c2' = device_view c2 -> c_buf c2' = c_buf c2 -> c_model c2' = c_model c2 -> sim k c1' c2'.
Proof.
  intros [V (s & B1 & B2 & K & D)] V1 W1 M1 V2 W2 M2.
  split; [rewrite V1, V2; exact V|]. exists s. rewrite W1, W2, M1, M2. auto.
Qed.
End Sim.

(** ** The model name a context holds *)
Definition holds (c : ctx) (t : bytes) : Prop :=
  (c_model c = 0%N /\ t = []) \/
  exists a m b, c_buf c = a ++ m ++ b /\ c_model c = encode64 (zl a) (zl a + zl m) /\ t = trim m x20.

Lemma trim_nil b : trim [] b = [].
Proof. reflexivity. Qed.

Lemma holds_read c t : holds c t -> (zl (c_buf c) < 4294967296)%Z -> read_model c = (c, Ok t).
Proof.
  intros [[E ->]|(a & m & b & B & E & ->)] L; cbv [read_model mbind mget mlift mret]; rewrite E.
  - reflexivity.
  - rewrite B in L. unfold zl in *. rewrite !app_length in L.
    unfold encode64. rewrite !u32_id by lia.
    destruct (e_encode (Z.to_N (Z.of_nat (length a))) (Z.to_N (Z.of_nat (length a) + Z.of_nat (length m))) =? 0)%N eqn:Z0; cbn [negb].
    + apply N.eqb_eq, e_encode_zero in Z0; try (unfold two32; lia). destruct m as [|x m]; [reflexivity|].
      cbn [length] in Z0. lia.
    + unfold slice64. rewrite e_decode_encode by (unfold two32; lia). cbn [fst snd]. rewrite B.
      replace (Z.to_N (Z.of_nat (length a))) with (N.of_nat (length a)) by lia.
      replace (Z.to_N (Z.of_nat (length a) + Z.of_nat (length m))) with (N.of_nat (length a + length m)) by lia.
      rewrite slice_app. reflexivity.
Qed.

Lemma holds_grow c c' t x : holds c t -> c_model c' = c_model c -> c_buf c' = c_buf c ++ x -> holds c' t.
Proof.
  intros [[E ->]|(a & m & b & B & E & ->)] M F; [left; split; congruence|right].
  exists a, m, (b ++ x). split; [|split; [congruence|reflexivity]]. rewrite F, B, <- !app_assoc. reflexivity.
Qed.

Lemma sim_holds p1 p2 k c1 c2 : sim p1 p2 k c1 c2 -> exists t, holds c1 t /\ holds c2 t.
Proof.
  intros [_ (s & B1 & B2 & _ & [[M1 M2]|(x & y & X & Y & M1 & M2)])].
  - exists []. split; left; auto.
  - set (u := firstn (Z.to_nat x) s). set (v := firstn (Z.to_nat (y - x)) (skipn (Z.to_nat x) s)).
    set (w := skipn (Z.to_nat (y - x)) (skipn (Z.to_nat x) s)).
    assert (Es : s = u ++ v ++ w) by (unfold u, v, w; rewrite !firstn_skipn; reflexivity).
    assert (Lu : zl u = x) by (unfold zl in *; unfold u; rewrite firstn_length; lia).
    assert (Lv : zl v = (y - x)%Z) by (unfold zl in *; unfold v; rewrite firstn_length, skipn_length; lia).
    exists (trim v x20). split; right.
    + exists (p1 ++ u), v, w. split; [rewrite B1, Es, <- !app_assoc; reflexivity|]. split; [|reflexivity].
      rewrite M1. unfold zl in *. rewrite app_length. f_equal; lia.
    + exists (p2 ++ u), v, w. split; [rewrite B2, Es, <- !app_assoc; reflexivity|]. split; [|reflexivity].
      rewrite M2. unfold zl in *. rewrite app_length. f_equal; lia.
Qed.

(** ** The private cache never answers *)
Definition detected (e : N) (c : ctx) : Prop :=
  forall flag, In flag [flagClientDetect; flagOSDetect; flagDeviceDetect] -> check_bit e flag = true -> bit flag c = true.
Definition rsub (o : option entry) (c : ctx) : Prop := match o with Some e => detected (e_bits e) c | None => True end.

Definition priv {A} (p : P A) : Prop := forall c o ev, rsub o c ->
  exists o' ev', run_priv (p c) o ev = (run_cold (p c), o', ev') /\ rsub o' (fst (run_cold (p c))) /\
    detected (c_bits c) (fst (run_cold (p c))).

Lemma run_priv_bind {A B} (p : prog A) (f : A -> prog B) : forall o ev,
  run_priv (prog_bind p f) o ev = let '(a, o', ev') := run_priv p o ev in run_priv (f a) o' ev'.
Proof.
  induction p as [a|k g IH|k e p IH]; intros o ev; cbn [prog_bind run_priv]; [reflexivity| |apply IH].
  destruct ev as [|[] ev]; apply IH.
Qed.

Lemma detected_refl c : detected (c_bits c) c.
Proof. intros f _ H. exact H. Qed.
Lemma detected_trans e c c' : detected e c -> detected (c_bits c) c' -> detected e c'.
Proof. intros H1 H2 f Hf H. apply H2; [exact Hf|]. apply H1; assumption. Qed.
Lemma rsub_trans o c c' : rsub o c -> detected (c_bits c) c' -> rsub o c'.
Proof. destruct o as [e|]; cbn; [apply detected_trans|auto]. Qed.

Lemma priv_ret {A} (a : A) : priv (pret a).
Proof. intros c o ev H. exists o, ev. split; [reflexivity|]. split; [exact H|apply detected_refl]. Qed.

Lemma priv_bind {A B} (p : P A) (f : A -> P B) : priv p -> (forall a, priv (f a)) -> priv (pbind p f).
Proof.
  intros Hp Hf c o ev H. unfold pbind. rewrite run_priv_bind, run_cold_bind.
  destruct (Hp c o ev H) as (o1 & ev1 & E & R & D). rewrite E.
  destruct (run_cold (p c)) as [c1 [a|]]; cbn [fst] in *.
  - destruct (Hf a c1 o1 ev1 R) as (o2 & ev2 & E2 & R2 & D2). exists o2, ev2.
    split; [exact E2|]. split; [exact R2|]. eapply detected_trans; eassumption.
  - exists o1, ev1. split; [reflexivity|]. auto.
Qed.

Lemma priv_lift {A} (m : M A) : (forall c, detected (c_bits c) (fst (m c))) -> priv (plift m).
Proof.
  intros H c o ev R. exists o, ev. cbn. split; [reflexivity|]. split; [|apply H]. eapply rsub_trans; [exact R|apply H].
Qed.

Lemma priv_defer {A} (p : P A) f : priv p -> (forall r, priv (f r)) -> priv (pdefer p f).
Proof.
  intros Hp Hf c o ev H. unfold pdefer. rewrite run_priv_bind, run_cold_bind.
  destruct (Hp c o ev H) as (o1 & ev1 & E & R & D). rewrite E.
  destruct (run_cold (p c)) as [c1 r]; cbn [fst snd] in *.
  rewrite run_priv_bind, run_cold_bind.
  destruct (Hf r c1 o1 ev1 R) as (o2 & ev2 & E2 & R2 & D2). rewrite E2.
  destruct (run_cold (f r c1)) as [c2 [u|]]; cbn [fst snd] in *; exists o2, ev2;
    (split; [reflexivity|]; split; [exact R2|eapply detected_trans; eassumption]).
Qed.

Lemma detected_set flag c : detected (c_bits c) (set_flag flag c).
Proof. intros f _ H. unfold bit, set_flag. cbn. rewrite check_set, H. apply orb_true_r. Qed.

Lemma priv_finish flag : priv (finish flag).
Proof.
  intros c o ev R. cbn. do 2 eexists. split; [reflexivity|]. cbn [fst]. split; [|apply detected_set].
  cbn [rsub from_ctx e_bits]. apply detected_refl.
Qed.

Lemma priv_ensure flag (body : P bool) :
  In flag [flagClientDetect; flagOSDetect; flagDeviceDetect] -> priv body ->
  priv (ensure flag (o <- pcget get_user_agent ;;
   match o with
   | Some e =>
       if check_bit (e_bits e) flag then plift (mmod (from_cache e)) ;; pret true
       else pdefer body (fun _ => finish flag)
   | None => pdefer body (fun _ => finish flag)
   end)%p).
Proof.
  intros Hf Hb c o ev R. unfold ensure. destruct (check_bit (c_bits c) flag) eqn:B.
  - exists o, ev. split; [reflexivity|]. split; [exact R|apply detected_refl].
  - pose proof (priv_bind _ (fun _ : bool => pret tt) (priv_defer body (fun _ => finish flag) Hb (fun _ => priv_finish flag))
      (fun _ => priv_ret tt)) as Hd.
    unfold pbind at 1 2 3 4 5. unfold pbind, pcget in *. cbn [prog_bind run_priv run_cold].
    destruct ev as [|[] ev].
    + destruct o as [e|]; [|apply (Hd c None [] I)].
      assert (Eb : check_bit (e_bits e) flag = false).
      { destruct (check_bit (e_bits e) flag) eqn:Eb; [|reflexivity]. apply (R flag Hf) in Eb. unfold bit in Eb. congruence. }
      rewrite Eb. apply (Hd c (Some e) [] R).
    + apply (Hd c None ev I).
    + destruct o as [e|]; [|apply (Hd c None ev I)].
      assert (Eb : check_bit (e_bits e) flag = false).
      { destruct (check_bit (e_bits e) flag) eqn:Eb; [|reflexivity]. apply (R flag Hf) in Eb. unfold bit in Eb. congruence. }
      rewrite Eb. apply (Hd c (Some e) ev R).
Qed.

Lemma detected_rest c c' :
  (bit flagClientDetect c', bit flagOSDetect c', bit flagDeviceDetect c') = (bit flagClientDetect c, bit flagOSDetect c, bit flagDeviceDetect c) ->
  detected (c_bits c) c'.
Proof.
  intros E f Hf H. fold (bit f c) in H. cbn in Hf. destruct Hf as [<-|[<-|[<-|[]]]]; congruence.
Qed.
Lemma det_client {A} (m : M A) : local client_view client_rest m -> forall c, detected (c_bits c) (fst (m c)).
Proof. intros [_ H] c. specialize (H c). apply detected_rest. unfold client_rest in H. congruence. Qed.
Lemma det_os {A} (m : M A) : local os_view os_rest m -> forall c, detected (c_bits c) (fst (m c)).
Proof. intros [_ H] c. specialize (H c). apply detected_rest. unfold os_rest in H. congruence. Qed.
Lemma det_device {A} (m : M A) : local device_view device_rest m -> forall c, detected (c_bits c) (fst (m c)).
Proof. intros [_ H] c. specialize (H c). apply detected_rest. unfold device_rest in H. congruence. Qed.
Lemma det_id {A} (m : M A) : (forall c, c_bits (fst (m c)) = c_bits c) -> forall c, detected (c_bits c) (fst (m c)).
Proof. intros H c f _ E. unfold bit. rewrite H. exact E. Qed.

Section Private.
Variable T : tables.

Lemma priv_ensure_client : priv (ensure flagClientDetect (parse_client T)).
Proof. apply priv_ensure; [cbn; auto|]. apply priv_lift, det_client, local_client_try. Qed.
Lemma priv_ensure_os : priv (ensure flagOSDetect (parse_os T)).
Proof. apply priv_ensure; [cbn; auto|]. apply priv_lift, det_os, local_eval_os. Qed.

Lemma priv_read {A} flag parse (read : M A) :
  priv (ensure flag parse) -> (forall c, c_bits (fst (read c)) = c_bits c) -> priv (ensure flag parse ;; plift read)%p.
Proof. intros H R. apply priv_bind; [exact H|]. intros _. apply priv_lift. apply det_id. exact R. Qed.

Lemma bits_pure {A X} (V : ctx -> X) (read : M A) : pure_read V read -> forall c, c_bits (fst (read c)) = c_bits c.
Proof. intros H c. rewrite (proj2 (H c c eq_refl)). reflexivity. Qed.

Lemma priv_get_os : priv (get_os T).
Proof. apply priv_read; [apply priv_ensure_os|]. intros c. rewrite (proj2 (read_os_ext T c c eq_refl)). reflexivity. Qed.

Lemma priv_eval_device idx def : priv (eval_device T idx def).
Proof.
  apply priv_defer; [apply priv_lift, det_device, local_eval_device_body|].
  intros r. unfold force_desktop.
  assert (K : priv (if idx =? dpNotebook
     then os <- get_os T ;; (if in_list os desktopOS then plift (mmod (set_flag flagDeviceForceDesktop)) else pret tt)
     else pret tt)%p).
  { destruct (idx =? dpNotebook); [|apply priv_ret].
    apply priv_bind; [apply priv_get_os|]. intros os. destruct (in_list os desktopOS); [|apply priv_ret].
    apply priv_lift. intros c. apply detected_set. }
  destruct r as [[n|]|]; [apply priv_ret|exact K|exact K].
Qed.

Lemma priv_device_try l : priv (device_try T l).
Proof.
  induction l as [|[[b idx] def] l IH]; cbn [device_try]; [apply priv_ret|].
  apply priv_bind; [apply priv_lift, det_id; reflexivity|]. intros mask.
  destruct (negb (N.land mask b =? 0)%N); [|exact IH].
  apply priv_bind; [apply priv_eval_device|]. intros [typ|]; [|exact IH].
  apply priv_bind; [apply priv_lift, det_id; reflexivity|]. intros _. apply priv_ret.
Qed.

Lemma priv_ensure_device : priv (ensure flagDeviceDetect (parse_device T)).
Proof.
  apply priv_ensure; [cbn; auto|]. apply priv_bind; [apply priv_device_try|].
  intros []; [apply priv_ret|]. apply priv_lift, det_device, local_device_fallback.
Qed.

Lemma priv_version (proj : ctx -> version) (upd : version -> ctx -> ctx) (gs : P bytes) :
  (forall v c, c_bits (upd v c) = c_bits c) -> priv gs ->
  priv (fun c => if v_p (proj c) then Ret (c, Ok (proj c))
          else (raw <- gs ;;
                plift (mmod (fun c => upd (fst (parse (proj c) raw)) c)) ;;
                plift (mget proj))%p c).
Proof.
  intros H K c. cbv beta. destruct (v_p (proj c)).
  - intros o ev R. exists o, ev. split; [reflexivity|]. split; [exact R|apply detected_refl].
  - apply (priv_bind gs (fun raw => (plift (mmod (fun c => upd (fst (parse (proj c) raw)) c)) ;; plift (mget proj))%p)); [exact K|].
    intros raw. apply priv_bind; [apply priv_lift, det_id; intros; apply H|]. intros _. apply priv_lift, det_id. reflexivity.
Qed.

Lemma read_model_id c : fst (read_model c) = c.
Proof.
  cbv [read_model mbind mget mlift mret].
  repeat match goal with |- context [if ?b then _ else _] => destruct b
                       | |- context [match ?r with Ok _ => _ | Panic => _ end] => destruct r end; reflexivity.
Qed.

Lemma priv_bvs : priv (get_browser_version_string T).
Proof. apply priv_read; [apply priv_ensure_client|]. eapply bits_pure. apply pure_browser_version. Qed.
Lemma priv_evs : priv (get_engine_version_string T).
Proof. apply priv_read; [apply priv_ensure_client|]. eapply bits_pure. apply pure_engine_version. Qed.
Lemma priv_ovs : priv (get_os_version_string T).
Proof.
  apply priv_read; [apply priv_ensure_os|]. intros c1.
  destruct (proj2 (read_os_version_view T c1 c1 eq_refl)) as (b & -> & _). reflexivity.
Qed.

Lemma priv_pmap {A B} (f : A -> B) (p : P A) : priv p -> priv (pmap f p).
Proof. intros H. apply priv_bind; [exact H|]. intros a. apply priv_ret. Qed.

Theorem priv_getter g : priv (run_getter T g).
Proof.
  destruct g; cbn [run_getter]; try apply priv_pmap.
  - apply priv_read; [apply priv_ensure_client|]. eapply bits_pure. apply pure_client_type.
  - apply priv_read; [apply priv_ensure_client|]. eapply bits_pure. apply pure_browser.
  - apply (priv_version c_cver up_cver); [reflexivity|apply priv_bvs].
  - apply priv_bvs.
  - apply priv_read; [apply priv_ensure_client|]. eapply bits_pure. apply pure_engine.
  - apply (priv_version c_ever up_ever); [reflexivity|apply priv_evs].
  - apply priv_evs.
  - apply priv_read; [apply priv_ensure_device|]. eapply bits_pure. apply pure_device_type.
  - apply priv_read; [apply priv_ensure_device|]. eapply bits_pure. apply pure_brand.
  - apply priv_read; [apply priv_ensure_device|]. intros c. rewrite read_model_id. reflexivity.
  - apply priv_get_os.
  - apply (priv_version c_over up_over); [reflexivity|apply priv_ovs].
  - apply priv_ovs.
  - intros c o ev R. exists o, ev. split; [reflexivity|]. split; [exact R|apply detected_refl].
Qed.

(** ** The device detection without a cache *)
Variables mC mD : N.
Notation good := (good T mC mD).
Notation no_panics := (no_panics T mC mD).

(** [get_os] without a cache leaves the device part, the buffer and the model name alone. *)
Lemma cold_get_os c :
  let c' := fst (run_cold (get_os T c)) in
  device_view c' = device_view c /\ c_buf c' = c_buf c /\ c_model c' = c_model c /\
  (bit flagDeviceDetect c' = bit flagDeviceDetect c).
Proof.
  cbv zeta. unfold get_os, pbind. rewrite run_cold_bind.
  assert (E : let c' := fst (run_cold (ensure flagOSDetect (parse_os T) c)) in
    device_view c' = device_view c /\ c_buf c' = c_buf c /\ c_model c' = c_model c /\
    (bit flagDeviceDetect c' = bit flagDeviceDetect c)).
  { cbv zeta. destruct (check_bit (c_bits c) flagOSDetect) eqn:B.
    - unfold ensure. rewrite B. cbn. auto.
    - unfold parse_os. rewrite (run_cold_detect_m flagOSDetect _ _ (pret tt)) by exact B. cbn [fst].
      pose proof (proj2 (local_eval_os T) c) as R. unfold os_rest, env_part in R.
      assert (R1 : device_part (fst (eval_os T c)) = device_part c) by congruence.
      assert (R2 : c_src (fst (eval_os T c)) = c_src c) by congruence.
      assert (R3 : c_maskD (fst (eval_os T c)) = c_maskD c) by congruence.
      assert (R4 : c_buf (fst (eval_os T c)) = c_buf c) by congruence.
      assert (R5 : c_model (fst (eval_os T c)) = c_model c) by congruence.
      assert (R6 : bit flagDeviceDetect (fst (eval_os T c)) = bit flagDeviceDetect c) by congruence.
      split; [|split; [exact R4|split; [exact R5|]]].
      + unfold device_view. rewrite <- R1, <- R2, <- R3. view_tac.
      + rewrite <- R6. view_tac. }
  destruct (run_cold (ensure flagOSDetect (parse_os T) c)) as [c1 [u|]]; cbn [fst] in *; [|exact E].
  cbn [plift run_cold]. rewrite (proj2 (read_os_ext T c1 c1 eq_refl)). exact E.
Qed.

Lemma set_flag_keeps c : c_buf (set_flag flagDeviceForceDesktop c) = c_buf c /\ c_model (set_flag flagDeviceForceDesktop c) = c_model c.
Proof. split; reflexivity. Qed.

Lemma cold_device_sim ua h c p :
  no_panics ua -> good ua h c -> sim [] p 0 (c0 mC mD ua) c ->
  sim [] p 0 (fst (run_cold (device_body T (c0 mC mD ua)))) (fst (run_cold (device_body T c))).
Proof.
  intros NP Gc S. rewrite !cold_body.
  destruct (sim_dev_try T [] p 0 first7 (Z.le_refl 0) _ _ S) as [R1 S1].
  destruct (dev_try T first7 (c0 mC mD ua)) as [c1 r1] eqn:E1, (dev_try T first7 c) as [d1 q1] eqn:E2.
  cbn [fst snd] in R1, S1. subst q1.
  destruct r1 as [[]|]; [exact S1| |exact S1].
  pose proof E1 as E0. apply dev_try_none in E1. apply dev_try_none in E2. subst c1 d1. clear S1.
  (* the notebook class *)
  assert (Em : c_maskD c = mD) by apply Gc.
  destruct (notebook_on mD) eqn:On.
  - destruct (sim_eval_device_body T [] p 0 dpNotebook DeviceTypeNotebook (Z.le_refl 0) _ _ S) as [R2 S2].
    destruct (eval_device_body T dpNotebook DeviceTypeNotebook (c0 mC mD ua)) as [c1 r1] eqn:E1,
      (eval_device_body T dpNotebook DeviceTypeNotebook c) as [d1 q1] eqn:E2.
    cbn [fst snd] in R2, S2. subst q1. destruct r1 as [[typ|]|].
    + (* a notebook *)
      assert (H : forall c2 d2, c_maskD c2 = mD -> eval_device_body T dpNotebook DeviceTypeNotebook c2 = (d2, Ok (Some typ)) ->
        run_cold (device_try T [notebook_class] c2) = (up_deviceType typ d2, Ok true)).
      { intros c2 d2 Hm E. cbn [device_try notebook_class]. unfold pbind at 1, plift, mget. cbn [prog_bind].
        rewrite Hm. fold (notebook_on mD). rewrite On. unfold eval_device, pdefer, plift, pbind. cbn [prog_bind]. rewrite E.
        reflexivity. }
      rewrite (H (c0 mC mD ua) _ eq_refl E1), (H _ _ Em E2). cbn [pret run_cold fst].
      destruct S2 as [V X]. split; [revert V; view_tac|exact X].
    + (* none: the operating system decides *)
      apply eval_device_body_none in E1 as X1. apply eval_device_body_none in E2 as X2. subst c1 d1.
      pose proof (safe_cold _ _ _ (safe_get_os T mC mD ua h c NP Gc)) as (_ & _ & O2).
      pose proof (safe_cold _ _ _ (safe_get_os T mC mD ua 0%N (c0 mC mD ua) NP (good_fresh T mC mD ua 0%N))) as (_ & _ & O1).
      pose proof (cold_get_os c) as (V2 & B2 & M2 & _). pose proof (cold_get_os (c0 mC mD ua)) as (V1 & B1 & M1 & _).
      destruct (run_cold (get_os T (c0 mC mD ua))) as [c3 os] eqn:G1, (run_cold (get_os T c)) as [d3 os'] eqn:G2.
      cbn [fst snd] in *. subst os os'.
      destruct (fin_osname T mC mD ua) as [os|] eqn:Eo.
      * rewrite (run_cold_try_notebook T mD (c0 mC mD ua) os c3 E1 G1 eq_refl On), (run_cold_try_notebook T mD _ os d3 E2 G2 Em On).
        cbn [plift run_cold].
        assert (S3 : sim [] p 0 c3 d3) by (eapply sim_other; eassumption).
        apply sim_device_fallback. destruct (in_list os desktopOS); [|exact S3].
        destruct S3 as [V X]. split; [revert V; view_tac|exact X].
      * destruct NP as (_ & _ & _ & NP4). exfalso. apply NP4. exact Eo.
    + (* panic: excluded *)
      exfalso. destruct NP as (_ & _ & NP3 & _). apply NP3. rewrite cold_body.
      rewrite E0.
      assert (X : snd (run_cold (device_try T [notebook_class] (c0 mC mD ua))) = Panic).
      { cbn [device_try notebook_class]. unfold pbind at 1, plift, mget. cbn [prog_bind].
        rewrite (eq_refl : c_maskD (c0 mC mD ua) = mD). fold (notebook_on mD). rewrite On.
        unfold pbind at 1. rewrite run_cold_bind. unfold eval_device, pdefer, plift. cbn [prog_bind]. rewrite E1.
        rewrite run_cold_bind. destruct (run_cold (force_desktop T dpNotebook Panic c1)) as [c5 [u|]]; reflexivity. }
      destruct (run_cold (device_try T [notebook_class] (c0 mC mD ua))) as [c5 q]. cbn [snd] in X. subst q. reflexivity.
  - assert (H : forall c2, c_maskD c2 = mD -> device_try T [notebook_class] c2 = Ret (c2, Ok false)).
    { intros c2 Hm. cbn [device_try notebook_class]. unfold pbind, plift, mget. cbn [prog_bind].
      rewrite Hm. fold (notebook_on mD). rewrite On. reflexivity. }
    rewrite (H (c0 mC mD ua) eq_refl), (H _ Em). cbn [run_cold plift]. apply sim_device_fallback. exact S.
Qed.

(** ** Sequences of getters *)
Definition bit_device := bit flagDeviceDetect.
Definition md_inv (ua : bytes) (c : ctx) : Prop :=
  if bit_device c then
    exists t, holds (fin_device T mC mD ua) t /\ holds c t /\ (zl (c_buf (fin_device T mC mD ua)) <= zl (c_buf c))%Z
  else c_model c = 0%N.

Definition md_step (ua : bytes) (c c' : ctx) : Prop :=
  md_inv ua c -> md_inv ua c' /\ exists x, c_buf c' = c_buf c ++ x.

Lemma md_step_trans ua c1 c2 c3 : md_step ua c1 c2 -> md_step ua c2 c3 -> md_step ua c1 c3.
Proof.
  intros S1 S2 I. destruct (S1 I) as [I2 (x & B1)]. destruct (S2 I2) as [I3 (y & B2)].
  split; [exact I3|]. exists (x ++ y). rewrite B2, B1, <- app_assoc. reflexivity.
Qed.

Lemma md_step_app ua c c' x : c_buf c' = c_buf c ++ x -> c_model c' = c_model c -> bit_device c' = bit_device c -> md_step ua c c'.
Proof.
  intros B M E I. split; [|eauto]. unfold md_inv in *. rewrite E. destruct (bit_device c); [|congruence].
  destruct I as (t & H1 & H2 & H3). exists t. split; [exact H1|]. split; [eapply holds_grow; eassumption|].
  rewrite B. unfold zl in *. rewrite app_length. lia.
Qed.
Lemma md_step_same ua c c' : c_buf c' = c_buf c -> c_model c' = c_model c -> bit_device c' = bit_device c -> md_step ua c c'.
Proof. intros B. apply md_step_app with (x := []). rewrite app_nil_r. exact B. Qed.

Lemma step_client ua c : md_step ua c (fst (run_cold (ensure flagClientDetect (parse_client T) c))).
Proof.
  destruct (check_bit (c_bits c) flagClientDetect) eqn:B.
  - unfold ensure. rewrite B. apply md_step_same; reflexivity.
  - unfold parse_client. rewrite (run_cold_detect_m flagClientDetect _ _ (pret tt)) by exact B. cbn [fst].
    pose proof (proj2 (local_client_try T client_classes) c) as R. unfold client_rest in R.
    apply md_step_same; cbn [c_buf c_model set_flag up_bits]; [congruence|congruence|].
    unfold bit_device. transitivity (bit flagDeviceDetect (fst (client_try T client_classes c))); [|congruence]. view_tac.
Qed.
Lemma step_os ua c : md_step ua c (fst (run_cold (ensure flagOSDetect (parse_os T) c))).
Proof.
  destruct (check_bit (c_bits c) flagOSDetect) eqn:B.
  - unfold ensure. rewrite B. apply md_step_same; reflexivity.
  - unfold parse_os. rewrite (run_cold_detect_m flagOSDetect _ _ (pret tt)) by exact B. cbn [fst].
    pose proof (proj2 (local_eval_os T) c) as R. unfold os_rest in R.
    apply md_step_same; cbn [c_buf c_model set_flag up_bits]; [congruence|congruence|].
    unfold bit_device. transitivity (bit flagDeviceDetect (fst (eval_os T c))); [|congruence]. view_tac.
Qed.
Lemma step_device ua h c : no_panics ua -> good ua h c ->
  md_step ua c (fst (run_cold (ensure flagDeviceDetect (parse_device T) c))).
Proof.
  intros NP Gc. destruct (check_bit (c_bits c) flagDeviceDetect) eqn:B.
  - unfold ensure. rewrite B. apply md_step_same; reflexivity.
  - assert (E : fst (run_cold (ensure flagDeviceDetect (parse_device T) c)) =
      set_flag flagDeviceDetect (fst (run_cold (device_body T c)))).
    { unfold ensure. rewrite B. unfold pbind. rewrite run_cold_bind. unfold parse_device, pbind. cbn [pcget prog_bind run_cold].
      unfold pdefer. rewrite run_cold_bind. destruct (run_cold (device_body T c)) as [c1 [b|]]; reflexivity. }
    rewrite E. clear E.
    intros I. unfold md_inv in I. unfold bit_device, bit in I. rewrite B in I.
    assert (X : sim [] (c_buf c) 0 (c0 mC mD ua) c).
    { split.
      - destruct Gc as (E1 & _ & E3 & _ & _ & _ & _ & _ & _ & P3). unfold part_ok in P3.
        fold (bit flagDeviceDetect c) in B. rewrite B in P3. unfold device_view. rewrite P3, E1, E3. reflexivity.
      - exists []. split; [reflexivity|]. split; [rewrite app_nil_r; reflexivity|]. split; [cbn; lia|]. left. auto. }
    pose proof (cold_device_sim ua h c _ NP Gc X) as S.
    split.
    + unfold md_inv.
      assert (Eb : bit_device (set_flag flagDeviceDetect (fst (run_cold (device_body T c)))) = true).
      { unfold bit_device, bit, set_flag. cbn. apply check_set_same. }
      rewrite Eb. destruct (sim_holds _ _ _ _ _ S) as (t & H1 & H2). exists t. split; [exact H1|]. split; [exact H2|].
      destruct S as [_ (s & B1 & B2 & _)]. cbn [c_buf set_flag up_bits]. unfold fin_device. rewrite B1, B2.
      change ([] ++ s) with s. unfold zl. rewrite app_length. lia.
    + destruct S as [_ (s & _ & B2 & _)]. exists s. exact B2.
Qed.

Lemma step_lift {A B} ua (p : P A) (m : M B) c :
  md_step ua c (fst (run_cold (p c))) -> (forall c, md_step ua c (fst (m c))) ->
  md_step ua c (fst (run_cold ((p ;; plift m)%p c))).
Proof.
  intros S Hm. unfold pbind. rewrite run_cold_bind. destruct (run_cold (p c)) as [c1 [a|]]; cbn [fst] in *; [|exact S].
  cbn [plift run_cold]. eapply md_step_trans; [exact S|apply Hm].
Qed.

Lemma step_id {A} ua (m : M A) c : fst (m c) = c -> md_step ua c (fst (m c)).
Proof. intros ->. apply md_step_same; reflexivity. Qed.

Lemma step_pmap {A B} ua (f : A -> B) (p : P A) c :
  md_step ua c (fst (run_cold (p c))) -> md_step ua c (fst (run_cold (pmap f p c))).
Proof.
  intros S. unfold pmap, pbind. rewrite run_cold_bind. destruct (run_cold (p c)) as [c1 [a|]]; exact S.
Qed.

Lemma step_version ua (proj : ctx -> version) (upd : version -> ctx -> ctx) (gs : P bytes) c :
  (forall v c, c_buf (upd v c) = c_buf c /\ c_model (upd v c) = c_model c /\ bit_device (upd v c) = bit_device c) ->
  md_step ua c (fst (run_cold (gs c))) ->
  md_step ua c (fst (run_cold ((fun c => if v_p (proj c) then Ret (c, Ok (proj c))
          else (raw <- gs ;;
                plift (mmod (fun c => upd (fst (parse (proj c) raw)) c)) ;;
                plift (mget proj))%p c) c))).
Proof.
  intros H S. cbv beta. destruct (v_p (proj c)); [apply md_step_same; reflexivity|].
  unfold pbind. rewrite run_cold_bind. destruct (run_cold (gs c)) as [c1 [raw|]]; cbn [fst] in *; [|exact S].
  cbn [plift mmod mget prog_bind run_cold fst]. eapply md_step_trans; [exact S|].
  destruct (H (fst (parse (proj c1) raw)) c1) as (H1 & H2 & H3). apply md_step_same; assumption.
Qed.

Lemma step_getter ua h c g : no_panics ua -> good ua h c -> md_step ua c (fst (run_cold (run_getter T g c))).
Proof.
  intros NP Gc.
  assert (BV : md_step ua c (fst (run_cold (get_browser_version_string T c)))).
  { apply step_lift; [apply step_client|]. intros c1. apply step_id. apply (proj2 (pure_browser_version T c1 c1 eq_refl)). }
  assert (EV : md_step ua c (fst (run_cold (get_engine_version_string T c)))).
  { apply step_lift; [apply step_client|]. intros c1. apply step_id. apply (proj2 (pure_engine_version c1 c1 eq_refl)). }
  assert (OV : md_step ua c (fst (run_cold (get_os_version_string T c)))).
  { apply step_lift; [apply step_os|]. intros c1.
    destruct (proj2 (read_os_version_view T c1 c1 eq_refl)) as (b & -> & _). eapply md_step_app; reflexivity. }
  destruct g; cbn [run_getter]; try apply step_pmap; auto.
  - apply step_lift; [apply step_client|]. intros c1. apply step_id. reflexivity.
  - apply step_lift; [apply step_client|]. intros c1. apply step_id. apply (proj2 (pure_browser T c1 c1 eq_refl)).
  - apply (step_version ua c_cver up_cver); [split; [|split]; reflexivity|exact BV].
  - apply step_lift; [apply step_client|]. intros c1. apply step_id. apply (proj2 (pure_engine T c1 c1 eq_refl)).
  - apply (step_version ua c_ever up_ever); [split; [|split]; reflexivity|exact EV].
  - apply step_lift; [eapply step_device; eassumption|]. intros c1. apply step_id. apply (proj2 (pure_device_type c1 c1 eq_refl)).
  - apply step_lift; [eapply step_device; eassumption|]. intros c1. apply step_id. apply (proj2 (pure_brand T c1 c1 eq_refl)).
  - apply step_lift; [eapply step_device; eassumption|]. intros c1. apply step_id. apply read_model_id.
  - apply step_lift; [apply step_os|]. intros c1. apply step_id. apply (proj2 (read_os_ext T c1 c1 eq_refl)).
  - apply (step_version ua c_over up_over); [split; [|split]; reflexivity|exact OV].
  - apply md_step_same; reflexivity.
Qed.

(** GetModel without a cache. *)
Lemma cold_model ua h c :
  no_panics ua -> good ua h c -> md_inv ua c ->
  let x := run_cold (run_getter T GModel c) in
  good ua h (fst x) /\ ((zl (c_buf (fst x)) < 4294967296)%Z -> exists t, holds (fin_device T mC mD ua) t /\ snd x = Ok (VB t) /\
     (zl (c_buf (fin_device T mC mD ua)) <= zl (c_buf (fst x)))%Z).
Proof.
  intros NP Gc I. cbv zeta. cbn [run_getter]. unfold pmap, pbind. rewrite run_cold_bind. unfold get_model, pbind.
  rewrite run_cold_bind.
  pose proof (safe_cold _ _ _ (safe_detect_device T mC mD ua h c NP Gc)) as [[G1 B1] R1].
  destruct (step_device ua h c NP Gc I) as [I1 _].
  destruct (run_cold (ensure flagDeviceDetect (parse_device T) c)) as [c1 r]. cbn [fst snd] in *. subst r.
  cbn [plift run_cold]. pose proof (read_model_id c1) as Id.
  destruct (read_model c1) as [c2 r2] eqn:Er. cbn [fst] in Id. subst c2.
  assert (Ec : fst (run_cold (match (c1, r2) with (c', Ok a) => pret (VB a) c' | (c', Panic) => Ret (c', Panic) end)) = c1)
    by (destruct r2; reflexivity).
  rewrite Ec. split; [exact G1|]. intros L.
  unfold md_inv in I1. unfold bit_device in I1. rewrite B1 in I1. destruct I1 as (t & H1 & H2 & H3).
  exists t. split; [exact H1|]. rewrite (holds_read _ _ H2 L) in Er. injection Er as <-. split; [reflexivity|exact H3].
Qed.

Lemma alone_model ua h t : no_panics ua -> holds (fin_device T mC mD ua) t ->
  (zl (c_buf (fin_device T mC mD ua)) < 4294967296)%Z -> alone T mC mD h ua GModel = Ok (VB t).
Proof.
  intros NP H L. unfold alone.
  assert (I : md_inv ua (fresh_ctx mC mD h ua)) by reflexivity.
  cbn [run_getter]. unfold pmap, pbind. rewrite run_cold_bind. unfold get_model, pbind. rewrite run_cold_bind.
  assert (E : run_cold (ensure flagDeviceDetect (parse_device T) (fresh_ctx mC mD h ua)) =
    (set_flag flagDeviceDetect (fst (run_cold (device_body T (fresh_ctx mC mD h ua)))), Ok tt)).
  { pose proof (safe_cold _ _ _ (safe_detect_device T mC mD ua h _ NP (good_fresh T mC mD ua h))) as [_ R1].
    revert R1. unfold ensure. rewrite (eq_refl : check_bit (c_bits (fresh_ctx mC mD h ua)) flagDeviceDetect = false).
    unfold pbind. rewrite run_cold_bind. unfold parse_device, pbind. cbn [pcget prog_bind run_cold].
    unfold pdefer. rewrite run_cold_bind. destruct (run_cold (device_body T (fresh_ctx mC mD h ua))) as [c1 [b|]]; cbn; congruence. }
  rewrite E. cbn [plift run_cold].
  assert (S : sim [] [] 0 (c0 mC mD ua) (fresh_ctx mC mD h ua)).
  { split; [reflexivity|]. exists []. split; [reflexivity|]. split; [reflexivity|]. split; [cbn; lia|]. left. auto. }
  apply (cold_device_sim ua h _ _ NP (good_fresh T mC mD ua h)) in S. fold (fin_device T mC mD ua) in S.
  destruct (sim_holds _ _ _ _ _ S) as (t' & H1 & H2).
  assert (t' = t).
  { pose proof (holds_read _ _ H L) as X1. pose proof (holds_read _ _ H1 L) as X2. congruence. }
  subst t'.
  rewrite (holds_read _ t); [reflexivity|exact H2|].
  destruct S as [_ (s & B1 & B2 & _)]. cbn [c_buf set_flag up_bits]. rewrite B2, <- B1. exact L.
Qed.

Lemma cold_good ua h c g : no_panics ua -> good ua h c -> md_inv ua c -> good ua h (fst (run_cold (run_getter T g c))).
Proof.
  intros NP Gc I.
  assert (Hd : {g = GModel} + {g <> GModel}) by (destruct g; (left; reflexivity) || (right; discriminate)).
  destruct Hd as [->|Hg].
  - exact (proj1 (cold_model ua h c NP Gc I)).
  - exact (proj1 (safe_cold _ _ _ (safe_getter T mC mD ua h c _ NP Gc Hg))).
Qed.

(** The buffer only grows. *)
Lemma getters_grow ua h gs : forall c o ev, no_panics ua -> good ua h c -> md_inv ua c -> rsub o c ->
  let '(_, c', _, _) := run_getters T gs c o ev in (zl (c_buf c) <= zl (c_buf c'))%Z.
Proof.
  induction gs as [|g gs IH]; intros c o ev NP Gc I R; cbn [run_getters]; [lia|].
  destruct (priv_getter g c o ev R) as (o1 & ev1 & E & R1 & _). rewrite E.
  destruct (step_getter ua h c g NP Gc I) as [I1 (x & B)].
  pose proof (cold_good ua h c g NP Gc I) as G1.
  destruct (run_cold (run_getter T g c)) as [c1 r]. cbn [fst] in *.
  specialize (IH c1 o1 ev1 NP G1 I1 R1). destruct (run_getters T gs c1 o1 ev1) as [[[rs c2] o2] ev2].
  rewrite B in IH. unfold zl in *. rewrite app_length in IH. lia.
Qed.

Lemma private_gen ua h gs : forall c o ev, no_panics ua -> good ua h c -> md_inv ua c -> rsub o c ->
  let '(rs, c', _, _) := run_getters T gs c o ev in
  (zl (c_buf c') < 4294967296)%Z -> rs = map (alone T mC mD h ua) gs.
Proof.
  induction gs as [|g gs IH]; intros c o ev NP Gc I R; cbn [run_getters map]; [reflexivity|].
  destruct (priv_getter g c o ev R) as (o1 & ev1 & E & R1 & _). rewrite E.
  destruct (step_getter ua h c g NP Gc I) as [I1 _].
  assert (G1 : good ua h (fst (run_cold (run_getter T g c))) /\
    ((zl (c_buf (fst (run_cold (run_getter T g c)))) < 4294967296)%Z -> snd (run_cold (run_getter T g c)) = alone T mC mD h ua g)).
  { assert (Hd : {g = GModel} + {g <> GModel}) by (destruct g; (left; reflexivity) || (right; discriminate)).
    destruct Hd as [->|Hg].
    - destruct (cold_model ua h c NP Gc I) as [G1 V]. split; [exact G1|]. intros L.
      destruct (V L) as (t & H1 & -> & Lf). symmetry. apply alone_model; [exact NP|exact H1|lia].
    - destruct (safe_cold _ _ _ (safe_getter T mC mD ua h c _ NP Gc Hg)) as [G1 V]. split; [exact G1|]. intros _.
      rewrite V. apply final_alone; assumption. }
  destruct (run_cold (run_getter T g c)) as [c1 r]. cbn [fst snd] in *. destruct G1 as [G1 V].
  pose proof (getters_grow ua h gs c1 o1 ev1 NP G1 I1 R1) as Gr.
  specialize (IH c1 o1 ev1 NP G1 I1 R1). destruct (run_getters T gs c1 o1 ev1) as [[[rs c2] o2] ev2].
  intros L. rewrite V by lia. rewrite IH by exact L. reflexivity.
Qed.

Theorem private_alone ua h gs ev rs c' o' ev' :
  detects T mC mD ua ->
  run_getters T gs (fresh_ctx mC mD h ua) None ev = (rs, c', o', ev') ->
  (N.of_nat (length (c_buf c')) < 4294967296)%N ->
  rs = map (alone T mC mD h ua) gs.
Proof.
  intros D E L.
  pose proof (private_gen ua h gs (fresh_ctx mC mD h ua) None ev (detects_no_panics T mC mD ua D) (good_fresh T mC mD ua h)
    eq_refl I) as H. rewrite E in H. apply H. unfold zl. lia.
Qed.

(** ** Once detected, no more cache accesses *)
Lemma ensure_done flag parse c : bit flag c = true -> ensure flag parse c = Ret (c, Ok tt).
Proof. unfold bit, ensure. intros ->. reflexivity. Qed.

Lemma done_getter g c :
  match group g with Some f => bit f c = true | None => True end -> exists x, run_getter T g c = Ret x.
Proof.
  assert (R : forall A B flag parse (read : M A) (f : A -> B), bit flag c = true ->
    exists x, pmap f (ensure flag parse ;; plift read)%p c = Ret x).
  { intros A B flag parse read f H. unfold pmap, pbind. rewrite (ensure_done flag parse c H). cbn [prog_bind plift].
    destruct (read c) as [c1 [a|]]; eexists; reflexivity. }
  assert (V : forall flag parse (read : M bytes) proj (upd : version -> ctx -> ctx), bit flag c = true ->
    exists x, pmap VV (fun c => if v_p (proj c) then Ret (c, Ok (proj c))
          else (raw <- (ensure flag parse ;; plift read) ;;
                plift (mmod (fun c => upd (fst (Model_Version.parse (proj c) raw)) c)) ;;
                plift (mget proj))%p c) c = Ret x).
  { intros flag parse read proj upd H. unfold pmap, pbind. destruct (v_p (proj c)); [eexists; reflexivity|].
    rewrite (ensure_done flag parse c H). cbn [prog_bind plift].
    destruct (read c) as [c1 [a|]]; eexists; reflexivity. }
  destruct g; cbn [group run_getter]; intros H;
    first [apply R; exact H | apply (V flagClientDetect _ _ c_cver up_cver H) | apply (V flagClientDetect _ _ c_ever up_ever H)
          | apply (V flagOSDetect _ _ c_over up_over H) | eexists; reflexivity].
Qed.

Lemma ensure_sets flag (body : P bool) c :
  bit flag (fst (run_cold (ensure flag (o <- pcget get_user_agent ;;
   match o with
   | Some e =>
       if check_bit (e_bits e) flag then plift (mmod (from_cache e)) ;; pret true
       else pdefer body (fun _ => finish flag)
   | None => pdefer body (fun _ => finish flag)
   end)%p c))) = true.
Proof.
  unfold ensure. destruct (check_bit (c_bits c) flag) eqn:B; [exact B|].
  unfold pbind. rewrite run_cold_bind. cbn [pcget prog_bind run_cold]. unfold pdefer. rewrite run_cold_bind.
  destruct (run_cold (body c)) as [c1 [b|]]; cbn; unfold bit, set_flag; cbn; apply check_set_same.
Qed.

(** Versions are parsed only after detection. *)
Definition vinv (c : ctx) : Prop :=
  (v_p (c_cver c) = true -> bit flagClientDetect c = true) /\ (v_p (c_ever c) = true -> bit flagClientDetect c = true) /\
  (v_p (c_over c) = true -> bit flagOSDetect c = true).

Definition coldv {A} (p : P A) : Prop := forall c, vers (fst (run_cold (p c))) = vers c.
Lemma coldv_ret {A} (a : A) : coldv (pret a).
Proof. intros c. reflexivity. Qed.
Lemma coldv_bind {A B} (p : P A) (f : A -> P B) : coldv p -> (forall a, coldv (f a)) -> coldv (pbind p f).
Proof.
  intros Hp Hf c. unfold pbind. rewrite run_cold_bind. specialize (Hp c).
  destruct (run_cold (p c)) as [c1 [a|]]; cbn [fst] in *; [|exact Hp]. rewrite Hf. exact Hp.
Qed.
Lemma coldv_lift {A} (m : M A) : (forall c, vers (fst (m c)) = vers c) -> coldv (plift m).
Proof. intros H c. apply H. Qed.
Lemma coldv_defer {A} (p : P A) f : coldv p -> (forall r, coldv (f r)) -> coldv (pdefer p f).
Proof.
  intros Hp Hf c. unfold pdefer. rewrite run_cold_bind. specialize (Hp c).
  destruct (run_cold (p c)) as [c1 r]; cbn [fst snd] in *. rewrite run_cold_bind. specialize (Hf r c1).
  destruct (run_cold (f r c1)) as [c2 [u|]]; cbn [fst snd] in *; cbn; congruence.
Qed.
Lemma coldv_finish flag : coldv (finish flag).
Proof. intros c. reflexivity. Qed.
Lemma coldv_ensure flag (body : P bool) : coldv body ->
  coldv (ensure flag (o <- pcget get_user_agent ;;
   match o with
   | Some e =>
       if check_bit (e_bits e) flag then plift (mmod (from_cache e)) ;; pret true
       else pdefer body (fun _ => finish flag)
   | None => pdefer body (fun _ => finish flag)
   end)%p).
Proof.
  intros H c. unfold ensure. destruct (check_bit (c_bits c) flag) eqn:B; [reflexivity|].
  unfold pbind. rewrite run_cold_bind. cbn [pcget prog_bind run_cold].
  pose proof (coldv_defer body (fun _ => finish flag) H (fun _ => coldv_finish flag) c) as E.
  destruct (run_cold (pdefer body (fun _ => finish flag) c)) as [c1 [b|]]; exact E.
Qed.
Lemma vers_device {A} (m : M A) : local device_view device_rest m -> forall c, vers (fst (m c)) = vers c.
Proof. intros [_ H] c. specialize (H c). unfold device_rest, env_part in H. unfold vers. congruence. Qed.

Lemma coldv_client : coldv (ensure flagClientDetect (parse_client T)).
Proof. apply coldv_ensure, coldv_lift, vers_client. Qed.
Lemma coldv_os : coldv (ensure flagOSDetect (parse_os T)).
Proof. apply coldv_ensure, coldv_lift, vers_os. Qed.
Lemma coldv_device : coldv (ensure flagDeviceDetect (parse_device T)).
Proof.
  apply coldv_ensure. apply coldv_bind.
  - generalize device_classes. induction l as [|[[b idx] def] l IH]; cbn [device_try]; [apply coldv_ret|].
    apply coldv_bind; [apply coldv_lift; reflexivity|]. intros mask.
    destruct (negb (N.land mask b =? 0)%N); [|exact IH].
    apply coldv_bind.
    + apply coldv_defer; [apply coldv_lift, vers_device, local_eval_device_body|]. intros r.
      assert (K : coldv (if idx =? dpNotebook
         then os <- get_os T ;; (if in_list os desktopOS then plift (mmod (set_flag flagDeviceForceDesktop)) else pret tt)
         else pret tt)%p).
      { destruct (idx =? dpNotebook); [|apply coldv_ret]. apply coldv_bind.
        - apply coldv_bind; [apply coldv_os|]. intros _. apply coldv_lift. intros c.
          rewrite (proj2 (read_os_ext T c c eq_refl)). reflexivity.
        - intros os. destruct (in_list os desktopOS); [apply coldv_lift; reflexivity|apply coldv_ret]. }
      destruct r as [[n|]|]; [apply coldv_ret|exact K|exact K].
    + intros [typ|]; [|exact IH]. apply coldv_bind; [apply coldv_lift; reflexivity|]. intros _. apply coldv_ret.
  - intros []; [apply coldv_ret|]. apply coldv_lift, vers_device, local_device_fallback.
Qed.

(** What a getter does to the bits and the versions. *)
Definition after (f : N) (c c' : ctx) : Prop := bit f c' = true /\ detected (c_bits c) c' /\ vers c' = vers c.

Lemma after_ensure f parse c :
  (forall c, bit f (fst (run_cold (ensure f parse c))) = true) -> priv (ensure f parse) -> coldv (ensure f parse) ->
  after f c (fst (run_cold (ensure f parse c))).
Proof.
  intros H1 H2 H3. split; [apply H1|]. split; [|apply H3].
  destruct (H2 c None [] I) as (o & ev & _ & _ & D). exact D.
Qed.

Lemma after_read {A} f parse (read : M A) c :
  after f c (fst (run_cold (ensure f parse c))) ->
  (forall c, c_bits (fst (read c)) = c_bits c /\ vers (fst (read c)) = vers c) ->
  after f c (fst (run_cold ((ensure f parse ;; plift read)%p c))).
Proof.
  intros H R. unfold pbind. rewrite run_cold_bind. destruct (run_cold (ensure f parse c)) as [c1 [u|]]; [|exact H].
  cbn [fst plift run_cold] in *. destruct (R c1) as [R1 R2]. destruct H as (H1 & H2 & H3).
  split; [unfold bit in *; rewrite R1; exact H1|]. split; [|congruence].
  intros fl Hf Hb. unfold bit. rewrite R1. apply H2; assumption.
Qed.

Lemma after_pmap {A B} f (g : A -> B) (p : P A) c :
  after f c (fst (run_cold (p c))) -> after f c (fst (run_cold (pmap g p c))).
Proof.
  intros H. unfold pmap, pbind. rewrite run_cold_bind. destruct (run_cold (p c)) as [c1 [a|]]; exact H.
Qed.

Lemma vinv_after f c c' : In f [flagClientDetect; flagOSDetect; flagDeviceDetect] -> vinv c -> after f c c' -> vinv c'.
Proof.
  intros Hf (V1 & V2 & V3) (A1 & A2 & A3). unfold vers in A3. injection A3 as E1 E2 E3.
  split; [|split]; intros H; apply A2; cbn; auto; [apply V1|apply V2|apply V3]; congruence.
Qed.

Lemma bits_vers_id {A} (m : M A) : (forall c, fst (m c) = c) -> forall c, c_bits (fst (m c)) = c_bits c /\ vers (fst (m c)) = vers c.
Proof. intros H c. rewrite H. auto. Qed.

Lemma step_vinv g c : vinv c ->
  vinv (fst (run_cold (run_getter T g c))) /\ detected (c_bits c) (fst (run_cold (run_getter T g c))) /\
  match group g with Some f => bit f (fst (run_cold (run_getter T g c))) = true | None => True end.
Proof.
  intros V.
  assert (AC : after flagClientDetect c (fst (run_cold (ensure flagClientDetect (parse_client T) c)))).
  { apply after_ensure; [apply ensure_sets|apply priv_ensure_client|apply coldv_client]. }
  assert (AO : after flagOSDetect c (fst (run_cold (ensure flagOSDetect (parse_os T) c)))).
  { apply after_ensure; [apply ensure_sets|apply priv_ensure_os|apply coldv_os]. }
  assert (AD : after flagDeviceDetect c (fst (run_cold (ensure flagDeviceDetect (parse_device T) c)))).
  { apply after_ensure; [apply ensure_sets|apply priv_ensure_device|apply coldv_device]. }
  assert (Fin : forall f, In f [flagClientDetect; flagOSDetect; flagDeviceDetect] ->
    after f c (fst (run_cold (run_getter T g c))) ->
    vinv (fst (run_cold (run_getter T g c))) /\ detected (c_bits c) (fst (run_cold (run_getter T g c))) /\
    bit f (fst (run_cold (run_getter T g c))) = true).
  { intros f Hf H. split; [eapply vinv_after; eassumption|]. split; [exact (proj1 (proj2 H))|exact (proj1 H)]. }
  assert (BV : after flagClientDetect c (fst (run_cold (get_browser_version_string T c)))).
  { apply after_read; [exact AC|]. apply bits_vers_id. intros c1. apply (proj2 (pure_browser_version T c1 c1 eq_refl)). }
  assert (EV : after flagClientDetect c (fst (run_cold (get_engine_version_string T c)))).
  { apply after_read; [exact AC|]. apply bits_vers_id. intros c1. apply (proj2 (pure_engine_version c1 c1 eq_refl)). }
  assert (OV : after flagOSDetect c (fst (run_cold (get_os_version_string T c)))).
  { apply after_read; [exact AO|]. intros c1.
    destruct (proj2 (read_os_version_view T c1 c1 eq_refl)) as (b & -> & _). split; reflexivity. }
  assert (Ver : forall f (gs : P bytes) proj (upd : version -> ctx -> ctx),
    after f c (fst (run_cold (gs c))) -> (v_p (proj c) = true -> bit f c = true) ->
    (forall c1 raw, after f c c1 -> vinv (upd (fst (parse (proj c1) raw)) c1)) ->
    In f [flagClientDetect; flagOSDetect; flagDeviceDetect] ->
    (forall v c, c_bits (upd v c) = c_bits c) ->
    let c' := fst (run_cold (pmap VV (fun c => if v_p (proj c) then Ret (c, Ok (proj c))
          else (raw <- gs ;;
                plift (mmod (fun c => upd (fst (parse (proj c) raw)) c)) ;;
                plift (mget proj))%p c) c)) in
    vinv c' /\ detected (c_bits c) c' /\ bit f c' = true).
  { intros f gs proj upd H HV HU Hf HB. cbv zeta. unfold pmap, pbind. rewrite !run_cold_bind. cbv beta. destruct (v_p (proj c)) eqn:Ep.
    - cbn. split; [exact V|]. split; [apply detected_refl|auto].
    - rewrite !run_cold_bind. destruct (run_cold (gs c)) as [c1 [raw|]]; cbn [fst] in *.
      + cbn [plift mmod mget prog_bind run_cold fst pret]. split; [apply HU; exact H|].
        destruct H as (H1 & H2 & H3). unfold detected, bit in *. rewrite HB. auto.
      + cbn. split; [eapply vinv_after; eassumption|]. split; [exact (proj1 (proj2 H))|exact (proj1 H)]. }
  destruct g; cbn [group].
  - apply Fin; [cbn; auto|]. apply after_pmap, after_read; [exact AC|]. apply bits_vers_id. reflexivity.
  - apply Fin; [cbn; auto|]. apply after_pmap, after_read; [exact AC|]. apply bits_vers_id.
    intros c1. apply (proj2 (pure_browser T c1 c1 eq_refl)).
  - apply (Ver flagClientDetect _ c_cver up_cver); [exact BV|apply V| |cbn; auto|reflexivity].
    intros c1 raw H1. pose proof (vinv_after flagClientDetect c c1 ltac:(cbn; auto) V H1) as (X1 & X2 & X3).
    unfold vinv, bit in *. cbn [up_cver c_cver c_ever c_over c_bits]. split; [intros _; exact (proj1 H1)|]. split; [exact X2|exact X3].
  - apply Fin; [cbn; auto|]. apply after_pmap. exact BV.
  - apply Fin; [cbn; auto|]. apply after_pmap, after_read; [exact AC|]. apply bits_vers_id.
    intros c1. apply (proj2 (pure_engine T c1 c1 eq_refl)).
  - apply (Ver flagClientDetect _ c_ever up_ever); [exact EV|apply V| |cbn; auto|reflexivity].
    intros c1 raw H1. pose proof (vinv_after flagClientDetect c c1 ltac:(cbn; auto) V H1) as (X1 & X2 & X3).
    unfold vinv, bit in *. cbn [up_ever c_cver c_ever c_over c_bits]. split; [exact X1|]. split; [intros _; exact (proj1 H1)|exact X3].
  - apply Fin; [cbn; auto|]. apply after_pmap. exact EV.
  - apply Fin; [cbn; auto|]. apply after_pmap, after_read; [exact AD|]. apply bits_vers_id.
    intros c1. apply (proj2 (pure_device_type c1 c1 eq_refl)).
  - apply Fin; [cbn; auto|]. apply after_pmap, after_read; [exact AD|]. apply bits_vers_id.
    intros c1. apply (proj2 (pure_brand T c1 c1 eq_refl)).
  - apply Fin; [cbn; auto|]. apply after_pmap, after_read; [exact AD|]. apply bits_vers_id. apply read_model_id.
  - apply Fin; [cbn; auto|]. apply after_pmap, after_read; [exact AO|]. apply bits_vers_id.
    intros c1. apply (proj2 (read_os_ext T c1 c1 eq_refl)).
  - apply (Ver flagOSDetect _ c_over up_over); [exact OV|apply V| |cbn; auto|reflexivity].
    intros c1 raw H1. pose proof (vinv_after flagOSDetect c c1 ltac:(cbn; auto) V H1) as (X1 & X2 & X3).
    unfold vinv, bit in *. cbn [up_over c_cver c_ever c_over c_bits]. split; [exact X1|]. split; [exact X2|intros _; exact (proj1 H1)].
  - apply Fin; [cbn; auto|]. apply after_pmap. exact OV.
  - cbn. split; [exact V|]. split; [apply detected_refl|exact I].
Qed.

Lemma run_getters_keep gs : forall c o ev rs c' o' ev', vinv c -> rsub o c ->
  run_getters T gs c o ev = (rs, c', o', ev') -> detected (c_bits c) c' /\ rsub o' c' /\ vinv c'.
Proof.
  induction gs as [|g gs IH]; intros c o ev rs c' o' ev' V R E; cbn [run_getters] in E.
  - injection E as <- <- <- <-. split; [apply detected_refl|]. auto.
  - destruct (priv_getter g c o ev R) as (o1 & ev1 & E1 & R1 & D1). rewrite E1 in E.
    destruct (step_vinv g c V) as (V1 & _ & _). destruct (run_cold (run_getter T g c)) as [c1 r]. cbn [fst] in *.
    destruct (run_getters T gs c1 o1 ev1) as [[[rs2 c2] o2] ev2] eqn:E2. injection E as <- <- <- <-.
    destruct (IH _ _ _ _ _ _ _ V1 R1 E2) as (D2 & R2 & V2).
    split; [eapply detected_trans; eassumption|]. auto.
Qed.

Lemma run_getters_app gs1 : forall gs2 c o ev,
  run_getters T (gs1 ++ gs2) c o ev =
  let '(rs1, c1, o1, ev1) := run_getters T gs1 c o ev in
  let '(rs2, c2, o2, ev2) := run_getters T gs2 c1 o1 ev1 in (rs1 ++ rs2, c2, o2, ev2).
Proof.
  induction gs1 as [|g gs1 IH]; intros gs2 c o ev; cbn [app run_getters].
  - destruct (run_getters T gs2 c o ev) as [[[rs2 c2] o2] ev2]. reflexivity.
  - destruct (run_priv (run_getter T g c) o ev) as [[[c1 r] o1] ev1]. rewrite IH.
    destruct (run_getters T gs1 c1 o1 ev1) as [[[rs2 c2] o2] ev2].
    destruct (run_getters T gs2 c2 o2 ev2) as [[[rs3 c3] o3] ev3]. reflexivity.
Qed.

Theorem private_done ua h gs1 g gs2 g' ev rs c' o' ev' :
  run_getters T (gs1 ++ g :: gs2) (fresh_ctx mC mD h ua) None ev = (rs, c', o', ev') ->
  group g' = group g -> exists x, run_getter T g' c' = Ret x.
Proof.
  intros E Hg. rewrite run_getters_app in E.
  assert (V0 : vinv (fresh_ctx mC mD h ua)) by (split; [|split]; discriminate).
  destruct (run_getters T gs1 (fresh_ctx mC mD h ua) None ev) as [[[rs1 c1] o1] ev1] eqn:E1.
  destruct (run_getters_keep _ _ None _ _ _ _ _ V0 I E1) as (_ & R1 & V1).
  cbn [run_getters] in E. destruct (priv_getter g c1 o1 ev1 R1) as (o2 & ev2 & E2 & R2 & _). rewrite E2 in E.
  destruct (step_vinv g c1 V1) as (V2 & _ & B2). destruct (run_cold (run_getter T g c1)) as [c2 r]. cbn [fst] in *.
  destruct (run_getters T gs2 c2 o2 ev2) as [[[rs3 c3] o3] ev3] eqn:E3. injection E as <- <- <- <-.
  destruct (run_getters_keep _ _ _ _ _ _ _ _ V2 R2 E3) as (D3 & _).
  apply done_getter. rewrite Hg. destruct (group g) as [f|] eqn:Ef; [|exact I].
  apply D3; [|exact B2]. destruct g; cbn [group] in Ef; try discriminate; inversion Ef; subst f; cbn; auto.
Qed.
End Private.

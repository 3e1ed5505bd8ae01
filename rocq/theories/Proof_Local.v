(** Locality: each detection reads and writes its own part of the context only. *)
From Verif Require Import Proof_Base Model_CacheEntry Model_Version Model_Ctx Model_Parse Spec_Getters.

Lemma check_set b i j : check_bit (set_bit b i) j = (i =? j)%N || check_bit b j.
Proof.
  destruct (N.eqb_spec i j) as [->|H]; [apply check_set_same|apply check_set_other; exact H].
Qed.

(** [local V W m]: the outcome of [m] and the view [V] of the context after it depend on [V] only, and [W] is kept. *)
Definition local {X Y A} (V : ctx -> X) (W : ctx -> Y) (m : M A) : Prop :=
  (forall c1 c2, V c1 = V c2 -> snd (m c1) = snd (m c2) /\ V (fst (m c1)) = V (fst (m c2))) /\
  (forall c, W (fst (m c)) = W c).

Section Local.
Context {X Y : Type} (V : ctx -> X) (W : ctx -> Y).

Lemma local_ret {A} (a : A) : local V W (mret a).
Proof. split; cbn; auto. Qed.

Lemma local_lift {A} (r : res A) : local V W (mlift r).
Proof. split; cbn; auto. Qed.

Lemma local_bind {A B} (m : M A) (f : A -> M B) :
  local V W m -> (forall a, local V W (f a)) -> local V W (mbind m f).
Proof.
  intros [H1 H2] Hf. split.
  - intros c1 c2 E. unfold mbind. destruct (H1 c1 c2 E) as [E1 E2].
    destruct (m c1) as [c1' [a1|]], (m c2) as [c2' [a2|]]; cbn in *; try discriminate; [|split; congruence].
    injection E1 as ->. apply (Hf a2). exact E2.
  - intros c. unfold mbind. specialize (H2 c). destruct (m c) as [c' [a|]]; cbn in *; [|exact H2].
    rewrite <- H2. apply (Hf a).
Qed.

Lemma local_get {A} (f : ctx -> A) : (forall c1 c2, V c1 = V c2 -> f c1 = f c2) -> local V W (mget f).
Proof. intros H. split; cbn; auto. intros c1 c2 E. split; [f_equal; auto|exact E]. Qed.

Lemma local_mod (f : ctx -> ctx) :
  (forall c1 c2, V c1 = V c2 -> V (f c1) = V (f c2)) -> (forall c, W (f c) = W c) -> local V W (mmod f).
Proof. intros H1 H2. split; cbn; auto. Qed.

Lemma local_if {A} (b : bool) (m1 m2 : M A) : local V W m1 -> local V W m2 -> local V W (if b then m1 else m2).
Proof. destruct b; auto. Qed.
End Local.

(** ** The parts *)
Definition bit (i : N) (c : ctx) : bool := check_bit (c_bits c) i.

Definition client_part (c : ctx) :=
  (c_clientType c, c_clientName c, c_clientVersion c, c_engineName c, c_engineVersion c,
   bit flagVerConstSrc c, bit flagEngineForceBlink c).
Definition os_part (c : ctx) := (c_osName c, c_osVersion c, bit flagOSBufSrc c, bit flagOSVerBufSrc c).
Definition device_part (c : ctx) := (c_deviceType c, c_brand c, bit flagDeviceForceDesktop c, bit flagVendorFragment c).
Definition env_part (c : ctx) := (c_src c, c_maskC c, c_maskD c, c_hint c, c_cver c, c_ever c, c_over c).

Definition client_view (c : ctx) := (c_src c, c_maskC c, client_part c).
Definition client_rest (c : ctx) :=
  (env_part c, os_part c, device_part c, c_model c, c_buf c,
   (bit flagClientDetect c, bit flagOSDetect c, bit flagDeviceDetect c)).
Definition os_view (c : ctx) := (c_src c, os_part c).
Definition os_rest (c : ctx) :=
  (env_part c, client_part c, device_part c, c_model c, c_buf c,
   (bit flagClientDetect c, bit flagOSDetect c, bit flagDeviceDetect c)).
(** The model name and the buffer holding it are not part of the device view. *)
Definition device_view (c : ctx) := (c_src c, c_maskD c, device_part c).
Definition device_rest (c : ctx) :=
  (env_part c, client_part c, os_part c,
   (bit flagClientDetect c, bit flagOSDetect c, bit flagDeviceDetect c)).

Ltac unf := cbv [client_view client_rest os_view os_rest device_view device_rest env_part client_part os_part device_part bit] in *.
Ltac view_tac :=
  intros; unf; cbn [fst snd set_flag up_bits up_src up_buf up_maskC up_maskD up_hint up_clientType up_clientName up_clientVersion up_cver
    up_engineName up_engineVersion up_ever up_deviceType up_brand up_model up_osName up_osVersion up_over
    c_bits c_src c_buf c_maskC c_maskD c_hint c_clientType c_clientName c_clientVersion c_cver
    c_engineName c_engineVersion c_ever c_deviceType c_brand c_model c_osName c_osVersion c_over] in *;
  rewrite ?check_set in *; cbn [N.eqb Pos.eqb flagClientDetect flagDeviceDetect flagOSDetect flagOSBufSrc flagOSVerBufSrc flagVerConstSrc
    flagDeviceForceDesktop flagEngineForceBlink flagVendorFragment orb] in *;
  congruence.

Ltac local_step :=
  first
  [ apply local_bind; [|intro]
  | apply local_ret | apply local_lift
  | apply local_get; view_tac
  | apply local_mod; view_tac
  | apply local_if
  | match goal with |- local _ _ (match ?x with _ => _ end) => destruct x end ].

Section Parts.
Variable T : tables.

Lemma local_eval_engine cri : local client_view client_rest (eval_engine T cri).
Proof.
  unfold eval_engine. repeat (local_step || (cbv zeta)).
Qed.

Lemma local_client_version x re : local client_view client_rest (client_version x re).
Proof. unfold client_version. repeat (local_step || cbv zeta). Qed.

Lemma local_client_loop ir : local client_view client_rest (client_loop T ir).
Proof.
  induction ir as [|v ir IH]; cbn [client_loop]; [apply local_ret|].
  repeat (first [exact IH | apply local_client_version | local_step]).
Qed.

Lemma local_eval_client idx : local client_view client_rest (eval_client T idx).
Proof.
  unfold eval_client. repeat (first [apply local_client_loop | apply local_eval_engine | local_step]).
Qed.

Lemma local_client_try l : local client_view client_rest (client_try T l).
Proof.
  induction l as [|[typ idx] l IH]; cbn [client_try]; [apply local_ret|].
  repeat (first [exact IH | apply local_eval_client | local_step]).
Qed.

(** OS *)
Lemma local_os_ver_loop rv : local os_view os_rest (os_ver_loop T rv).
Proof.
  induction rv as [|v rv IH]; cbn [os_ver_loop]; [apply local_ret|].
  repeat (first [exact IH | local_step | cbv zeta]).
Qed.

Lemma local_os_eval_ver r : local os_view os_rest (os_eval_ver T r).
Proof. unfold os_eval_ver. repeat (first [apply local_os_ver_loop | local_step]). Qed.

Lemma local_os_hit x re : local os_view os_rest (os_hit T x re).
Proof. unfold os_hit. repeat (first [apply local_os_eval_ver | local_step | cbv zeta]). Qed.

Lemma local_os_loop mac na r : local os_view os_rest (os_loop T mac na r).
Proof.
  induction r as [|v r IH]; cbn [os_loop]; [apply local_ret|].
  repeat (first [exact IH | apply local_os_hit | local_step | cbv zeta]).
Qed.

Lemma local_eval_os : local os_view os_rest (eval_os T).
Proof. unfold eval_os. repeat (first [apply local_os_loop | local_step | cbv zeta]). Qed.

(** Device.  The buffer functions read the length of the buffer, which is not in the view: they are handled as a
    whole. *)
Lemma local_append b : local device_view device_rest (append_buf b).
Proof. apply local_mod; view_tac. Qed.

Lemma local_bind_blind {A B} (m : M A) (f : A -> M B) :
  (forall c, exists a, m c = (c, Ok a)) -> (forall a, local device_view device_rest (f a)) ->
  (forall a a' c1 c2, device_view c1 = device_view c2 ->
     snd (f a c1) = snd (f a' c2) /\ device_view (fst (f a c1)) = device_view (fst (f a' c2))) ->
  local device_view device_rest (mbind m f).
Proof.
  intros Hm Hf Hb. split.
  - intros c1 c2 E. unfold mbind. destruct (Hm c1) as [a1 ->], (Hm c2) as [a2 ->]. apply Hb. exact E.
  - intros c. unfold mbind. destruct (Hm c) as [a ->]. apply (Hf a).
Qed.

(** Two computations with the same outcome and the same effect on the view. *)
Definition same {A} (m1 m2 : M A) : Prop :=
  forall c1 c2, device_view c1 = device_view c2 ->
    snd (m1 c1) = snd (m2 c2) /\ device_view (fst (m1 c1)) = device_view (fst (m2 c2)).

Lemma same_bind {A B} (m1 m2 : M A) (f1 f2 : A -> M B) :
  same m1 m2 -> (forall a, same (f1 a) (f2 a)) -> same (mbind m1 f1) (mbind m2 f2).
Proof.
  intros H Hf c1 c2 E. unfold mbind. destruct (H c1 c2 E) as [E1 E2].
  destruct (m1 c1) as [c1' [a1|]], (m2 c2) as [c2' [a2|]]; cbn in *; try discriminate; [|split; congruence].
  injection E1 as ->. apply Hf. exact E2.
Qed.

Lemma same_len {B} (f1 f2 : Z -> M B) :
  (forall a a', same (f1 a) (f2 a')) -> same (mbind buf_len f1) (mbind buf_len f2).
Proof. intros H c1 c2 E. unfold mbind, buf_len, mget. apply H. exact E. Qed.

Lemma same_model a a' : same (mmod (up_model a)) (mmod (up_model a')).
Proof. intros c1 c2 E. cbn. split; [reflexivity|]. revert E. view_tac. Qed.

Lemma same_local {A} (m : M A) : local device_view device_rest m -> same m m.
Proof. intros [H _]. exact H. Qed.

Lemma local_same {A} (m : M A) : same m m -> (forall c, device_rest (fst (m c)) = device_rest c) ->
  local device_view device_rest m.
Proof. intros H1 H2. split; assumption. Qed.

Lemma keep_bind {A B} (m : M A) (f : A -> M B) :
  (forall c, device_rest (fst (m c)) = device_rest c) -> (forall a c, device_rest (fst (f a c)) = device_rest c) ->
  forall c, device_rest (fst (mbind m f c)) = device_rest c.
Proof.
  intros H Hf c. unfold mbind. specialize (H c). destruct (m c) as [c' [a|]]; cbn in *; [|exact H].
  rewrite Hf. exact H.
Qed.
Lemma keep_local {A} (m : M A) : local device_view device_rest m -> forall c, device_rest (fst (m c)) = device_rest c.
Proof. intros [_ H]. exact H. Qed.

Lemma keep_len : forall c, device_rest (fst (buf_len c)) = device_rest c.
Proof. reflexivity. Qed.
Lemma keep_model a : forall c, device_rest (fst (mmod (up_model a) c)) = device_rest c.
Proof. intros c. cbn. view_tac. Qed.

Lemma local_mne1_loop fuel : forall raw src m p, local device_view device_rest (mne1_loop fuel raw src m p).
Proof.
  induction fuel as [|fuel IH]; intros; cbn [mne1_loop]; [apply local_ret|].
  repeat (first [apply IH | apply local_append | local_step | cbv zeta]).
Qed.

Ltac dstep :=
  first [ apply local_append | apply local_mne1_loop | local_step ].

Lemma local_buf_mne e : local device_view device_rest (device_buf_mne T e).
Proof.
  apply local_same; unfold device_buf_mne.
  - apply same_bind; [apply same_local; dstep|]. intro raw. apply same_len. intros lo lo'.
    apply same_bind; [apply same_local; dstep|]. intro. apply same_len. intros hi hi'. apply same_model.
  - apply keep_bind; [apply keep_local; dstep|]. intro. apply keep_bind; [apply keep_len|]. intro.
    apply keep_bind; [apply keep_local; dstep|]. intro. apply keep_bind; [apply keep_len|]. intro. apply keep_model.
Qed.

Lemma local_buf_mne1 e re : local device_view device_rest (device_buf_mne1 T e re).
Proof.
  unfold device_buf_mne1. apply local_bind; [dstep|]. intro raw.
  destruct (index_byte raw x24) as [p|]; apply local_same.
  - apply same_len. intros lo lo'. apply same_bind; [apply same_local; dstep|]. intro.
    apply same_bind; [apply same_local; dstep|]. intro src.
    apply same_bind; [apply same_local; dstep|]. intro.
    apply same_len. intros hi hi'. apply same_model.
  - apply keep_bind; [apply keep_len|]. intro. apply keep_bind; [apply keep_local; dstep|]. intro.
    apply keep_bind; [apply keep_local; dstep|]. intro.
    apply keep_bind; [apply keep_local; dstep|]. intro.
    apply keep_bind; [apply keep_len|]. intro. apply keep_model.
  - apply same_len. intros lo lo'. apply same_bind; [apply same_local; dstep|]. intro.
    apply same_len. intros hi hi'. apply same_model.
  - apply keep_bind; [apply keep_len|]. intro. apply keep_bind; [apply keep_local; dstep|]. intro.
    apply keep_bind; [apply keep_len|]. intro. apply keep_model.
Qed.

Lemma local_model_loop x def is_ : local device_view device_rest (model_loop T x def is_).
Proof.
  induction is_ as [|i is_ IH]; cbn [model_loop]; [apply local_ret|].
  repeat (first [exact IH | apply local_buf_mne1 | apply local_buf_mne | local_step]).
Qed.

Lemma local_device_hit x def : local device_view device_rest (device_hit T x def).
Proof.
  unfold device_hit.
  repeat (first [apply local_model_loop | apply local_buf_mne1 | apply local_buf_mne | local_step]).
Qed.

Lemma local_eval_device_body idx def : local device_view device_rest (eval_device_body T idx def).
Proof. unfold eval_device_body. repeat (first [apply local_device_hit | local_step]). Qed.

Lemma local_vendor_inner b js : local device_view device_rest (vendor_inner T b js).
Proof.
  induction js as [|j js IH]; cbn [vendor_inner]; [apply local_ret|].
  repeat (first [exact IH | local_step]).
Qed.

Lemma local_vendor_loop l : local device_view device_rest (vendor_loop T l).
Proof.
  induction l as [|v l IH]; cbn [vendor_loop]; [apply local_ret|].
  repeat (first [exact IH | apply local_vendor_inner | local_step]).
Qed.

Lemma local_device_fallback : local device_view device_rest (device_fallback T).
Proof. unfold device_fallback, eval_vendor. repeat (first [apply local_vendor_loop | local_step]). Qed.

End Parts.

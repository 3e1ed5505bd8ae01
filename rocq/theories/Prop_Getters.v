(** Properties C19-C22: the getters, the order in which they are called, the cache and concurrency. *)
From Verif Require Import Model_Base Model_CacheEntry Model_Version Model_Ctx Model_Parse Model_Cache Model_Shipped
  Spec_Getters Proof_Getters Proof_Private Proof_Repeat.

(** C19: a getter called twice on the same context (any getters in between, the cache holding nothing for this user
    agent at first, evictions at any moment) gives the same result twice; afterwards the getters of a group that
    has been asked about touch neither the cache nor the tables' detection code. *)
Theorem C19_getters_repeatable : forall T mC mD ua h gs ev rs c' o' ev',
  detects T mC mD ua ->
  run_getters T gs (fresh_ctx mC mD h ua) None ev = (rs, c', o', ev') ->
  (N.of_nat (length (c_buf c')) < 4294967296)%N ->
  (forall i j g, nth_error gs i = Some g -> nth_error gs j = Some g -> nth_error rs i = nth_error rs j) /\
  (forall g g', In g gs -> group g' = group g -> exists x, run_getter T g' c' = Ret x).
Proof. exact repeatable. Qed.
Print Assumptions C19_getters_repeatable.

(** C20: whatever the order, every getter returns what it returns when it is the only one called. *)
Theorem C20_order_independent : forall T mC mD ua h gs ev rs c' o' ev',
  detects T mC mD ua ->
  run_getters T gs (fresh_ctx mC mD h ua) None ev = (rs, c', o', ev') ->
  (N.of_nat (length (c_buf c')) < 4294967296)%N ->
  rs = map (alone T mC mD h ua) gs.
Proof. exact private_alone. Qed.
Print Assumptions C20_order_independent.

(** A feed reader on a camera: the shipped tables find it early, which keeps the examples cheap to check. *)
Definition camera_ua : bytes := bs "Akregator/1.2.3 (NuttX/10.1; EK-GC120)".
Definition some_getters : list getter := [GOSVersion; GModel; GBrowser; GDeviceType; GModel; GEngine; GOSVersion].

Example C19_C20_case :
  detects shipped ClientTypeAll DeviceTypeAll camera_ua /\
  exists rs c' o' ev',
    run_getters shipped some_getters (fresh_ctx ClientTypeAll DeviceTypeAll 0 camera_ua) None [false; true] = (rs, c', o', ev') /\
    nth_error rs 1 = Some (Ok (VB (bs "Galaxy Camera 120"))) /\ (N.of_nat (length (c_buf c')) < 4294967296)%N.
Proof. exact (getters_case shipped camera_ua some_getters [false; true] 1 (bs "Galaxy Camera 120") ltac:(vm_compute; reflexivity)). Qed.

(** C21 is false for GetModel: the second context, served from the cache, returns a piece of the user agent. *)
Theorem C21_cached_model_refuted : exists T mC mD l cf rs,
  (forall u, In u (asked l []) -> detects T mC mD u) /\ collision_free (asked l []) /\
  conc_run (start T mC mD [l]) cf /\ cf_threads cf = [Ret rs] /\
  ~ Forall2 (as_alone T mC mD) (calls l [] 0) rs.
Proof. exact (cached_model_wrong camera_ua (bs "Galaxy Camera 120") (bs "Akregator/1.2.3 (") ltac:(vm_compute; reflexivity)). Qed.
Print Assumptions C21_cached_model_refuted.

(** C21 for the other getters: in every history of contexts used one after the other (same masks, any clock readings
    and cleaning passes), every getter returns what it returns on a cold cache, provided the detections of its user
    agent do not panic. *)
Theorem C21_caching_transparent : forall T mC mD l cf rs,
  collision_free (asked l []) ->
  conc_run (start T mC mD [l]) cf -> cf_threads cf = [Ret rs] ->
  Forall2 (fun x r => detects T mC mD (fst (fst x)) -> snd x <> GModel -> as_alone T mC mD x r) (calls l [] 0) rs.
Proof. exact one_goroutine. Qed.
Print Assumptions C21_caching_transparent.

(** C22: the same for any number of goroutines in any interleaving of their cache calls and of cleaning passes
    (first part), and every reachable configuration can be continued until all goroutines have finished. *)
Theorem C22_concurrent_isolation : forall T mC mD scripts cf,
  conc_run (start T mC mD scripts) cf ->
  (forall i l rs, collision_free (concat (map (fun l => asked l []) scripts)) ->
     nth_error scripts i = Some l -> nth_error (cf_threads cf) i = Some (Ret rs) ->
     Forall2 (fun x r => detects T mC mD (fst (fst x)) -> snd x <> GModel -> as_alone T mC mD x r) (calls l [] 0) rs) /\
  (exists cf', conc_run cf cf' /\ Forall finished (cf_threads cf')).
Proof. exact isolated. Qed.
Print Assumptions C22_concurrent_isolation.

Definition ua_b : bytes := bs "Pods/3.0".
Definition two_goroutines : list (list act) :=
  [[ASetUA camera_ua; AGet GOS; AGet GOSVersionString; ARecycle; ASetUA ua_b; AGet GClientType; ASetUA camera_ua; AGet GOS];
   [ASetUA ua_b; AGet GOS; ASetUA camera_ua; ASetHint (bs "com.android.chrome"); AGet GBrowser]].
Example C21_C22_case :
  collision_free (concat (map (fun l => asked l []) two_goroutines)) /\
  detects shipped ClientTypeAll DeviceTypeAll camera_ua /\ ~ detects shipped ClientTypeAll DeviceTypeAll ua_b /\
  alone shipped ClientTypeAll DeviceTypeAll 0 camera_ua GOSVersionString = Ok (VB (bs "10.1")).
Proof. exact (two_goroutines_case shipped camera_ua ua_b (bs "10.1") two_goroutines eq_refl ltac:(vm_compute; reflexivity)). Qed.

(** Property C47. *)
From Verif Require Import Model_Base Model_CacheEntry Model_Version Model_Ctx Model_Parse Model_Shipped Model_Memory Spec_Getters Spec_Again Spec_Memory
  Proof_Memory.

(** C47: whatever string a getter returns, however the cache answered, it is a constant or a piece of one of the context's
    two buffers, and it is a piece of the working buffer only for the model and the OS version. *)
Theorem C47_place : forall T g c c1 s m, leaf (run_getter T g c) (c1, Ok (VB s)) -> represents m c1 ->
  sval (m_heap m) (to_str m (place_of T g c1 s)) = s /\ live m (to_str m (place_of T g c1 s)) /\
  (g <> GModel -> g <> GOSVersionString -> apart m (to_str m (place_of T g c1 s))).
Proof. exact place_spec. Qed.
Print Assumptions C47_place.

(** A getter that does not find a cached record only appends to the working buffer, and every string in use keeps its
    value. *)
Theorem C47_getters : forall T g c m, represents m c ->
  (exists m', grows m m' /\ represents m' (fst (run_cold (run_getter T g c)))) /\
  (forall m', grows m m' -> forall x, live m x -> sval (m_heap m') x = sval (m_heap m) x).
Proof. exact getter_keeps. Qed.
Print Assumptions C47_getters.

(** Whatever a getter does, cached record or not, the strings outside the working buffer keep their values. *)
Theorem C47_source : forall T g c c1 r m, represents m c -> leaf (run_getter T g c) (c1, r) ->
  (exists m', moves m m' /\ represents m' c1) /\
  (forall m', moves m m' -> forall x, apart m x -> sval (m_heap m') x = sval (m_heap m) x).
Proof. exact source_spec. Qed.
Print Assumptions C47_source.

(** Setting another user agent changes a string returned before. *)
Theorem C47_reuse_refuted : forall T, exists c s m ua m', leaf (run_getter T GUserAgent c) (c, Ok (VB s)) /\ represents m c /\
  mset_ua ua m m' /\ represents m' (set_user_agent ua c) /\
  sval (m_heap m) (to_str m (place_of T GUserAgent c s)) = s /\ sval (m_heap m') (to_str m (place_of T GUserAgent c s)) <> s.
Proof. exact reuse_case. Qed.
Print Assumptions C47_reuse_refuted.

(** Without any reuse, a getter served from the cache changes the OS version returned before by the same context: context
    [b] reads the OS version, another context with the same user agent reads the client type, then [b] reads the client
    type. *)
Theorem C47_cached_refuted : exists ua b0 s b1 a0 r b2 o1 o2 o3 ev1 ev2 ev3 a1 v m m',
    b0 = fresh_ctx ClientTypeAll DeviceTypeAll 0 ua /\ a0 = b0 /\
    run_priv (run_getter shipped GOSVersionString b0) None [] = ((b1, Ok (VB s)), o1, ev1) /\
    run_priv (run_getter shipped GClientType a0) o1 [] = ((a1, r), o2, ev2) /\
    run_priv (run_getter shipped GClientType b1) o2 [] = ((b2, Ok v), o3, ev3) /\
    represents m b1 /\ mcached (c_buf b2) m m' /\ represents m' b2 /\
    sval (m_heap m) (to_str m (place_of shipped GOSVersionString b1 s)) = s /\
    sval (m_heap m') (to_str m (place_of shipped GOSVersionString b1 s)) <> s.
Proof. exact (cached_case shipped (bs "iPhone OS 9_1") (bs "9.1") ltac:(vm_cast_no_check (eq_refl true))). Qed.
Print Assumptions C47_cached_refuted.

(** The hypotheses of the theorems above are met. *)
Example C47_case : exists m, represents m (new_ctx_with_src (bs "ab")) /\
  (forall T, leaf (run_getter T GUserAgent (new_ctx_with_src (bs "ab"))) (new_ctx_with_src (bs "ab"), Ok (VB (bs "ab")))) /\
  forall T, to_str m (place_of T GUserAgent (new_ctx_with_src (bs "ab")) (bs "ab")) = SRef 0 0 2.
Proof.
  exists (mkMem [bs "ab"; []] (mkSl 0 2) (mkSl 1 0)). split; [repeat split; auto with arith; discriminate|]. split; [intros T; apply Leaf_ret|reflexivity].
Qed.

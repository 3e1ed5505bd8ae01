(** Reads beyond the length of the working buffer. *)
From Coq Require Import Lia ZifyBool ZifyNat ZifyN.
From Verif Require Import Model_Base Model_CacheEntry Model_Ctx Model_Parse Model_Memory Model_Stale Spec_Getters Spec_Again Spec_Memory Spec_Stale
  Proof_Base Proof_Safe Proof_Getters Proof_Repeat Proof_Again Proof_Memory.

Lemma life_represents T uas c m : life T uas c m -> represents m c.
Proof.
  induction 1 as [|uas c m ua m' L IH St|uas c m h L IH|uas c m mC mD L IH|uas c m L IH|uas c m g m' L IH G R|uas c m g key k row c' r m' L IH E Sf Ek Eb St].
  - repeat split; cbn; auto; lia.
  - destruct St as [h src buf h' src' A]. destruct IH as (Cs & Cb & As & Ab & Ne & Ls & Lb). cbn [m_heap m_src m_buf] in *.
    destruct (append_spec h (mkSl (sl_arr src) 0) ua h' src') as (Ct & G' & Lh & Ar & Oth & _); [split; [exact As|cbn; lia]|exact A|].
    cbn [sl_arr sl_len] in *. destruct G' as [G1 G2]. unfold represents. cbn [m_heap m_src m_buf sl_arr sl_len]. repeat split; auto; try lia.
  - unfold set_requested_with. destruct (0 <? length h); exact IH.
  - exact IH.
  - destruct IH as (Cs & Cb & As & Ab & Ne & Ls & Lb). unfold mreset, represents. cbn [m_heap m_src m_buf sl_arr sl_len]. repeat split; auto; lia.
  - exact R.
  - destruct (cached_spec _ _ _ (represents_sound _ _ IH) St) as (S' & Es & Ed & _). destruct S' as (Gs & Gb & Nn).
    assert (Lf : leaf (run_getter T g c) (c', r)) by (rewrite E; apply (Leaf_get key k (Some row)); rewrite Ek; apply Leaf_ret).
    pose proof (keyed_leaf _ _ _ _ (keyed_getter T g c) Lf) as Ev. unfold env in Ev. destruct IH as (Cs & _).
    unfold represents. destruct Gs as [? ?], Gb as [? ?]. repeat split; auto; congruence.
Qed.

(** The array of the buffer: its contents, and what is left behind them. *)
Definition left_over (m : mem) : bytes := skipn (sl_len (m_buf m)) (arr (m_heap m) (sl_arr (m_buf m))).
Lemma array_split m c : represents m c -> arr (m_heap m) (sl_arr (m_buf m)) = c_buf c ++ left_over m.
Proof. intros (_ & Cb & _). unfold left_over. rewrite <- Cb. unfold contents. symmetry. apply firstn_skipn. Qed.
Lemma reads T uas c m : life T uas c m ->
  (c_model c = 0%N -> model_in m c = Ok []) /\
  (c_model c <> 0%N -> model_in m c = match slice64 (c_buf c ++ left_over m) (c_model c) with Ok raw => Ok (trim raw x20) | Panic => Panic end) /\
  (forall s, snd (read_model c) = Ok s -> model_in m c = Ok s).
Proof.
  intros L. pose proof (array_split m c (life_represents _ _ _ _ L)) as A. unfold model_in, cap_slice64. split; [intros ->; reflexivity|]. split.
  - intros N. destruct (N.eqb_spec (c_model c) 0); [contradiction|]. rewrite A. reflexivity.
  - intros s. unfold read_model, mbind, mget. destruct (N.eqb_spec (c_model c) 0) as [E|E]; cbn [negb].
    + cbn [snd mret]. intros H. injection H as <-. reflexivity.
    + unfold mlift, mret. destruct (slice64 (c_buf c) (c_model c)) as [raw|] eqn:Es. 2:{ intros H. discriminate H. } cbn [snd]. intros H. injection H as <-. rewrite A.
      assert (X : slice64 (c_buf c ++ left_over m) (c_model c) = Ok raw); [|rewrite X; reflexivity].
      unfold slice64 in *. destruct (e_decode (c_model c)) as [lo hi]. apply slice_Ok_inv in Es as (? & ? & a & b & E' & La & Lr).
      cbn [fst snd] in *. rewrite E', <- !app_assoc. rewrite slice_ok; [|lia|rewrite !app_length; lia]. f_equal.
      rewrite skipn_app, skipn_all2 by lia. replace (N.to_nat lo - length a) with 0 by lia. cbn [app skipn].
      rewrite firstn_app. replace (N.to_nat (hi - lo)) with (length raw) by lia. rewrite firstn_all, Nat.sub_diag. apply app_nil_r.
Qed.

(** Without a record in the cache the model is that of a new context. *)
Lemma cold_model T uas c m c1 s m' : life T uas c m -> run_cold (run_getter T GModel c) = (c1, Ok (VB s)) -> grows m m' -> represents m' c1 -> model_in m' c1 = Ok s.
Proof.
  intros L E G R. assert (L' : life T uas c1 m').
  { pose proof (L_cold T uas c m GModel m' L G) as H. rewrite E in H. exact (H R). }
  apply (reads _ _ _ _ L'). cbn [run_getter] in E. unfold pmap, get_model, pbind in E. rewrite run_cold_bind in E. rewrite run_cold_bind in E.
  destruct (run_cold (ensure flagDeviceDetect (parse_device T) c)) as [c2 [[]|]]; [|discriminate E].
  cbn [plift run_cold] in E. pose proof (read_model_reader c2) as Rd. destruct (read_model c2) as [c3 [s'|]] eqn:Er; cbn in E; [|discriminate E].
  injection E as -> ->. cbn in Rd. subst c2. rewrite Er. reflexivity.
Qed.

(** Served from the cache. *)
Lemma hit_getter T c row : check_bit (c_bits c) flagDeviceDetect = false -> check_bit (e_bits row) flagDeviceDetect = true ->
  exists k r, run_getter T GModel c = CGet (c_src c) k /\ k (Some row) = Ret (from_cache row c, r).
Proof.
  intros Hc Hr. cbn [run_getter]. unfold pmap, get_model, pbind, ensure. rewrite Hc. unfold parse_device, pbind, pcget. cbn [prog_bind].
  eexists. exists (match snd (read_model (from_cache row c)) with Ok x => Ok (VB x) | Panic => Panic end). split; [reflexivity|]. cbn beta iota. rewrite Hr. unfold plift, mmod, pret. cbn [prog_bind].
  destruct (read_model (from_cache row c)) as [c2 [x|]] eqn:E; cbn [prog_bind]; pose proof (read_model_reader (from_cache row c)) as Rd; rewrite E in Rd; cbn in Rd; subst c2; reflexivity.
Qed.

Definition row_of (T : tables) (ua : bytes) : option entry := snd (fst (run_priv (run_getter T GModel (fresh_ctx ClientTypeAll DeviceTypeAll 0 ua)) None [])).
Definition leak_check (T : tables) (ua1 ua2 s : bytes) : bool :=
  match row_of T ua1, row_of T ua2 with
  | Some r1, Some r2 =>
      check_bit (e_bits r1) flagDeviceDetect && check_bit (e_bits r2) flagDeviceDetect && beqs (e_data r1) ua1 && beqs (e_data r2) ua2 &&
      (length ua2 <=? length ua1) && negb (e_modelName r2 =? 0)%N && negb (length ua1 =? 0) &&
      match slice64 (ua2 ++ skipn (length ua2) ua1) (e_modelName r2) with Ok raw => beqs (trim raw x20) s | Panic => false end
  | _, _ => false
  end.
Lemma row_stored T ua row : row_of T ua = Some row -> stored_for T ua row.
Proof.
  unfold row_of. intros E. destruct (run_priv (run_getter T GModel (fresh_ctx ClientTypeAll DeviceTypeAll 0 ua)) None []) as [[x o] ev] eqn:R. cbn in E. subst o.
  exists ClientTypeAll, DeviceTypeAll, 0%N, GModel, x, ev. exact R.
Qed.
Lemma leak T ua1 ua2 s : leak_check T ua1 ua2 s = true -> exists c m, life T [ua2; ua1] c m /\ c_src c = ua2 /\ model_in m c = Ok s.
Proof.
  unfold leak_check. destruct (row_of T ua1) as [r1|] eqn:R1; [|discriminate]. destruct (row_of T ua2) as [r2|] eqn:R2; [|discriminate].
  intros H. repeat (apply andb_prop in H as [H ?H]). rename H into B1. rename H6 into B2. rename H5 into D1. rename H4 into D2. rename H3 into Ln. rename H2 into Mo. rename H1 into Ne.
  apply beqs_eq in D1, D2. apply row_stored in R1, R2.
  assert (N1 : 0 < length ua1) by (destruct ua1; [discriminate Ne|cbn; lia]). clear Ne. apply Nat.leb_le in Ln.
  (* the first user agent, from the cache; then the context goes through the pool *)
  pose (m1 := mkMem [[]; []; ua1] (mkSl 2 (length ua1)) (mkSl 1 0)).
  assert (L1 : life T [ua1] (set_user_agent ua1 new_ctx) m1).
  { apply (L_user_agent _ _ _ _ _ _ (L_new T)). unfold m1. apply MS_set_ua. rewrite <- (app_nil_r ua1) at 2. exact (GA_new [[]; []] (mkSl 0 0) ua1 [] N1). }
  destruct (hit_getter T (set_user_agent ua1 new_ctx) r1 eq_refl B1) as (k1 & x1 & G1 & K1).
  pose (m2 := mkMem [[]; []; ua1; ua1] (mkSl 2 (length ua1)) (mkSl 3 (length ua1))).
  assert (L2 : life T [ua1] (from_cache r1 (set_user_agent ua1 new_ctx)) m2).
  { eapply L_hit; [exact L1|exact G1|exact R1|exact K1|reflexivity|]. rewrite D1. unfold m1, m2. apply MS_cached. pose proof (GA_new [[]; []; ua1] (mkSl 1 0) ua1 [] N1) as Q. rewrite app_nil_r in Q. exact Q. }
  apply L_recycle in L2.
  (* the second one *)
  assert (exists h3 s3, mset_ua ua2 (mreset m2) (mkMem h3 s3 (mkSl 3 0)) /\ arr h3 3 = ua1 /\ 3 < length h3) as (h3 & s3 & St & A3 & Lh).
  { exists (set_arr [[]; []; ua1; ua1] 2 (write ua1 0 ua2)), (mkSl 2 (length ua2)). split; [|split; [reflexivity|cbn; lia]]. apply MS_set_ua. exact (GA_in_place [[]; []; ua1; ua1] (mkSl 2 0) ua2 Ln). }
  pose proof (L_user_agent _ _ _ _ ua2 _ L2 St) as L3.
  remember (set_user_agent ua2 (ctx_reset (from_cache r1 (set_user_agent ua1 new_ctx)))) as c3 eqn:E3.
  assert (F3 : check_bit (c_bits c3) flagDeviceDetect = false) by (subst c3; reflexivity). assert (S3 : c_src c3 = ua2) by (subst c3; reflexivity).
  destruct (hit_getter T c3 r2 F3 B2) as (k2 & x2 & G2 & K2). rewrite S3 in G2.
  assert (A4 : mcached ua2 (mkMem h3 s3 (mkSl 3 0)) (mkMem (set_arr h3 3 (write (arr h3 3) 0 ua2)) s3 (mkSl 3 (0 + length ua2)))).
  { apply MS_cached. apply (GA_in_place h3 (mkSl 3 0) ua2). cbn [sl_len sl_arr]. rewrite A3. exact Ln. }
  exists (from_cache r2 c3), (mkMem (set_arr h3 3 (write (arr h3 3) 0 ua2)) s3 (mkSl 3 (0 + length ua2))).
  split; [|split; [subst c3; reflexivity|]].
  - eapply L_hit; [exact L3|exact G2|exact R2|exact K2|reflexivity|]. rewrite D2. exact A4.
  - unfold model_in, cap_slice64. cbn [m_heap m_buf sl_arr]. rewrite arr_set_same by exact Lh. rewrite A3. change (c_model (from_cache r2 c3)) with (e_modelName r2).
    destruct (e_modelName r2 =? 0)%N; [discriminate Mo|]. change (write ua1 0 ua2) with (ua2 ++ skipn (length ua2) ua1).
    destruct (slice64 (ua2 ++ skipn (length ua2) ua1) (e_modelName r2)) as [raw|]; [|discriminate]. apply beqs_eq in H0. rewrite H0. reflexivity.
Qed.
Lemma leak_case T ua2 shown rest n : (if length shown =? n then leak_check T (ua2 ++ shown ++ rest) ua2 (ua2 ++ shown) else false) = true ->
  exists ua1 ua2 shown rest c m, life T [ua2; ua1] c m /\ c_src c = ua2 /\ ua1 = ua2 ++ shown ++ rest /\ length shown = n /\ model_in m c = Ok (ua2 ++ shown).
Proof.
  destruct (Nat.eqb_spec (length shown) n) as [E|]; [|discriminate]. intros H. destruct (leak T _ ua2 (ua2 ++ shown) H) as (c & m & L & S & M).
  exists (ua2 ++ shown ++ rest), ua2, shown, rest, c, m. auto.
Qed.

(** Which strings survive what. *)
From Verif Require Import Model_Base Model_CacheEntry Model_Version Model_Ctx Model_Parse Model_Memory Spec_Getters Spec_Select Spec_Again Spec_Memory
  Proof_Base Proof_Safe Proof_Select Proof_Getters Proof_Again.
From Coq Require Import Lia ZifyBool ZifyNat ZifyN.

(** ** Arrays *)
Lemma arr_set_same h a v : a < length h -> arr (set_arr h a v) a = v.
Proof.
  intros L. unfold arr, set_arr. rewrite app_nth2 by (rewrite firstn_length; lia). rewrite firstn_length.
  replace (a - Nat.min a (length h)) with 0 by lia. reflexivity.
Qed.
Lemma arr_set_other h a v b : a < length h -> a <> b -> arr (set_arr h a v) b = arr h b.
Proof.
  intros L N. unfold arr, set_arr. rewrite <- (firstn_skipn a h) at 3.
  assert (Lf : length (firstn a h) = a) by (rewrite firstn_length; lia).
  destruct (Nat.lt_ge_cases b a).
  - rewrite !app_nth1 by lia. reflexivity.
  - rewrite !app_nth2 by lia. rewrite Lf. replace (b - a) with (S (b - a - 1)) by lia. cbn [nth].
    replace (skipn (S a) h) with (skipn 1 (skipn a h)) by (rewrite skipn_skipn; f_equal; lia).
    destruct (skipn a h) as [|y t] eqn:E; [destruct (b - a - 1); reflexivity|]. reflexivity.
Qed.
Lemma set_arr_length h a v : a < length h -> length (set_arr h a v) = length h.
Proof. intros L. unfold set_arr. rewrite app_length, firstn_length. cbn [length]. rewrite skipn_length. lia. Qed.
Lemma arr_app_old h x b : b < length h -> arr (h ++ [x]) b = arr h b.
Proof. intros L. unfold arr. apply app_nth1. exact L. Qed.
Lemma arr_app_new h x : arr (h ++ [x]) (length h) = x.
Proof. unfold arr. rewrite app_nth2 by lia. rewrite Nat.sub_diag. reflexivity. Qed.
Lemma write_length a off x : off + length x <= length a -> length (write a off x) = length a.
Proof. intros L. unfold write. rewrite !app_length, firstn_length, skipn_length. lia. Qed.
Lemma write_prefix a off x : off + length x <= length a -> firstn (off + length x) (write a off x) = firstn off a ++ x.
Proof.
  intros L. unfold write. rewrite app_assoc. apply firstn_all2_app || idtac.
  rewrite firstn_app. rewrite !app_length, firstn_length. replace (off + length x - (Nat.min off (length a) + length x)) with 0 by lia.
  cbn [firstn]. rewrite app_nil_r. apply firstn_all2. rewrite app_length, firstn_length. lia.
Qed.
Lemma write_before a off x i n : off + length x <= length a -> i + n <= off -> firstn n (skipn i (write a off x)) = firstn n (skipn i a).
Proof.
  intros L H. unfold write. rewrite skipn_app, firstn_app, firstn_length, skipn_length, firstn_length.
  replace (i - Nat.min off (length a)) with 0 by lia. replace (n - (Nat.min off (length a) - i)) with 0 by lia. cbn [firstn]. rewrite app_nil_r.
  rewrite skipn_firstn_comm, firstn_firstn. f_equal. lia.
Qed.

(** What one append does. *)
Definition good (h : heap) (s : sl) : Prop := sl_arr s < length h /\ sl_len s <= length (arr h (sl_arr s)).
Lemma append_spec h s x h' s' : good h s -> go_append h s x h' s' ->
  contents h' s' = contents h s ++ x /\ good h' s' /\ length h <= length h' /\
  (sl_arr s' = sl_arr s \/ length h <= sl_arr s') /\
  (forall a, a < length h -> a <> sl_arr s -> arr h' a = arr h a) /\
  (forall off n, off + n <= sl_len s -> firstn n (skipn off (arr h' (sl_arr s))) = firstn n (skipn off (arr h (sl_arr s)))).
Proof.
  intros [G1 G2] A. destruct A as [L|pad L]; cbn [sl_arr sl_len].
  - split; [|split; [|split; [|split; [|split]]]].
    + unfold contents. cbn [sl_arr sl_len]. rewrite arr_set_same by exact G1. apply write_prefix. exact L.
    + split; cbn [sl_arr sl_len]; rewrite ?set_arr_length, ?arr_set_same, ?write_length by assumption; lia.
    + rewrite set_arr_length by exact G1. lia.
    + auto.
    + intros a La Na. apply arr_set_other; auto.
    + intros off n Hn. rewrite arr_set_same by exact G1. apply write_before; assumption.
  - assert (Lc : length (contents h s) = sl_len s) by (unfold contents; rewrite firstn_length; lia).
    split; [|split; [|split; [|split; [|split]]]].
    + unfold contents at 1. cbn [sl_arr sl_len]. rewrite arr_app_new, app_assoc, firstn_app.
      replace (sl_len s + length x - length (contents h s ++ x)) with 0 by (rewrite app_length; lia). cbn [firstn]. rewrite app_nil_r.
      apply firstn_all2. rewrite app_length. lia.
    + split; cbn [sl_arr sl_len]; [rewrite app_length; cbn [length]; lia|]. rewrite arr_app_new, !app_length. lia.
    + rewrite app_length. lia.
    + right. lia.
    + intros a La _. apply arr_app_old. exact La.
    + intros off n _. rewrite arr_app_old by exact G1. reflexivity.
Qed.

(** ** Appends keep every string in use *)
Definition sound (m : mem) : Prop := good (m_heap m) (m_src m) /\ good (m_heap m) (m_buf m) /\ sl_arr (m_src m) <> sl_arr (m_buf m).
Lemma represents_sound m c : represents m c -> sound m.
Proof. intros (_ & _ & A & B & D & E & F). repeat split; assumption. Qed.

Lemma mstep_keeps m m' : sound m -> mstep m m' -> sound m' /\ contents (m_heap m') (m_src m') = contents (m_heap m) (m_src m) /\
  forall x, live m x -> live m' x /\ sval (m_heap m') x = sval (m_heap m) x.
Proof.
  intros (Gs & Gb & Ne) St. destruct St as [h src buf x h' buf' A]. cbn [m_heap m_src m_buf] in *.
  destruct (append_spec _ _ _ _ _ Gb A) as (_ & Gb' & Lh & Ar & Oth & Own). destruct Gs as [Gs1 Gs2].
  assert (Es : arr h' (sl_arr src) = arr h (sl_arr src)) by (apply Oth; assumption).
  split; [|split].
  - split; [|split; [exact Gb'|]]; cbn [m_heap m_src m_buf].
    + split; [lia|]. rewrite Es. exact Gs2.
    + destruct Ar as [-> |Ar]; [exact Ne|]. lia.
  - cbn [m_heap m_src]. unfold contents. rewrite Es. reflexivity.
  - intros [s|a off n] L; [split; [exact I|reflexivity]|]. destruct L as [La Lb]. cbn [m_heap m_buf] in *. cbn [live sval m_heap m_buf].
    destruct (Nat.eq_dec a (sl_arr buf)) as [->|Na].
    + split; [|apply Own; auto]. split; [lia|]. intros E. specialize (Lb eq_refl). destruct A; cbn [sl_arr sl_len] in *; lia.
    + split; [|rewrite Oth by assumption; reflexivity]. split; [lia|]. intros E. exfalso. destruct Ar as [Ar|Ar]; [congruence|lia].
Qed.
Lemma grows_keeps m m' : sound m -> grows m m' -> sound m' /\ forall x, live m x -> live m' x /\ sval (m_heap m') x = sval (m_heap m) x.
Proof.
  intros S G. induction G as [m|m1 m2 m3 G IH St]; [auto|]. destruct (IH S) as [S2 K2]. destruct (mstep_keeps _ _ S2 St) as (S3 & _ & K3).
  split; [exact S3|]. intros x L. destruct (K2 x L) as [L2 E2]. destruct (K3 x L2) as [L3 E3]. split; [exact L3|congruence].
Qed.

(** ** Anything that happens to the buffer keeps the strings that are not in its array *)
Lemma cached_spec data m m' : sound m -> mcached data m m' -> sound m' /\ contents (m_heap m') (m_src m') = contents (m_heap m) (m_src m) /\
  contents (m_heap m') (m_buf m') = data /\
  forall x, apart m x -> apart m' x /\ sval (m_heap m') x = sval (m_heap m) x.
Proof.
  intros (Gs & Gb & Ne) St. destruct St as [h src buf h' buf' A]. cbn [m_heap m_src m_buf] in *.
  assert (G0 : good h (mkSl (sl_arr buf) 0)) by (destruct Gb; split; cbn; [assumption|lia]).
  destruct (append_spec _ _ _ _ _ G0 A) as (Ct & Gb' & Lh & Ar & Oth & Own). destruct Gs as [Gs1 Gs2]. cbn [sl_arr] in *.
  assert (Es : arr h' (sl_arr src) = arr h (sl_arr src)) by (apply Oth; assumption).
  split; [|split; [|split; [exact Ct|]]].
  - split; [|split; [exact Gb'|]]; cbn [m_heap m_src m_buf].
    + split; [lia|]. rewrite Es. exact Gs2.
    + destruct Ar as [-> |Ar]; [exact Ne|]. lia.
  - cbn [m_heap m_src]. unfold contents. rewrite Es. reflexivity.
  - intros [s|a off n] L; [split; [exact I|reflexivity]|]. destruct L as [La Na]. cbn [apart sval m_heap m_buf] in *.
    split; [|rewrite Oth by assumption; reflexivity]. split; [lia|]. destruct Ar as [-> |Ar]; [exact Na|lia].
Qed.
Lemma mstep_apart m m' : sound m -> mstep m m' -> forall x, apart m x -> apart m' x /\ sval (m_heap m') x = sval (m_heap m) x.
Proof.
  intros (Gs & Gb & Ne) St. destruct St as [h src buf y h' buf' A]. cbn [m_heap m_src m_buf] in *.
  destruct (append_spec _ _ _ _ _ Gb A) as (Ct & Gb' & Lh & Ar & Oth & Own).
  intros [s|a off n] L; [split; [exact I|reflexivity]|]. destruct L as [La Na]. cbn [apart sval m_heap m_buf] in *.
  split; [|rewrite Oth by assumption; reflexivity]. split; [lia|]. destruct Ar as [-> |Ar]; [exact Na|lia].
Qed.
Lemma moves_keeps m m' : sound m -> moves m m' -> sound m' /\ contents (m_heap m') (m_src m') = contents (m_heap m) (m_src m) /\
  forall x, apart m x -> apart m' x /\ sval (m_heap m') x = sval (m_heap m) x.
Proof.
  intros S G. induction G as [m|m1 m2 m3 G IH St|data m1 m2 m3 G IH St]; [auto| |]; destruct (IH S) as (S2 & C2 & K2).
  - destruct (mstep_keeps _ _ S2 St) as (S3 & C3 & _). split; [exact S3|]. split; [congruence|]. intros x L. destruct (K2 x L) as [L2 E2].
    destruct (mstep_apart _ _ S2 St x L2) as [L3 E3]. split; [exact L3|congruence].
  - destruct (cached_spec _ _ _ S2 St) as (S3 & C3 & _ & K3). split; [exact S3|]. split; [congruence|]. intros x L. destruct (K2 x L) as [L2 E2].
    destruct (K3 x L2) as [L3 E3]. split; [exact L3|congruence].
Qed.

(** ** Where the returned string is *)
Definition window (buf : bytes) (off : nat) (s : bytes) : Prop := exists a b, buf = a ++ s ++ b /\ length a = off.
Lemma window_slice buf e raw : slice64 buf e = Ok raw -> window buf (low e) raw.
Proof.
  unfold slice64, low. destruct (e_decode e) as [lo hi]. cbn [fst]. intros H. apply slice_Ok_inv in H as (_ & _ & a & b & -> & La & _).
  exists a, b. split; [reflexivity|]. lia.
Qed.
Lemma window_in buf off raw k s : window buf off raw -> window raw k s -> window buf (off + k) s.
Proof.
  intros (a & b & -> & <-) (a' & b' & -> & <-). exists (a ++ a'), (b' ++ b). rewrite <- !app_assoc, app_length. auto.
Qed.
Lemma window_right raw b : window raw 0 (trim_right raw b).
Proof. destruct (trim_right_spec raw b) as (n & E & _). exists [], (repeat b n). split; [exact E|reflexivity]. Qed.
Lemma window_left raw b : window raw (lead raw b) (trim_left raw b).
Proof.
  destruct (trim_left_spec raw b) as (n & E & _). exists (repeat b n), []. rewrite app_nil_r. split; [exact E|].
  unfold lead. rewrite E at 1. rewrite app_length. lia.
Qed.
Lemma window_trim raw b : window raw (lead raw b) (trim raw b).
Proof.
  unfold trim. pose proof (window_in raw (lead raw b) (trim_left raw b) 0 (trim_right (trim_left raw b) b) (window_left raw b) (window_right _ b)) as H.
  rewrite Nat.add_0_r in H. exact H.
Qed.
Lemma window_skip raw : window raw (match index_byte_at raw x2f 0 with Some p => p + 1 | None => 0 end)
  (match index_byte_at raw x2f 0 with Some p => skipn (p + 1) raw | None => raw end).
Proof.
  unfold index_byte_at. cbn [skipn]. destruct (index_byte raw x2f) as [p|] eqn:I; cbn [option_map].
  - apply index_byte_Some in I as (a & b & -> & <- & _). exists (a ++ [x2f]), []. rewrite app_nil_r, app_length. cbn [length Nat.add].
    split; [|lia]. replace (length a + 1) with (length (a ++ [x2f])) by (rewrite app_length; reflexivity).
    change (a ++ x2f :: b) with (a ++ [x2f] ++ b). rewrite (app_assoc a [x2f] b), skipn_app, skipn_all, Nat.sub_diag. reflexivity.
  - exists [], []. rewrite app_nil_r. auto.
Qed.
Lemma window_val h s off w : good h s -> window (contents h s) off w ->
  firstn (length w) (skipn off (arr h (sl_arr s))) = w /\ off + length w <= sl_len s.
Proof.
  intros [_ G] (a & b & E & <-).
  assert (L : length a + length w + length b = sl_len s).
  { pose proof (f_equal (@length byte) E) as X. unfold contents in X. rewrite firstn_length, !app_length in X. lia. }
  split; [|lia]. rewrite <- (firstn_skipn (sl_len s) (arr h (sl_arr s))). fold (contents h s). rewrite E.
  rewrite <- !app_assoc, skipn_app, skipn_all, Nat.sub_diag. cbn [skipn app]. rewrite firstn_app, Nat.sub_diag. cbn [firstn]. rewrite app_nil_r. apply firstn_all.
Qed.

Lemma read_leaf flag parse (m : M bytes) c c1 s : leaf (pmap VB (ensure flag parse ;; plift m)%p c) (c1, Ok (VB s)) -> exists c0, m c0 = (c1, Ok s).
Proof.
  unfold pmap. intros H. apply leaf_pbind in H as (c2 & a & L1 & L2). apply leaf_ret in L2. injection L2 as -> ->.
  apply leaf_pbind in L1 as (c3 & [] & _ & L4). apply leaf_plift in L4. exists c3. symmetry. exact L4.
Qed.
Lemma reader_self {A} (m : M A) c0 c1 v : reader m -> m c0 = (c1, Ok v) -> m c1 = (c1, Ok v) /\ c1 = c0.
Proof. intros R H. pose proof (R c0) as X. rewrite H in X. cbn in X. subst c0. auto. Qed.

Lemma placed T g c c1 s m : leaf (run_getter T g c) (c1, Ok (VB s)) -> represents m c1 ->
  sval (m_heap m) (to_str m (place_of T g c1 s)) = s /\ live m (to_str m (place_of T g c1 s)) /\
  (match place_of T g c1 s with PBuf _ _ => True | _ => apart m (to_str m (place_of T g c1 s)) end).
Proof.
  intros H R. destruct R as (Rs & Rb & As & Ab & Ne & Ls & Lb).
  assert (Gs : good (m_heap m) (m_src m)) by (split; assumption). assert (Gb : good (m_heap m) (m_buf m)) by (split; assumption).
  assert (Hconst : forall w, w = s -> sval (m_heap m) (to_str m (PConst w)) = s /\ live m (to_str m (PConst w)) /\ apart m (to_str m (PConst w))) by (intros w ->; cbn; auto).
  assert (Hsrc : forall off, window (c_src c1) off s -> sval (m_heap m) (to_str m (PSrc off (length s))) = s /\ live m (to_str m (PSrc off (length s))) /\ apart m (to_str m (PSrc off (length s)))).
  { intros off W. rewrite <- Rs in W. destruct (window_val _ _ _ _ Gs W) as [E L]. cbn. repeat split; auto. intros X. contradiction. }
  assert (Hbuf : forall off, window (c_buf c1) off s -> sval (m_heap m) (to_str m (PBuf off (length s))) = s /\ live m (to_str m (PBuf off (length s))) /\ True).
  { intros off W. rewrite <- Rb in W. destruct (window_val _ _ _ _ Gb W) as [E L]. cbn. repeat split; auto. }
  destruct g; cbn [run_getter place_of] in *; try (apply Hconst; reflexivity).
  - (* browser version *)
    apply read_leaf in H as [c0 H]. apply (reader_self _ _ _ _ (read_version_reader T)) in H as [H _].
    unfold read_browser_version, mbind, mget, mlift in H. destruct (0 <? c_clientVersion c1)%N; [|apply Hconst; reflexivity].
    destruct (check_bit (c_bits c1) flagVerConstSrc); [apply Hconst; reflexivity|].
    destruct (slice64 (c_src c1) (c_clientVersion c1)) as [raw|] eqn:Sl; [|discriminate H]. cbn in H. injection H as <-.
    apply Hsrc. apply window_slice in Sl. eapply window_in; [exact Sl|].
    pose proof (window_in _ _ _ _ _ (window_skip raw) (window_right _ x2e)) as W. rewrite Nat.add_0_r in W. exact W.
  - (* engine version *)
    apply read_leaf in H as [c0 H]. apply (reader_self _ _ _ _ read_ev_reader) in H as [H _].
    unfold read_engine_version, mbind, mget, mlift in H. destruct (0 <? c_engineVersion c1)%N; [|apply Hconst; reflexivity].
    destruct (slice64 (c_src c1) (c_engineVersion c1)) as [raw|] eqn:Sl; [|discriminate H]. injection H as <-. apply Hsrc. apply window_slice. exact Sl.
  - (* model *)
    apply read_leaf in H as [c0 H]. apply (reader_self _ _ _ _ read_model_reader) in H as [H _].
    unfold read_model, mbind, mget, mlift in H. destruct (negb (c_model c1 =? 0)%N); [|apply Hconst; reflexivity].
    destruct (slice64 (c_buf c1) (c_model c1)) as [raw|] eqn:Sl; [|discriminate H]. cbn in H. injection H as <-.
    apply Hbuf. apply window_slice in Sl. eapply window_in; [exact Sl|apply window_trim].
  - (* os *)
    apply read_leaf in H as [c0 H]. apply (reader_self _ _ _ _ (read_os_reader T)) in H as [H _].
    unfold read_os, mbind, mget, mlift in H. destruct (negb (c_osName c1 =? 0)%N); [|apply Hconst; reflexivity].
    destruct (check_bit (c_bits c1) flagOSBufSrc); [|apply Hconst; reflexivity]. cbn [andb].
    destruct (slice64 (c_src c1) (c_osName c1)) as [raw|] eqn:Sl; [|discriminate H]. cbn in H. injection H as <-.
    apply Hsrc. apply window_slice in Sl. eapply window_in; [exact Sl|apply window_trim].
  - (* os version *)
    apply read_leaf in H as [c0 H]. unfold read_os_version, mbind, mget, mlift in H.
    destruct (0 <? c_osVersion c0)%N eqn:E0.
    2: { injection H as <- <-. rewrite E0. apply Hconst; reflexivity. }
    destruct (slice64 (if check_bit (c_bits c0) flagOSVerBufSrc then or_buf T else c_src c0) (c_osVersion c0)) as [raw|] eqn:Sl; [|discriminate H].
    destruct (index_byte raw x5f) as [p|] eqn:Ib.
    + unfold append_buf, mmod, mret in H. injection H as Ec Es. subst c1 s. cbn [up_buf c_osVersion c_bits c_src c_buf].
      change (c_osVersion (up_buf (c_buf c0 ++ dots raw) c0)) with (c_osVersion c0). change (c_bits (up_buf (c_buf c0 ++ dots raw) c0)) with (c_bits c0).
      change (c_src (up_buf (c_buf c0 ++ dots raw) c0)) with (c_src c0). rewrite E0, Sl, Ib.
      apply Hbuf. exists (c_buf c0), []. rewrite app_nil_r. split; [reflexivity|].
      change (c_buf (up_buf (c_buf c0 ++ dots raw) c0)) with (c_buf c0 ++ dots raw). rewrite app_length. lia.
    + injection H as -> <-. rewrite E0, Sl, Ib. destruct (check_bit (c_bits c1) flagOSVerBufSrc); [apply Hconst; reflexivity|].
      apply Hsrc. apply window_slice. exact Sl.
  - (* user agent *)
    apply leaf_plift in H. unfold mbind, mget, mret in H. injection H as Hc Hs. subst c1 s.
    apply (Hsrc 0). exists [], []. rewrite app_nil_r. split; reflexivity.
Qed.

(** ** A getter that is not served from the cache only appends to the buffer *)
Definition ext {A} (m : M A) : Prop := forall c, exists x, c_buf (fst (m c)) = c_buf c ++ x /\ c_src (fst (m c)) = c_src c.
Definition extP {A} (p : P A) : Prop := forall c, exists x, c_buf (fst (run_cold (p c))) = c_buf c ++ x /\ c_src (fst (run_cold (p c))) = c_src c.

Lemma ext_bind {A B} (m : M A) (f : A -> M B) : ext m -> (forall a, ext (f a)) -> ext (mbind m f).
Proof.
  intros Hm Hf c. unfold mbind. destruct (Hm c) as (x & E & F). destruct (m c) as [c1 [a|]]; cbn [fst] in *; [|exists x; auto].
  destruct (Hf a c1) as (y & E' & F'). exists (x ++ y). rewrite E', E, app_assoc, F'. auto.
Qed.
Lemma ext_same {A} (m : M A) : (forall c, fst (m c) = c) -> ext m.
Proof. intros H c. exists []. rewrite H, app_nil_r. auto. Qed.
Lemma ext_mod f : (forall c, c_buf (f c) = c_buf c /\ c_src (f c) = c_src c) -> ext (mmod f).
Proof. intros H c. exists []. unfold mmod. cbn [fst]. rewrite app_nil_r. apply H. Qed.
Lemma ext_append b : ext (append_buf b).
Proof. intros c. exists b. split; reflexivity. Qed.

Ltac ext_step :=
  match goal with
  | |- ext (append_buf _) => apply ext_append
  | |- ext buf_len => apply ext_same; reflexivity
  | |- ext (mbind _ _) => apply ext_bind; [|intros]
  | |- ext (mret _) => apply ext_same; reflexivity
  | |- ext (mlift _) => apply ext_same; reflexivity
  | |- ext (mget _) => apply ext_same; reflexivity
  | |- ext (mmod _) => apply ext_mod; intros; split; reflexivity
  | |- ext (if ?b then _ else _) => destruct b
  | |- ext (match ?o with _ => _ end) => destruct o
  | |- ext (let _ := _ in _) => cbv zeta
  end.
Ltac exts := repeat ext_step.

Section Ext.
Variable T : tables.
Lemma ext_engine y : ext (eval_engine T y). Proof. unfold eval_engine. exts. Qed.
Lemma ext_client_version y r : ext (client_version y r). Proof. unfold client_version. exts. Qed.
Lemma ext_client_loop l : ext (client_loop T l).
Proof. induction l; cbn [client_loop]; repeat (first [exact IHl | apply ext_client_version | ext_step]). Qed.
Lemma ext_eval_client idx : ext (eval_client T idx).
Proof. unfold eval_client. repeat (first [apply ext_client_loop | apply ext_engine | ext_step]). Qed.
Lemma ext_client_try l : ext (client_try T l).
Proof. induction l as [|[t idx] l IH]; cbn [client_try]; repeat (first [exact IH | apply ext_eval_client | ext_step]). Qed.
Lemma ext_os_ver_loop l : ext (os_ver_loop T l).
Proof. induction l; cbn [os_ver_loop]; repeat (first [exact IHl | ext_step]). Qed.
Lemma ext_os_hit y r : ext (os_hit T y r).
Proof. unfold os_hit, os_eval_ver. repeat (first [apply ext_os_ver_loop | ext_step]). Qed.
Lemma ext_os_loop a b l : ext (os_loop T a b l).
Proof. induction l; cbn [os_loop]; repeat (first [exact IHl | apply ext_os_hit | ext_step]). Qed.
Lemma ext_eval_os : ext (eval_os T).
Proof. unfold eval_os. repeat (first [apply ext_os_loop | ext_step]). Qed.
Lemma ext_mne e : ext (device_buf_mne T e).
Proof. unfold device_buf_mne. exts. Qed.
Lemma ext_mne1_loop raw src m : forall fuel p, ext (mne1_loop fuel raw src m p).
Proof. induction fuel; intros p; cbn [mne1_loop]; repeat (first [apply IHfuel | ext_step]). Qed.
Lemma ext_mne1 e r : ext (device_buf_mne1 T e r).
Proof. unfold device_buf_mne1. repeat (first [apply ext_mne1_loop | ext_step]). Qed.
Lemma ext_model_loop y def l : ext (model_loop T y def l).
Proof. induction l; cbn [model_loop]; repeat (first [exact IHl | apply ext_mne | apply ext_mne1 | ext_step]). Qed.
Lemma ext_device_hit y def : ext (device_hit T y def).
Proof. unfold device_hit. repeat (first [apply ext_model_loop | apply ext_mne | apply ext_mne1 | ext_step]). Qed.
Lemma ext_device_body idx def : ext (eval_device_body T idx def).
Proof. unfold eval_device_body. repeat (first [apply ext_device_hit | ext_step]). Qed.
Lemma ext_vendor_inner b l : ext (vendor_inner T b l).
Proof. induction l; cbn [vendor_inner]; repeat (first [exact IHl | ext_step]). Qed.
Lemma ext_vendor_loop l : ext (vendor_loop T l).
Proof. induction l; cbn [vendor_loop]; repeat (first [exact IHl | apply ext_vendor_inner | ext_step]). Qed.
Lemma ext_fallback : ext (device_fallback T).
Proof. unfold device_fallback, eval_vendor. repeat (first [apply ext_vendor_loop | ext_step]). Qed.

Lemma extP_bind {A B} (p : P A) (f : A -> P B) : extP p -> (forall a, extP (f a)) -> extP (pbind p f).
Proof.
  intros Hp Hf c. unfold pbind. rewrite run_cold_bind. destruct (Hp c) as (x & E & F). destruct (run_cold (p c)) as [c1 [a|]]; cbn [fst] in *.
  - destruct (Hf a c1) as (y & E' & F'). exists (x ++ y). rewrite E', E, app_assoc, F'. auto.
  - exists x. auto.
Qed.
Lemma extP_cget {B} k (f : option entry -> P B) : extP (f None) -> extP (pbind (pcget k) f).
Proof. intros Hf c. exact (Hf c). Qed.
Lemma extP_lift {A} (m : M A) : ext m -> extP (plift m).
Proof. intros H c. exact (H c). Qed.
Lemma extP_ret {A} (a : A) : extP (pret a).
Proof. intros c. exists []. rewrite app_nil_r. auto. Qed.
Lemma extP_cset k e : extP (pcset k e).
Proof. intros c. exists []. rewrite app_nil_r. auto. Qed.
Lemma extP_defer {A} (p : P A) d : extP p -> (forall r, extP (d r)) -> extP (pdefer p d).
Proof.
  intros Hp Hd c. unfold pdefer. rewrite run_cold_bind. destruct (Hp c) as (x & E & F). destruct (run_cold (p c)) as [c1 r]. cbn [fst] in *.
  rewrite run_cold_bind. destruct (Hd r c1) as (y & E' & F'). destruct (run_cold (d r c1)) as [c2 r2]. cbn [fst run_cold] in *.
  exists (x ++ y). rewrite E', E, app_assoc, F'. auto.
Qed.
Lemma extP_finish f : extP (finish f).
Proof. unfold finish. apply extP_bind; [apply extP_lift; exts|]. intros. apply extP_cset. Qed.
Lemma extP_ensure f p : extP p -> extP (ensure f p).
Proof.
  intros H c. unfold ensure. destruct (check_bit (c_bits c) f); [exists []; rewrite app_nil_r; auto|].
  exact (extP_bind p (fun _ => pret tt) H (fun _ => extP_ret tt) c).
Qed.
Ltac extP_step :=
  match goal with
  | |- extP (pbind (pcget _) _) => apply extP_cget
  | |- extP (pbind _ _) => apply extP_bind; [|intros]
  | |- extP (pret _) => apply extP_ret
  | |- extP (pcset _ _) => apply extP_cset
  | |- extP (pdefer _ _) => apply extP_defer; [|intros]
  | |- extP (finish _) => apply extP_finish
  | |- extP (ensure _ _) => apply extP_ensure
  | |- extP (plift _) => apply extP_lift
  | |- extP (if ?b then _ else _) => destruct b
  | |- extP (match ?o with _ => _ end) => destruct o
  end.
Lemma extP_parse_client : extP (parse_client T).
Proof. unfold parse_client. repeat (first [apply ext_client_try | extP_step | ext_step]). Qed.
Lemma extP_parse_os : extP (parse_os T).
Proof. unfold parse_os. repeat (first [apply ext_eval_os | extP_step | ext_step]). Qed.
Lemma extP_get_os : extP (get_os T).
Proof. unfold get_os, read_os. repeat (first [apply extP_parse_os | extP_step | ext_step]). Qed.
Lemma extP_eval_device idx def : extP (eval_device T idx def).
Proof.
  unfold eval_device. apply extP_defer; [apply extP_lift, ext_device_body|]. intros r. unfold force_desktop.
  destruct r as [[?|]|]; repeat (first [apply extP_get_os | extP_step | ext_step]).
Qed.
Lemma extP_device_try l : extP (device_try T l).
Proof. induction l as [|[[b idx] def] l IH]; cbn [device_try]; repeat (first [exact IH | apply extP_eval_device | extP_step | ext_step]). Qed.
Lemma extP_device_body : extP (device_body T).
Proof.
  unfold device_body. apply extP_bind; [apply extP_device_try|]. intros []; repeat (first [apply ext_fallback | extP_step | ext_step]).
Qed.
Lemma extP_parse_device : extP (parse_device T).
Proof. unfold parse_device. repeat (first [apply extP_device_body | extP_step | ext_step]). Qed.
Lemma extP_version (proj : ctx -> version) (gs : P bytes) (up : version -> ctx -> ctx) :
  extP gs -> (forall c v, c_buf (up v c) = c_buf c /\ c_src (up v c) = c_src c) ->
  extP (fun c => if v_p (proj c) then Ret (c, Ok (proj c))
           else (raw <- gs ;; plift (mmod (fun c => up (fst (parse (proj c) raw)) c)) ;; plift (mget proj))%p c).
Proof.
  intros Hg Hu c. destruct (v_p (proj c)); [exists []; rewrite app_nil_r; auto|]. revert c.
  change (extP (raw <- gs ;; plift (mmod (fun c => up (fst (parse (proj c) raw)) c)) ;; plift (mget proj))%p).
  apply extP_bind; [exact Hg|]. intros raw. apply extP_bind.
  - apply extP_lift, ext_mod. intros c. apply Hu.
  - intros _. apply extP_lift. exts.
Qed.
Lemma extP_getter g : extP (run_getter T g).
Proof.
  assert (Hc : extP (get_browser_version_string T)) by (unfold get_browser_version_string, read_browser_version; repeat (first [apply extP_parse_client | extP_step | ext_step])).
  assert (He : extP (get_engine_version_string T)) by (unfold get_engine_version_string, read_engine_version; repeat (first [apply extP_parse_client | extP_step | ext_step])).
  assert (Ho : extP (get_os_version_string T)) by (unfold get_os_version_string, read_os_version; repeat (first [apply extP_parse_os | extP_step | ext_step])).
  destruct g; cbn [run_getter]; try (apply extP_bind; [|intros; apply extP_ret]);
    first [exact Hc | exact He | exact Ho | apply extP_get_os
          | apply (extP_version c_cver _ up_cver Hc); intros; split; reflexivity
          | apply (extP_version c_ever _ up_ever He); intros; split; reflexivity
          | apply (extP_version c_over _ up_over Ho); intros; split; reflexivity
          | unfold get_client_type, get_browser, read_browser, get_engine, read_engine, get_device_type, read_device_type, get_brand, read_brand, get_model, read_model;
            repeat (first [apply extP_parse_client | apply extP_parse_device | extP_step | ext_step])].
Qed.
End Ext.

(** ** Putting it together *)
Lemma append_exists h s x : exists h' s', go_append h s x h' s'.
Proof.
  destruct (Nat.le_gt_cases (sl_len s + length x) (length (arr h (sl_arr s)))).
  - do 2 eexists. apply GA_in_place. assumption.
  - do 2 eexists. apply (GA_new _ _ _ []). assumption.
Qed.
Lemma grows_append m c x m' : represents m c -> mstep m m' -> contents (m_heap m') (m_buf m') = c_buf c ++ x ->
  contents (m_heap m') (m_src m') = c_src c.
Proof. intros R St _. destruct (mstep_keeps _ _ (represents_sound _ _ R) St) as (_ & E & _). rewrite E. apply R. Qed.

Lemma getter_keeps T g c m : represents m c ->
  (exists m', grows m m' /\ represents m' (fst (run_cold (run_getter T g c)))) /\
  (forall m', grows m m' -> forall x, live m x -> sval (m_heap m') x = sval (m_heap m) x).
Proof.
  intros R. split.
  - destruct (extP_getter T g c) as (x & E & F). destruct (append_exists (m_heap m) (m_buf m) x) as (h' & b' & A).
    assert (St : mstep m (mkMem h' (m_src m) b')) by (destruct m; exact (MS_grow _ _ _ x _ _ A)).
    exists (mkMem h' (m_src m) b'). split; [exact (GR_step _ _ _ (GR_refl m) St)|].
    pose proof (represents_sound _ _ R) as S. destruct (mstep_keeps _ _ S St) as ((G1 & G2 & Ne) & Es & _).
    destruct S as (_ & Gb & _). destruct (append_spec _ _ _ _ _ Gb A) as (Eb & _). cbn [m_heap m_src m_buf] in *.
    destruct R as (Rs & Rb & _). unfold represents. cbn [m_heap m_src m_buf]. rewrite Es, Eb, E, F, Rs, Rb.
    destruct G1, G2. repeat split; auto.
  - intros m' G x L. apply (grows_keeps _ _ (represents_sound _ _ R) G). exact L.
Qed.

(** Strings of the user agent survive whatever the getters do. *)
Lemma source_keeps c m m' : represents m c -> moves m m' -> forall x, apart m x -> sval (m_heap m') x = sval (m_heap m) x.
Proof. intros R G x L. apply (moves_keeps _ _ (represents_sound _ _ R) G). exact L. Qed.


Lemma keyed_leaf {A} k (p : prog (ctx * res A)) c1 r : keyed k p -> leaf p (c1, r) -> env c1 = k.
Proof.
  intros K L. remember (c1, r) as x eqn:E. induction L as [a|key f o a L IH|key e p a L IH]; cbn in K.
  - subst a. exact K.
  - apply IH; [apply K|exact E].
  - apply IH; [apply K|exact E].
Qed.
Lemma leaf_moves T g c c1 r m : represents m c -> leaf (run_getter T g c) (c1, r) -> exists m', moves m m' /\ represents m' c1.
Proof.
  intros R L. pose proof (keyed_leaf _ _ _ _ (keyed_getter T g c) L) as E. unfold env in E.
  assert (Es : c_src c1 = c_src c) by congruence.
  destruct (append_exists (m_heap m) (mkSl (sl_arr (m_buf m)) 0) (c_buf c1)) as (h' & b' & A).
  assert (St : mcached (c_buf c1) m (mkMem h' (m_src m) b')) by (destruct m; constructor; exact A).
  exists (mkMem h' (m_src m) b'). split; [exact (MV_cached _ _ _ _ (MV_refl m) St)|].
  destruct (cached_spec _ _ _ (represents_sound _ _ R) St) as (((G1 & G2) & (G3 & G4) & Ne) & Cs & Cb & _).
  unfold represents. rewrite Cs, Cb, Es. destruct R as (Rs & _). rewrite Rs. repeat split; auto.
Qed.

(** ** Counter-examples *)
Lemma reuse_case T : exists c s m ua m', leaf (run_getter T GUserAgent c) (c, Ok (VB s)) /\ represents m c /\
  mset_ua ua m m' /\ represents m' (set_user_agent ua c) /\
  sval (m_heap m) (to_str m (place_of T GUserAgent c s)) = s /\ sval (m_heap m') (to_str m (place_of T GUserAgent c s)) <> s.
Proof.
  exists (set_user_agent (bs "ab") new_ctx), (bs "ab"), (mkMem [bs "ab"; []] (mkSl 0 2) (mkSl 1 0)), (bs "cd"), (mkMem [bs "cd"; []] (mkSl 0 2) (mkSl 1 0)).
  split; [apply Leaf_ret|]. split; [repeat split; auto with arith; discriminate|].
  split.
  { apply (MS_set_ua (bs "cd") [bs "ab"; []] (mkSl 0 2) (mkSl 1 0) [bs "cd"; []] (mkSl 0 2)).
    apply (GA_in_place [bs "ab"; []] (mkSl 0 0) (bs "cd")). auto with arith. }
  split; [repeat split; auto with arith; discriminate|]. split; [reflexivity|]. discriminate.
Qed.

Definition cached_check (T : tables) (ua s : bytes) : bool :=
  let c0 := fresh_ctx ClientTypeAll DeviceTypeAll 0 ua in
  let '(rs1, b1, o1, _) := run_getters T [GOSVersionString] c0 None [] in
  let '(rs2, _, o2, _) := run_getters T [GClientType] c0 o1 [] in
  let '(rs3, b2, _, _) := run_getters T [GClientType] b1 o2 [] in
  match rs1, rs2, rs3, place_of T GOSVersionString b1 s with
  | [Ok (VB s')], [Ok _], [Ok _], PBuf off n =>
      beqs s s' && beqs (c_src b1) ua && beqs (c_src b2) ua && beqs (c_buf b1) s && beqs (c_buf b2) ua &&
      (length s <=? length ua) && negb (beqs (firstn n (skipn off ua)) s) && (off =? 0) && (n =? length s)
  | _, _, _, _ => false
  end.
Lemma cached_case T ua s : cached_check T ua s = true ->
  exists ua b0 s b1 a0 r b2 o1 o2 o3 ev1 ev2 ev3 a1 v m m',
    b0 = fresh_ctx ClientTypeAll DeviceTypeAll 0 ua /\ a0 = b0 /\
    run_priv (run_getter T GOSVersionString b0) None [] = ((b1, Ok (VB s)), o1, ev1) /\
    run_priv (run_getter T GClientType a0) o1 [] = ((a1, r), o2, ev2) /\
    run_priv (run_getter T GClientType b1) o2 [] = ((b2, Ok v), o3, ev3) /\
    represents m b1 /\ mcached (c_buf b2) m m' /\ represents m' b2 /\
    sval (m_heap m) (to_str m (place_of T GOSVersionString b1 s)) = s /\
    sval (m_heap m') (to_str m (place_of T GOSVersionString b1 s)) <> s.
Proof.
  unfold cached_check. cbn [run_getters].
  remember (fresh_ctx ClientTypeAll DeviceTypeAll 0 ua) as c0 eqn:E0.
  destruct (run_priv (run_getter T GOSVersionString c0) None []) as [[[b1 r1] o1] ev1] eqn:E1.
  destruct (run_priv (run_getter T GClientType c0) o1 []) as [[[a1 r2] o2] ev2] eqn:E2.
  destruct (run_priv (run_getter T GClientType b1) o2 []) as [[[b2 r3] o3] ev3] eqn:E3.
  destruct r1 as [[?|s'|?]|]; try discriminate. destruct r2 as [v2|]; [|discriminate]. destruct r3 as [v|]; [|discriminate].
  destruct (place_of T GOSVersionString b1 s) as [?|? ?|off n] eqn:P; try discriminate. intros H.
  repeat (apply andb_prop in H as [H ?H]). apply beqs_eq in H. subst s'.
  repeat match goal with X : beqs _ _ = true |- _ => apply beqs_eq in X end.
  match goal with X : (_ <=? _) = true |- _ => apply Nat.leb_le in X; rename X into L end.
  match goal with X : negb _ = true |- _ => rename X into N end.
  exists ua, c0, s, b1, c0, (Ok v2), b2, o1, o2, o3, ev1, ev2, ev3, a1, v,
    (mkMem [ua; s ++ skipn (length s) ua] (mkSl 0 (length ua)) (mkSl 1 (length s))),
    (mkMem [ua; ua] (mkSl 0 (length ua)) (mkSl 1 (length ua))).
  assert (Lp : length (s ++ skipn (length s) ua) = length ua) by (rewrite app_length, skipn_length; lia).
  split; [exact E0|]. split; [reflexivity|]. do 3 (split; [first [exact E1|exact E2|exact E3]|]).
  split; [|split; [|split; [|split]]].
  - unfold represents, contents, arr. cbn [m_heap m_src m_buf sl_arr sl_len nth length]. rewrite firstn_all.
    repeat split; auto; try lia.
    rewrite firstn_app, Nat.sub_diag, firstn_all. cbn [firstn]. rewrite app_nil_r. congruence.
  - replace (c_buf b2) with ua by congruence.
    apply (MS_cached ua [ua; s ++ skipn (length s) ua] (mkSl 0 (length ua)) (mkSl 1 (length s)) [ua; ua] (mkSl 1 (length ua))).
    assert (X : [ua; ua] = set_arr [ua; s ++ skipn (length s) ua] 1 (write (s ++ skipn (length s) ua) 0 ua)).
    { unfold set_arr, write. cbn [firstn skipn app Nat.add]. rewrite skipn_all2 by lia. rewrite app_nil_r. reflexivity. }
    rewrite X. apply (GA_in_place [ua; s ++ skipn (length s) ua] (mkSl 1 0) ua). unfold arr. cbn [sl_arr sl_len nth]. lia.
  - unfold represents, contents, arr. cbn [m_heap m_src m_buf sl_arr sl_len nth length]. rewrite firstn_all. repeat split; auto; lia.
  - rewrite P. cbn [to_str m_buf sl_arr sval m_heap arr nth]. unfold arr. cbn [nth].
    repeat match goal with X : (_ =? _) = true |- _ => apply Nat.eqb_eq in X; subst end. cbn [skipn].
    rewrite firstn_app, Nat.sub_diag, firstn_all. cbn [firstn]. apply app_nil_r.
  - rewrite P. cbn [to_str m_buf sl_arr sval m_heap arr nth]. unfold arr. cbn [nth]. intros X. rewrite X in N. rewrite (proj2 (beqs_eq _ _) eq_refl) in N. discriminate.
Qed.

Lemma place_spec T g c c1 s m : leaf (run_getter T g c) (c1, Ok (VB s)) -> represents m c1 ->
  sval (m_heap m) (to_str m (place_of T g c1 s)) = s /\ live m (to_str m (place_of T g c1 s)) /\
  (g <> GModel -> g <> GOSVersionString -> apart m (to_str m (place_of T g c1 s))).
Proof.
  intros L R. destruct (placed T g c c1 s m L R) as (A & B & D). split; [exact A|]. split; [exact B|]. intros N1 N2.
  destruct (place_of T g c1 s) eqn:P; [exact D|exact D|]. exfalso.
  destruct g; try contradiction; cbn [place_of] in P; repeat match type of P with
    | (if ?b then _ else _) = _ => destruct b
    | match ?b with _ => _ end = _ => destruct b end; discriminate P.
Qed.
Lemma source_spec T g c c1 r m : represents m c -> leaf (run_getter T g c) (c1, r) ->
  (exists m', moves m m' /\ represents m' c1) /\
  (forall m', moves m m' -> forall x, apart m x -> sval (m_heap m') x = sval (m_heap m) x).
Proof. intros R L. split; [eapply leaf_moves; eassumption|]. intros. eapply source_keeps; eassumption. Qed.

(** Damaged records. *)
From Coq Require Import Lia ZifyBool ZifyNat ZifyN.
From Verif Require Import Model_Base Model_CacheEntry Model_Version Model_Ctx Model_Parse Model_Cache
  Spec_CacheEntry Spec_Getters Spec_Honest Spec_Upgrade Spec_Damage Proof_Base Proof_Getters Proof_Honest Proof_Upgrade Proof_UpgradeCase.

Lemma slice64_panic buf e : slice64 buf e = Panic <-> ~ inside buf e.
Proof.
  unfold slice64, slice, inside, e_decode. cbn [fst snd]. change (2 ^ 32)%N with two32.
  destruct (N.leb_spec (e / two32) (e mod two32)), (N.leb_spec (e mod two32) (N.of_nat (length buf))); cbn [andb]; split; try discriminate; try reflexivity; intros; try tauto; lia.
Qed.
Lemma slice64_part buf e s : slice64 buf e = Ok s -> part s buf.
Proof. unfold slice64. intros H. apply slice_Ok_inv in H as (_ & _ & a & b & E & _). exists a, b. exact E. Qed.
Lemma part_trans a b c : part a b -> part b c -> part a c.
Proof. intros (x & y & ->) (u & v & ->). exists (u ++ x), (y ++ v). rewrite <- !app_assoc. reflexivity. Qed.
Lemma part_trim s c : part (trim s c) s.
Proof.
  unfold trim. destruct (trim_left_spec s c) as (n & E & _). destruct (trim_right_spec (trim_left s c) c) as (m & E' & _).
  exists (repeat c n), (repeat c m). rewrite <- E'. exact E.
Qed.
Lemma part_trim_right s c : part (trim_right s c) s.
Proof. destruct (trim_right_spec s c) as (m & E & _). exists [], (repeat c m). exact E. Qed.
Lemma part_skipn n (s : bytes) : part (skipn n s) s.
Proof. exists (firstn n s), []. rewrite app_nil_r. symmetry. apply firstn_skipn. Qed.

(** Reading one text at a position: nothing at 0. *)
Lemma rmap_panic {A B} (f : A -> B) r : rmap f r = Panic <-> r = Panic.
Proof. destruct r; cbn; split; congruence. Qed.
Lemma at_zero {A} (f : A -> value) (read : res A) (buf : bytes) e (x : A) (g : bytes -> A) :
  read = (if (e =? 0)%N then Ok x else match slice64 buf e with Ok raw => Ok (g raw) | Panic => Panic end) ->
  (rmap f read = Panic <-> e <> 0%N /\ ~ inside buf e).
Proof.
  intros ->. rewrite rmap_panic. destruct (N.eqb_spec e 0) as [E|E]; [split; [discriminate|tauto]|].
  destruct (slice64 buf e) as [raw|] eqn:S.
  - split; [discriminate|]. intros [_ H]. apply slice64_panic in H. congruence.
  - split; [|reflexivity]. intros _. split; [exact E|]. apply slice64_panic. exact S.
Qed.
Lemma pos_zero (e : N) : (0 <? e)%N = negb (e =? 0)%N.
Proof. destruct (N.ltb_spec 0 e), (N.eqb_spec e 0); cbn; lia. Qed.
Definition slashed (raw : bytes) : bytes := trim_right (match index_byte_at raw x2f 0 with Some p => skipn (p + 1) raw | None => raw end) x2e.
Definition under (raw : bytes) : bytes := match index_byte raw x5f with Some _ => dots raw | None => raw end.
Definition from_place (buf s : bytes) : Prop := s = [] \/ s = bs "UNK" \/ part s buf \/ exists t, part t buf /\ s = dotted t.
Lemma at_place (read : res bytes) (buf : bytes) e (x : bytes) (g : bytes -> bytes) s :
  read = (if (e =? 0)%N then Ok x else match slice64 buf e with Ok raw => Ok (g raw) | Panic => Panic end) ->
  x = [] \/ x = bs "UNK" -> (forall raw, from_place raw (g raw)) -> rmap VB read = Ok (VB s) -> from_place buf s.
Proof.
  intros -> X Gg. destruct (e =? 0)%N.
  - cbn. intros H. injection H as <-. unfold from_place. tauto.
  - destruct (slice64 buf e) as [raw|] eqn:S; [|discriminate]. cbn. intros H. injection H as <-. apply slice64_part in S.
    destruct (Gg raw) as [H|[H|[H|(t & H & E)]]]; unfold from_place; [tauto|tauto| |].
    + right. right. left. exact (part_trans _ _ _ H S).
    + right. right. right. exists t. split; [exact (part_trans _ _ _ H S)|exact E].
Qed.
Lemma fp_id raw : from_place raw raw.
Proof. right. right. left. exists [], []. rewrite app_nil_r. reflexivity. Qed.
Lemma fp_trim raw : from_place raw (trim raw x20).
Proof. right. right. left. apply part_trim. Qed.
Lemma fp_slashed raw : from_place raw (slashed raw).
Proof. right. right. left. unfold slashed. eapply part_trans; [apply part_trim_right|]. destruct (index_byte_at raw x2f 0); [apply part_skipn|]. exists [], []. rewrite app_nil_r. reflexivity. Qed.
Lemma fp_under raw : from_place raw (under raw).
Proof. unfold under. destruct (index_byte raw x5f); [|apply fp_id]. right. right. right. exists raw. split; [exists [], []; rewrite app_nil_r; reflexivity|reflexivity]. Qed.
Section Reads.
Variables (T : tables) (row : entry) (ua : bytes) (c : ctx).
Hypotheses (Hs : c_src c = ua) (Hb : c_bits c = e_bits row) (Hh : c_hint c = 0%N).
Hypotheses (H1 : c_clientName c = e_clientName row) (H2 : c_clientVersion c = e_clientVersion row) (H3 : c_engineName c = e_engineName row)
  (H4 : c_engineVersion c = e_engineVersion row) (H5 : c_brand c = e_brandName row) (H6 : c_osName c = e_osName row) (H7 : c_osVersion c = e_osVersion row).
Lemma r_browser : snd (read_browser T c) = (if (e_clientName row =? 0)%N then Ok Unknown else match slice64 (cr_buf T) (e_clientName row) with Ok raw => Ok raw | Panic => Panic end).
Proof.
  unfold read_browser, mbind, mget, mlift, mret. rewrite Hh. rewrite ?H1. cbn [N.eqb negb]. rewrite !pos_zero.
  destruct (e_clientName row =? 0)%N eqn:E; cbn [negb]; [reflexivity|]. rewrite pos_zero, E. cbn [negb snd]. destruct (slice64 _ _); reflexivity.
Qed.
Lemma r_bvs : snd (read_browser_version T c) = (if (e_clientVersion row =? 0)%N then Ok [] else
  match slice64 (if N.testbit (e_bits row) 6 then cr_buf T else ua) (e_clientVersion row) with Ok raw => Ok (slashed raw) | Panic => Panic end).
Proof.
  unfold read_browser_version, mbind, mget, mlift, mret. rewrite ?H2. rewrite pos_zero.
  destruct (e_clientVersion row =? 0)%N; cbn [negb]; [reflexivity|]. unfold check_bit, flagVerConstSrc. rewrite ?Hb. rewrite ?Hs.
  destruct (slice64 _ _); reflexivity.
Qed.
Lemma r_engine : N.testbit (e_bits row) 8 = false -> snd (read_engine T c) = (if (e_engineName row =? 0)%N then Ok [] else match slice64 (cr_buf T) (e_engineName row) with Ok raw => Ok raw | Panic => Panic end).
Proof.
  intros F. unfold read_engine, mbind, mget, mlift, mret. unfold check_bit, flagEngineForceBlink. rewrite ?Hb. rewrite F.
  rewrite ?H3. rewrite pos_zero. destruct (e_engineName row =? 0)%N; cbn [negb]; [reflexivity|]. cbn [snd]. destruct (slice64 _ _); reflexivity.
Qed.
Lemma r_evs : snd (read_engine_version c) = (if (e_engineVersion row =? 0)%N then Ok [] else match slice64 ua (e_engineVersion row) with Ok raw => Ok raw | Panic => Panic end).
Proof.
  unfold read_engine_version, mbind, mget, mlift, mret. rewrite ?H4. rewrite pos_zero.
  destruct (e_engineVersion row =? 0)%N; cbn [negb]; [reflexivity|]. rewrite ?Hs. cbn [snd]. destruct (slice64 _ _); reflexivity.
Qed.
Lemma r_brand : snd (read_brand T c) = (if (e_brandName row =? 0)%N then Ok Unknown else
  match slice64 (if N.testbit (e_bits row) 9 then vr_buf T else dr_buf T) (e_brandName row) with Ok raw => Ok (trim raw x20) | Panic => Panic end).
Proof.
  unfold read_brand, mbind, mget, mlift, mret. rewrite ?H5. destruct (e_brandName row =? 0)%N; cbn [negb]; [reflexivity|].
  unfold check_bit, flagVendorFragment. rewrite ?Hb. destruct (slice64 _ _); reflexivity.
Qed.
Lemma r_os : snd (read_os T c) = (if (e_osName row =? 0)%N then Ok Unknown else
  match slice64 (if N.testbit (e_bits row) 4 then ua else or_buf T) (e_osName row) with Ok raw => Ok (trim raw x20) | Panic => Panic end).
Proof.
  unfold read_os, mbind, mget, mlift, mret. rewrite ?H6. destruct (e_osName row =? 0)%N; cbn [negb]; [reflexivity|].
  unfold check_bit, flagOSBufSrc. rewrite ?Hb. rewrite ?Hs. destruct (slice64 _ _); reflexivity.
Qed.
Lemma r_ovs : snd (read_os_version T c) = (if (e_osVersion row =? 0)%N then Ok [] else
  match slice64 (if N.testbit (e_bits row) 5 then or_buf T else ua) (e_osVersion row) with Ok raw => Ok (under raw) | Panic => Panic end).
Proof.
  unfold read_os_version, mbind, mget, mlift, mret, append_buf, mmod. rewrite ?H7. rewrite pos_zero. destruct (e_osVersion row =? 0)%N; cbn [negb]; [reflexivity|].
  unfold check_bit, flagOSVerBufSrc. rewrite ?Hb. rewrite ?Hs. destruct (slice64 _ _) as [raw|]; [|reflexivity]. unfold under. destruct (index_byte raw x5f); reflexivity.
Qed.
Lemma r_blink : N.testbit (e_bits row) 8 = true -> snd (read_engine T c) <> Panic.
Proof. intros F. unfold read_engine, mbind, mget, mret, check_bit, flagEngineForceBlink. rewrite Hb, F. discriminate. Qed.
Lemma r_type : snd (read_device_type c) <> Panic.
Proof. unfold read_device_type, mbind, mget, mret. destruct (check_bit _ _); discriminate. Qed.
End Reads.
Section Damage.
Variables (T : tables) (row : entry) (mC mD : N) (ua : bytes).
Notation c := (from_cache row (fresh_ctx mC mD 0 ua)).
Lemma exact_panic g buf e : holds row g = true -> place T row ua g = Some (buf, e) -> (served T row (fresh_ctx mC mD 0 ua) g = Panic <-> e <> 0%N /\ ~ inside buf e).
Proof.
  intros H P. rewrite served_out by exact H. destruct g; cbn [place read_out] in *; try discriminate P.
  1,2,3,5,6,7,8,9,10: assert (E : buf = snd (e, buf)) by reflexivity; injection P as <- <-.
  - exact (at_zero _ _ _ _ _ _ (r_browser T row c eq_refl eq_refl)).
  - exact (at_zero _ _ _ _ _ _ (r_bvs T row ua c eq_refl eq_refl eq_refl)).
  - exact (at_zero _ _ _ _ _ _ (r_bvs T row ua c eq_refl eq_refl eq_refl)).
  - exact (at_zero _ _ _ _ _ _ (r_evs row ua c eq_refl eq_refl)).
  - exact (at_zero _ _ _ _ _ _ (r_evs row ua c eq_refl eq_refl)).
  - exact (at_zero _ _ _ _ _ _ (r_brand T row c eq_refl eq_refl)).
  - exact (at_zero _ _ _ _ _ _ (r_os T row ua c eq_refl eq_refl eq_refl)).
  - exact (at_zero _ _ _ _ _ _ (r_ovs T row ua c eq_refl eq_refl eq_refl)).
  - exact (at_zero _ _ _ _ _ _ (r_ovs T row ua c eq_refl eq_refl eq_refl)).
  - destruct (N.testbit (e_bits row) 8) eqn:F; [discriminate P|]. injection P as <- <-. exact (at_zero _ _ _ _ _ _ (r_engine T row c eq_refl eq_refl F)).
Qed.
Lemma no_place g : holds row g = true -> place T row ua g = None -> g <> GModel -> served T row (fresh_ctx mC mD 0 ua) g <> Panic.
Proof.
  intros H P N. rewrite served_out by exact H. destruct g; cbn [place read_out] in *; try discriminate P; try discriminate; try congruence.
  - destruct (N.testbit (e_bits row) 8) eqn:F; [|discriminate P]. rewrite rmap_panic. apply (r_blink T row); [reflexivity|exact F].
  - rewrite rmap_panic. apply r_type.
Qed.
Lemma shown g buf e s : holds row g = true -> place T row ua g = Some (buf, e) -> served T row (fresh_ctx mC mD 0 ua) g = Ok (VB s) -> from_place buf s.
Proof.
  intros H P. rewrite served_out by exact H. destruct g; cbn [place read_out] in *; try discriminate P.
  1,2,3,5,6,7,8,9,10: injection P as <- <-.
  - intros S. exact (at_place _ _ _ Unknown (fun r => r) s (r_browser T row c eq_refl eq_refl) (or_intror eq_refl) fp_id S).
  - destruct (snd (read_browser_version T c)); discriminate.
  - intros S. exact (at_place _ _ _ [] slashed s (r_bvs T row ua c eq_refl eq_refl eq_refl) (or_introl eq_refl) fp_slashed S).
  - destruct (snd (read_engine_version c)); discriminate.
  - intros S. exact (at_place _ _ _ [] (fun r => r) s (r_evs row ua c eq_refl eq_refl) (or_introl eq_refl) fp_id S).
  - intros S. exact (at_place _ _ _ Unknown (fun r => trim r x20) s (r_brand T row c eq_refl eq_refl) (or_intror eq_refl) fp_trim S).
  - intros S. exact (at_place _ _ _ Unknown (fun r => trim r x20) s (r_os T row ua c eq_refl eq_refl eq_refl) (or_intror eq_refl) fp_trim S).
  - destruct (snd (read_os_version T c)); discriminate.
  - intros S. exact (at_place _ _ _ [] under s (r_ovs T row ua c eq_refl eq_refl eq_refl) (or_introl eq_refl) fp_under S).
  - destruct (N.testbit (e_bits row) 8) eqn:F; [discriminate P|]. injection P as <- <-. intros S. exact (at_place _ _ _ [] (fun r => r) s (r_engine T row c eq_refl eq_refl F) (or_introl eq_refl) fp_id S).
Qed.
End Damage.

(** One byte of a serialised record. *)
Definition flip (i : nat) (y : byte) (b : bytes) : bytes := firstn i b ++ y :: skipn (S i) b.
Lemma flip_one i y b : i < length b -> one_off b (flip i y b).
Proof.
  intros L. destruct (nth_error b i) as [x|] eqn:E; [|apply nth_error_None in E; lia]. apply nth_error_split in E as (a & d & -> & <-).
  exists a, x, y, d. split; [reflexivity|]. unfold flip. rewrite firstn_app, Nat.sub_diag, firstn_all, app_nil_r. rewrite skipn_app, skipn_all2 by lia.
  replace (S (length a) - length a) with 1 by lia. reflexivity.
Qed.
Definition flip_check (T : tables) (ua : bytes) (g : getter) (i : nat) (y : byte) (before : bytes) (s : option bytes) : bool :=
  match row_left T ua [g] with
  | Some row => wf_b row && sayb (alone T ClientTypeAll DeviceTypeAll 0 ua g) (Some before) &&
      match marshal_to row (repeat x00 (size row)) with
      | (b, _, MNil) => (i <? length b) && match unmarshal entry_zero (flip i y b) with
          | Ok (r, UNil) => (if holds r g then true else false) && beqs (e_data r) ua && sayb (served T r (fresh_ctx ClientTypeAll DeviceTypeAll 0 ua) g) s
          | _ => false end
      | _ => false
      end
  | None => false
  end.
Lemma flip_case T ua g i y before s : flip_check T ua g i y before s = true -> exists row buf n buf' row',
  left_by T ClientTypeAll DeviceTypeAll ua row /\ marshal_to row (repeat x00 (size row)) = (buf, n, MNil) /\ one_off buf buf' /\
  unmarshal entry_zero buf' = Ok (row', UNil) /\ e_data row' = ua /\ holds row' g = true /\
  alone T ClientTypeAll DeviceTypeAll 0 ua g = Ok (VB before) /\
  served T row' (fresh_ctx ClientTypeAll DeviceTypeAll 0 ua) g = match s with Some x => Ok (VB x) | None => Panic end.
Proof.
  unfold flip_check. destruct (row_left T ua [g]) as [row|] eqn:E; [|discriminate]. apply row_left_by in E.
  destruct (marshal_to row (repeat x00 (size row))) as [[b n] [|]] eqn:M; [|rewrite andb_false_r; discriminate].
  intros H. apply andb_prop in H as [H1 H2]. apply andb_prop in H1 as [_ H1]. apply andb_prop in H2 as [L H2]. apply Nat.ltb_lt in L.
  destruct (unmarshal entry_zero (flip i y b)) as [[r [|]]|] eqn:U; try discriminate. apply andb_prop in H2 as [H2 H3]. apply andb_prop in H2 as [H2 H4].
  apply sayb_ok in H1, H3. apply beqs_eq in H4. exists row, b, n, (flip i y b), r. destruct (holds r g); [|discriminate H2].
  split; [exact E|]. split; [exact M|]. split; [apply flip_one; exact L|]. auto 10.
Qed.

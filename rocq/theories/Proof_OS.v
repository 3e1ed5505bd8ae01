(** OS detection on a fresh context: the entry chosen, its name and version. *)
From Verif Require Import Model_Base Model_CacheEntry Model_Version Model_Ctx Model_Parse Spec_Getters Spec_Select
  Proof_Base Proof_Local Proof_Safe Proof_Getters Proof_Select Proof_Client.
From Coq Require Import Lia ZifyBool ZifyNat ZifyN.

Lemma trim_trimmed s : trimmed s (trim s x20).
Proof.
  unfold trim. destruct (trim_left_spec s x20) as (i & E1 & H1). destruct (trim_right_spec (trim_left s x20) x20) as (j & E2 & H2).
  exists i, j. split; [rewrite <- E2; exact E1|]. split.
  - intros y E. rewrite E in E2. cbn in E2. exact (H1 _ _ E2 eq_refl).
  - intros y E. exact (H2 _ _ E eq_refl).
Qed.

Lemma dots_dotted s : dotted s (dots s).
Proof.
  unfold dotted, dots. rewrite map_length. split; [reflexivity|]. intros i b E. rewrite (map_nth_error _ _ _ E).
  destruct (beq_spec b x5f) as [->|N]; split; intros H; congruence.
Qed.
Lemma no_underscore_dotted s : ~ In x5f s -> dotted s s.
Proof.
  intros N. split; [reflexivity|]. intros i b E. split; intros H; [|exact E]. subst. apply nth_error_In in E. contradiction.
Qed.

Lemma in_list_iff s l : in_list s l = true <-> In s l.
Proof.
  unfold in_list. rewrite existsb_exists. split.
  - intros (x & Hx & E). apply beqs_eq in E. congruence.
  - intros H. exists s. split; [exact H|apply beqs_refl].
Qed.
Lemma contains_occurs s w : w <> [] -> (contains_b s w = true <-> occurs w s).
Proof. intros H. rewrite contains_b_iff. unfold occurs. tauto. Qed.
Lemma maybe_mac_iff ua : maybe_mac ua = true <-> looks_mac ua.
Proof.
  unfold maybe_mac, looks_mac. rewrite existsb_exists. change osMaybeMacBytes with mac_words.
  split; intros (w & Hw & H); exists w; split; auto; apply (contains_occurs ua w); auto;
    (destruct Hw as [<-|[<-|[<-|[]]]]; discriminate).
Qed.
Lemma maybe_not_and_iff ua : maybe_not_and ua = true <-> like_android ua.
Proof. apply contains_occurs. discriminate. Qed.

Lemma ios_iff s : in_list s osMaybeMacRE = true <-> In s ios_patterns.
Proof. exact (in_list_iff s osMaybeMacRE). Qed.
Lemma android_iff s : in_list s osMaybeNotANDRE = true <-> In s android_patterns.
Proof. exact (in_list_iff s osMaybeNotANDRE). Qed.

Lemma read_os_eq T c : snd (read_os T c) =
  if negb (c_osName c =? 0)%N then
    rbind (slice64 (if bit flagOSBufSrc c then c_src c else or_buf T) (c_osName c)) (fun raw => Ok (trim raw x20))
  else Ok Unknown.
Proof.
  unfold read_os, mbind, mget, bit. destruct (negb (c_osName c =? 0)%N); [|reflexivity]. unfold mlift.
  destruct (slice64 _ _); reflexivity.
Qed.
Lemma read_os_version_eq T c : snd (read_os_version T c) =
  if (0 <? c_osVersion c)%N then
    rbind (slice64 (if bit flagOSVerBufSrc c then or_buf T else c_src c) (c_osVersion c)) (fun raw =>
      Ok (match index_byte raw x5f with Some _ => dots raw | None => raw end))
  else Ok [].
Proof.
  unfold read_os_version, mbind, mget, bit. destruct (0 <? c_osVersion c)%N; [|reflexivity]. unfold mlift.
  destruct (slice64 _ _) as [raw|]; [|reflexivity]. cbn [rbind]. destruct (index_byte raw x5f); reflexivity.
Qed.

Lemma ok_inj {A} (a b : A) : Ok a = Ok b -> a = b.
Proof. intros [= ->]. reflexivity. Qed.

Section OS.
Variable T : tables.

Lemma ostest_applies ua x b : ostest T ua x = Ok b -> (b = true <-> os_applies T ua x).
Proof.
  unfold ostest, os_applies, skipped, applies. destruct (Z.leb_spec 0 (ot_matchRI x)) as [R|R].
  - destruct (zindex (or_re T) (ot_matchRI x)) as [r|] eqn:E; cbn [rbind]; [|discriminate]. apply zindex_Ok in E as [_ E].
    intros Hb. apply ok_inj in Hb. subst b. rewrite !andb_true_iff, !negb_true_iff, !andb_false_iff, match_find. split.
    + intros ((A & B) & M). split; [|left; split; [exact R|]; exists r; auto].
      intros (_ & r' & E' & H). rewrite E in E'. injection E' as <-.
      destruct H as [[H1 H2]|[H1 H2]].
      * apply ios_iff in H1. apply maybe_mac_iff in H2. destruct A; congruence.
      * apply android_iff in H1. apply maybe_not_and_iff in H2. destruct B; congruence.
    + intros [N [(_ & r' & E' & M)|[R' _]]]; [|lia]. rewrite E in E'. injection E' as <-. split; [|exact M].
      split.
      * destruct (in_list (re_src r) osMaybeMacRE) eqn:I; [|auto]. destruct (maybe_mac ua) eqn:Ma; [|auto]. exfalso. apply N.
        split; [exact R|]. exists r. split; [exact E|]. left. split; [apply ios_iff; exact I|apply maybe_mac_iff; exact Ma].
      * destruct (in_list (re_src r) osMaybeNotANDRE) eqn:I; [|auto]. destruct (maybe_not_and ua) eqn:Ma; [|auto]. exfalso. apply N.
        split; [exact R|]. exists r. split; [exact E|]. right. split; [apply android_iff; exact I|apply maybe_not_and_iff; exact Ma].
  - destruct (slice64 (or_buf T) (ot_match64 x)) as [s|] eqn:E; cbn [rbind]; [|discriminate]. intros [= <-].
    apply text_slice in E. rewrite substr_occurs. split.
    + intros M. split; [intros [R' _]; lia|]. right. split; [lia|]. exists s. auto.
    + intros [_ [[L _]|(_ & s' & E' & M)]]; [lia|]. rewrite (text_fun _ _ _ _ E E'). exact M.
Qed.

(** A step that copies a group if it is there. *)
Definition copy_group (m : list Z) (si : Z) (up : N -> ctx -> ctx) : M unit :=
  (if (si <? Z.of_nat (length m))%Z && negb (si =? -1)%Z then
     g <- mlift (Model_Parse.group m si) ;;
     if negb (fst g =? -1)%Z && negb (snd g =? -1)%Z then mmod (up (encode64 (fst g) (snd g))) else mret tt
   else mret tt)%m.

Lemma group_zero ua m i g s : small ua -> (0 <= i < 64)%Z -> Model_Parse.group m i = Ok g -> captured m i ua s ->
  text ua (encode64 (fst g) (snd g)) s -> (encode64 (fst g) (snd g) = 0%N <-> s = [] /\ at_start m i).
Proof.
  intros L Hi G (a & b & E & _ & C1 & C2) Tx. apply (group_nth m i g Hi) in G as [G1 G2]. unfold at_start. rewrite G1 in *. 
  injection C1 as C1. rewrite C2 in G2. injection G2 as G2. split.
  - intros E0. rewrite E0 in Tx. apply text_zero in Tx. split; [exact Tx|]. f_equal.
    rewrite C1 in E0. unfold encode64, e_encode, u32, two32 in E0. unfold small in L. subst ua. rewrite app_length in L.
    rewrite Z.mod_small in E0 by lia. lia.
  - intros [-> S0]. injection S0 as S0. rewrite <- G2, S0. rewrite S0 in C1. cbn [length]. replace (length a + 0) with 0 by lia. reflexivity.
Qed.

Lemma copy_group_spec r ua m si up c c' u :
  sane_regex r -> small ua -> (-1 <= si < 64)%Z -> re_find r ua = Some m ->
  copy_group m si up c = (c', Ok u) ->
  (exists s e, group_text m si ua s /\ text ua e s /\ (e = 0%N <-> s = [] /\ at_start m si) /\ c' = up e c) \/ (no_group m si /\ c' = c).
Proof.
  intros S L R F. unfold copy_group.
  destruct (Z.ltb_spec si (Z.of_nat (length m))) as [Lm|Lm]; cbn [andb].
  2: { intros [= <- <-]. right. split; [|reflexivity]. right. split; [lia|]. intros lo hi A _.
       assert (nth_error m (2 * Z.to_nat si) <> None) as B by congruence. apply nth_error_Some in B. lia. }
  destruct (Z.eqb_spec si (-1)) as [E|E]; cbn [negb].
  { intros [= <- <-]. right. split; [left; exact E|reflexivity]. }
  unfold mbind, mlift. destruct (Model_Parse.group m si) as [g|] eqn:G; [|discriminate].
  destruct (group_sane r ua m si g S L ltac:(lia) F G) as [(A1 & A2 & A)|(A1 & A2 & s & Cs & Ts)].
  - rewrite A1. cbn. intros [= <- <-]. right. split; [right; exact A|reflexivity].
  - apply Z.eqb_neq in A1. apply Z.eqb_neq in A2. rewrite A1, A2. cbn. intros [= <- <-]. left.
    exists s, (encode64 (fst g) (snd g)). split; [split; assumption|]. split; [exact Ts|]. split; [|reflexivity].
    apply (group_zero ua m si g s); [exact L|lia|exact G|exact Cs|exact Ts].
Qed.

(** [os_hit] in terms of it. *)
Lemma os_hit_eq x re c : os_hit T x re c =
  mbind (copy_group (re_groups re (c_src c)) (ot_nameSI x) (fun e c => set_flag flagOSBufSrc (up_osName e c))) (fun _ =>
  mbind (copy_group (re_groups re (c_src c)) (ot_versionSI x) up_osVersion) (fun _ =>
  if negb (ot_versions64 x =? 0)%N then os_eval_ver T (ot_versions64 x) else mret tt)) (up_osName (ot_name64 x) c).
Proof.
  unfold os_hit, copy_group. unfold mbind at 1, mmod at 1. unfold mbind at 1, mget. cbn [c_src up_osName].
  unfold mbind, mlift, mret, mmod. set (m := re_groups re (c_src c)).
  destruct (ot_nameSI x =? -1)%Z, (ot_versionSI x =? -1)%Z, (ot_nameSI x <? Z.of_nat (length m))%Z,
    (ot_versionSI x <? Z.of_nat (length m))%Z; cbn [negb orb andb]; try reflexivity;
    try destruct (Model_Parse.group m (ot_nameSI x)) as [[g1 g2]|]; try reflexivity;
    try destruct (negb (fst (g1, g2) =? -1)%Z && negb (snd (g1, g2) =? -1)%Z); try reflexivity;
    destruct (Model_Parse.group m (ot_versionSI x)) as [[h1 h2]|]; try reflexivity;
    destruct (negb (fst (h1, h2) =? -1)%Z && negb (snd (h1, h2) =? -1)%Z); reflexivity.
Qed.

Lemma slice_range {A} (l : list A) e r : slice l (fst (e_decode e)) (snd (e_decode e)) = Ok r -> r = range_of l e.
Proof.
  intros H. pose proof (slice_Ok_inv _ _ _ _ H) as (L1 & L2 & _). rewrite slice_ok in H by assumption.
  injection H as <-. reflexivity.
Qed.

Lemma vtest_applies ua v b : vtest T ua v = Ok b -> (b = true <-> ov_applies T ua v).
Proof. apply hit_applies. Qed.

Definition os_frame (c : ctx) := (c_src c, c_maskC c, c_maskD c, c_hint c).
Definition name_state (ua : bytes) (x : osTuple) (e : N) (k : bool) : Prop :=
  (k = true /\ exists m s, finds T (ot_matchRI x) ua m /\ group_text m (ot_nameSI x) ua s /\ text ua e s /\
    (e = 0%N <-> s = [] /\ at_start m (ot_nameSI x))) \/
  (k = false /\ e = ot_name64 x /\ forall m, finds T (ot_matchRI x) ua m -> no_group m (ot_nameSI x)).
Definition over_state (ua : bytes) (x : osTuple) (e : N) (k : bool) : Prop :=
  (k = false /\ exists s, os_version_is T ua x s /\ text ua e s) \/
  (k = true /\ forall s, text (or_buf T) e s -> os_version_is T ua x s).

Definition os_pristine (c : ctx) : Prop :=
  c_osName c = 0%N /\ c_osVersion c = 0%N /\ bit flagOSBufSrc c = false /\ bit flagOSVerBufSrc c = false.

Lemma finds_fun ri ua m m' : finds T ri ua m -> finds T ri ua m' -> m = m'.
Proof. intros (_ & r & E & F) (_ & r' & E' & F'). congruence. Qed.

Lemma os_after_spec x c c' u :
  os_sane T -> small (c_src c) -> os_pristine c -> In x (or_os T) -> ostest T (c_src c) x = Ok true ->
  os_after T x c = (c', Ok u) ->
  os_frame c' = os_frame c /\ name_state (c_src c) x (c_osName c') (bit flagOSBufSrc c') /\
  (ot_version64 x = 0%N -> over_state (c_src c) x (c_osVersion c') (bit flagOSVerBufSrc c')).
Proof.
  intros (S1 & S2 & S3) L (N0 & V0 & K1 & K2) Hin Ht H. set (ua := c_src c) in *.
  rewrite Forall_forall in S2. destruct (S2 x Hin) as [RN RV].
  unfold os_after in H. destruct (Z.leb_spec 0 (ot_matchRI x)) as [R|R].
  2: { injection H as <- <-. split; [reflexivity|]. split.
       - right. split; [exact K1|]. split; [reflexivity|]. intros m (R' & _). lia.
       - intros E0. left. split; [exact K2|]. exists []. split; [apply OV_fixed_text; assumption|]. cbn. rewrite V0. apply text_zero. reflexivity. }
  unfold ostest in Ht. replace (0 <=? ot_matchRI x)%Z with true in Ht by lia.
  destruct (zindex (or_re T) (ot_matchRI x)) as [r|] eqn:E; [|discriminate]. cbn [rbind] in Ht.
  assert (M : re_match r ua = true) by (apply ok_inj in Ht; rewrite !andb_true_iff in Ht; tauto). clear Ht.
  apply zindex_Ok in E as [_ E]. unfold re_match in M. destruct (re_find r ua) as [m|] eqn:F; [|discriminate]. clear M.
  assert (Sr : sane_regex r). { rewrite Forall_forall in S1. apply S1. apply nth_error_In in E. exact E. }
  assert (Fd : finds T (ot_matchRI x) ua m) by (split; [exact R|]; exists r; auto).
  rewrite os_hit_eq in H. unfold mbind at 1 in H. fold ua in H. unfold re_groups in H. rewrite F in H.
  match type of H with context [match ?a with _ => _ end] => destruct a as [c1 [[]|]] eqn:H1 end; [|discriminate].
  apply (copy_group_spec r ua m) in H1; [|exact Sr|exact L|exact RN|exact F].
  assert (A1 : os_frame c1 = os_frame c /\ name_state ua x (c_osName c1) (bit flagOSBufSrc c1) /\ c_osVersion c1 = 0%N /\ bit flagOSVerBufSrc c1 = false).
  { destruct H1 as [(s & e & G & Te & Z0 & ->)|[NG ->]].
    - split; [reflexivity|]. split; [|split; [exact V0|]].
      + left. split; [unfold bit, set_flag; cbn; apply check_set_same|]. exists m, s. split; [exact Fd|]. split; [exact G|]. split; [exact Te|exact Z0].
      + unfold bit, set_flag. cbn. rewrite check_set_other by discriminate. exact K2.
    - split; [reflexivity|]. split; [|split; [exact V0|exact K2]].
      right. split; [exact K1|]. split; [reflexivity|]. intros m' F'. rewrite (finds_fun _ _ _ _ F' Fd). exact NG. }
  clear H1. destruct A1 as (Fr1 & NS1 & V1 & K21). unfold mbind at 1 in H.
  match type of H with context [match ?a with _ => _ end] => destruct a as [c2 [[]|]] eqn:H2 end; [|discriminate].
  apply (copy_group_spec r ua m) in H2; [|exact Sr|exact L|exact RV|exact F].
  assert (A2 : os_frame c2 = os_frame c /\ name_state ua x (c_osName c2) (bit flagOSBufSrc c2) /\
               (exists s, entry_group m x ua s /\ text ua (c_osVersion c2) s) /\ bit flagOSVerBufSrc c2 = false).
  { destruct H2 as [(s & e & G & Te & _ & ->)|[NG ->]].
    - split; [exact Fr1|]. split; [exact NS1|]. split; [|exact K21]. exists s. split; [left; exact G|exact Te].
    - split; [exact Fr1|]. split; [exact NS1|]. split; [|exact K21]. exists []. split; [right; auto|]. rewrite V1. apply text_zero. reflexivity. }
  clear H2 Fr1 NS1 V1 K21 c1. destruct A2 as (Fr2 & NS2 & (s2 & EG & T2) & K22).
  assert (Es2 : c_src c2 = ua) by (unfold os_frame in Fr2; unfold ua; congruence).
  destruct (N.eqb_spec (ot_versions64 x) 0) as [EV|EV]; cbn [negb] in H.
  { injection H as <- <-. split; [exact Fr2|]. split; [exact NS2|]. intros E0. left. split; [exact K22|]. exists s2.
    split; [|exact T2]. apply (OV_entry _ _ _ m); auto. }
  unfold os_eval_ver, mbind at 1, mlift in H. destruct (slice (or_ov T) _ _) as [rv|] eqn:Sl; [|discriminate].
  apply slice_range in Sl. unfold mbind at 1 in H. destruct (zindex rv _) as [?|]; [|discriminate].
  rewrite os_ver_loop_search, Es2 in H. destruct (search (vtest T ua) rv) as [[v|]|] eqn:Sr2; [| |discriminate].
  - assert (Fv : first (ov_applies T ua) (subversions T x) v).
    { unfold subversions. rewrite <- Sl. apply (search_some (vtest T ua)); [apply vtest_applies|exact Sr2]. }
    pose proof (search_in _ _ _ Sr2) as [Hv Tv].
    unfold os_ver_after in H. destruct ((0 <=? ov_matchRI v)%Z && negb (ov_versionSI v =? -1)%Z) eqn:B.
    + apply andb_true_iff in B as [B1 B2]. apply Z.leb_le in B1. apply negb_true_iff, Z.eqb_neq in B2.
      unfold vtest, hit in Tv. replace (0 <=? ov_matchRI v)%Z with true in Tv by lia.
      destruct (zindex (or_re T) (ov_matchRI v)) as [rr|] eqn:Er; [|discriminate]. cbn in Tv. injection Tv as Mv.
      apply zindex_Ok in Er as [_ Er]. unfold re_match in Mv. destruct (re_find rr ua) as [mv|] eqn:Fr; [|discriminate].
      assert (Srr : sane_regex rr). { rewrite Forall_forall in S1. apply S1. apply nth_error_In in Er. exact Er. }
      assert (Fdv : finds T (ov_matchRI v) ua mv) by (split; [exact B1|]; exists rr; auto).
      assert (RVv : (-1 <= ov_versionSI v < 64)%Z).
      { rewrite Forall_forall in S3. apply S3. rewrite Sl in Hv. unfold range_of in Hv.
        rewrite <- (firstn_skipn (N.to_nat (ot_versions64 x / 4294967296)) (or_ov T)). apply in_or_app. right.
        match type of Hv with In v (firstn ?n ?l) => rewrite <- (firstn_skipn n l) end. apply in_or_app. left. exact Hv. }
      assert (CG : copy_group mv (ov_versionSI v) up_osVersion c2 = (c', Ok u)).
      { rewrite <- H. rewrite Es2. unfold re_groups. rewrite Fr. unfold copy_group.
        replace (negb (ov_versionSI v =? -1)%Z) with true by lia. rewrite andb_true_r.
        destruct (ov_versionSI v <? Z.of_nat (length mv))%Z; [|reflexivity]. unfold mbind, mlift.
        destruct (Model_Parse.group mv (ov_versionSI v)) as [g|]; [|reflexivity].
        destruct (negb (fst g =? -1)%Z && negb (snd g =? -1)%Z); reflexivity. }
      apply (copy_group_spec rr ua mv) in CG; [|exact Srr|exact L|exact RVv|exact Fr].
      destruct CG as [(s & e & G & Te & _ & ->)|[NG ->]].
      * split; [exact Fr2|]. split; [exact NS2|]. intros E0. left. split; [exact K22|]. exists s. split; [|exact Te].
        apply (OV_sub_group _ _ _ m v mv); auto.
      * split; [exact Fr2|]. split; [exact NS2|]. intros E0. left. split; [exact K22|]. exists s2. split; [|exact T2].
        destruct NG as [NG|NG]; [contradiction|]. apply (OV_sub_absent _ _ _ m v mv); auto.
    + assert (B' : (ov_matchRI v < 0)%Z \/ ov_versionSI v = (-1)%Z) by lia. injection H as <- <-.
      split; [exact Fr2|]. split.
      * unfold name_state, bit, set_flag in *. cbn in *. rewrite check_set_other by discriminate. exact NS2.
      * intros E0. right. split; [unfold bit, set_flag; cbn; apply check_set_same|]. cbn. intros s Ts.
        apply (OV_sub_const _ _ _ m v); auto.
  - assert (Nv : none (ov_applies T ua) (subversions T x)).
    { unfold subversions. rewrite <- Sl. apply (search_none (vtest T ua)); [apply vtest_applies|exact Sr2]. }
    injection H as <- <-. split; [exact Fr2|]. split; [exact NS2|]. intros E0. left. split; [exact K22|]. exists s2.
    split; [|exact T2]. apply (OV_entry _ _ _ m); auto.
Qed.

Lemma eval_os_spec c c' b :
  os_sane T -> small (c_src c) -> os_pristine c -> eval_os T c = (c', Ok b) ->
  os_frame c' = os_frame c /\
  if b then exists x, os_is T (c_src c) x /\ name_state (c_src c) x (c_osName c') (bit flagOSBufSrc c') /\
                      over_state (c_src c) x (c_osVersion c') (bit flagOSVerBufSrc c')
  else no_os T (c_src c) /\ c' = c.
Proof.
  intros S L P H. unfold eval_os, mbind at 1, mlift in H. destruct (zindex (or_os T) _); [|discriminate].
  unfold mbind at 1, mget in H. unfold mbind at 1 in H. rewrite os_loop_search in H.
  destruct (search (ostest T (c_src c)) (or_os T)) as [[x|]|] eqn:Sr; [| |discriminate].
  - destruct (os_after T x c) as [c1 [[]|]] eqn:A; cbn [rbind] in H; [|discriminate].
    pose proof (search_in _ _ _ Sr) as [Hin Ht]. apply (os_after_spec x c c1 tt S L P Hin Ht) in A as (Fr & NS & OS).
    assert (Fx : os_is T (c_src c) x) by (apply (search_some (ostest T (c_src c))); [apply ostest_applies|exact Sr]).
    unfold mbind, mmod, mret in H. destruct (N.eqb_spec (ot_version64 x) 0) as [E|E]; cbn [negb] in H; injection H as <- <-.
    + split; [exact Fr|]. exists x. split; [exact Fx|]. split; [exact NS|exact (OS E)].
    + split; [exact Fr|]. exists x. split; [exact Fx|]. split.
      * unfold name_state, bit, set_flag in *. cbn in *. rewrite check_set_other by discriminate. exact NS.
      * right. split; [unfold bit, set_flag; cbn; apply check_set_same|]. cbn. intros s Ts. apply OV_const; assumption.
  - injection H as <- <-. split; [reflexivity|]. split; [|reflexivity].
    apply (search_none (ostest T (c_src c))); [apply ostest_applies|exact Sr].
Qed.

(** ** Getters *)
Variables mC mD h : N.
Variable ua : bytes.
Definition os_end : ctx * res bool := eval_os T (fresh_ctx mC mD h ua).

Lemma cold_os_read {A} (read : M A) :
  snd (run_cold ((ensure flagOSDetect (parse_os T) ;; plift read)%p (fresh_ctx mC mD h ua))) =
  match snd os_end with Ok _ => snd (read (set_flag flagOSDetect (fst os_end))) | Panic => Panic end.
Proof.
  unfold pbind at 1. rewrite run_cold_bind. unfold parse_os.
  rewrite (run_cold_detect_m flagOSDetect _ _ (pret tt)) by reflexivity. unfold os_end.
  destruct (eval_os T (fresh_ctx mC mD h ua)) as [c [b|]]; reflexivity.
Qed.
Lemma alone_os : alone T mC mD h ua GOS =
  match snd os_end with Ok _ => rmap VB (snd (read_os T (set_flag flagOSDetect (fst os_end)))) | Panic => Panic end.
Proof. unfold alone, run_getter. rewrite run_cold_pmap. unfold get_os. rewrite cold_os_read. destruct (snd os_end); reflexivity. Qed.
Lemma alone_os_version_string : alone T mC mD h ua GOSVersionString =
  match snd os_end with Ok _ => rmap VB (snd (read_os_version T (set_flag flagOSDetect (fst os_end)))) | Panic => Panic end.
Proof. unfold alone, run_getter. rewrite run_cold_pmap. unfold get_os_version_string. rewrite cold_os_read. destruct (snd os_end); reflexivity. Qed.

Hypothesis S : os_sane T.
Hypothesis L : small ua.

Lemma os_end_spec b : snd os_end = Ok b ->
  c_src (fst os_end) = ua /\
  if b then exists x, os_is T ua x /\ name_state ua x (c_osName (fst os_end)) (bit flagOSBufSrc (fst os_end)) /\
                      over_state ua x (c_osVersion (fst os_end)) (bit flagOSVerBufSrc (fst os_end))
  else no_os T ua /\ fst os_end = fresh_ctx mC mD h ua.
Proof.
  intros E. assert (H : eval_os T (fresh_ctx mC mD h ua) = (fst os_end, Ok b)).
  { rewrite <- E. unfold os_end. destruct (eval_os T (fresh_ctx mC mD h ua)); reflexivity. }
  apply eval_os_spec in H as [F H]; [|exact S|exact L|repeat split]. split; [|exact H].
  change (c_src (fst os_end) = c_src (fresh_ctx mC mD h ua)). unfold os_frame in F. congruence.
Qed.

Lemma os_name s : alone T mC mD h ua GOS = Ok (VB s) ->
  (no_os T ua /\ s = bs "UNK") \/ (exists x, os_is T ua x /\ os_name_is T ua x s).
Proof.
  rewrite alone_os. destruct (snd os_end) as [b|] eqn:E; [|discriminate]. destruct (os_end_spec b E) as [Es H]. destruct b.
  2: { destruct H as [NC Ec]. rewrite Ec. cbn. intros [= <-]. left. auto. }
  destruct H as (x & OI & NS & _). rewrite read_os_eq. set (c := fst os_end) in *.
  change (c_osName (set_flag flagOSDetect c)) with (c_osName c). change (c_src (set_flag flagOSDetect c)) with (c_src c).
  rewrite bit_other by discriminate. rewrite Es. intros H. right. exists x. split; [exact OI|].
  destruct NS as [(K & m & w & Fd & G & Tx & Z0)|(K & En & NG)]; rewrite K in H.
  - destruct (N.eqb_spec (c_osName c) 0) as [E0|E0]; cbn [negb] in H.
    + apply Z0 in E0 as [-> At]. injection H as <-. exact (ON_empty _ _ _ m Fd G At).
    + apply text_slice in Tx. rewrite Tx in H. injection H as <-.
      assert (Q : w <> [] \/ ~ at_start m (ot_nameSI x)) by (destruct w; [right; intros At; apply E0; tauto|left; discriminate]).
      exact (ON_group _ _ _ m w _ Fd G Q (trim_trimmed w)).
  - rewrite En in H. destruct (N.eqb_spec (ot_name64 x) 0) as [E0|E0]; cbn [negb] in H.
    + injection H as <-. apply ON_none; assumption.
    + destruct (slice64 (or_buf T) (ot_name64 x)) as [w|] eqn:Sl; [|discriminate]. apply text_slice in Sl.
      injection H as <-. exact (ON_const _ _ _ w _ NG E0 Sl (trim_trimmed w)).
Qed.

Lemma os_version s : alone T mC mD h ua GOSVersionString = Ok (VB s) ->
  (no_os T ua /\ s = []) \/ (exists x v, os_is T ua x /\ os_version_is T ua x v /\ dotted v s).
Proof.
  rewrite alone_os_version_string. destruct (snd os_end) as [b|] eqn:E; [|discriminate]. destruct (os_end_spec b E) as [Es H]. destruct b.
  2: { destruct H as [NC Ec]. rewrite Ec. cbn. intros [= <-]. left. auto. }
  destruct H as (x & OI & _ & VS). rewrite read_os_version_eq. set (c := fst os_end) in *.
  change (c_osVersion (set_flag flagOSDetect c)) with (c_osVersion c). change (c_src (set_flag flagOSDetect c)) with (c_src c).
  rewrite bit_other by discriminate. rewrite Es. intros H. right. exists x.
  assert (D : forall raw, dotted raw (match index_byte raw x5f with Some _ => dots raw | None => raw end)).
  { intros raw. destruct (index_byte raw x5f) eqn:I; [apply dots_dotted|]. apply index_byte_None in I. apply no_underscore_dotted. exact I. }
  destruct VS as [(K & w & OV & Tx)|(K & Hc)]; rewrite K in H.
  - exists w. split; [exact OI|]. split; [exact OV|]. destruct (N.ltb_spec 0 (c_osVersion c)) as [Lt|Ge].
    + apply text_slice in Tx. rewrite Tx in H. injection H as <-. apply D.
    + assert (c_osVersion c = 0%N) as E0 by lia. rewrite E0 in Tx. apply text_zero in Tx as ->. injection H as <-. exact (D []).
  - destruct (N.ltb_spec 0 (c_osVersion c)) as [Lt|Ge].
    + destruct (slice64 (or_buf T) (c_osVersion c)) as [w|] eqn:Sl; [|discriminate]. apply text_slice in Sl.
      injection H as <-. exists w. split; [exact OI|]. split; [exact (Hc w Sl)|apply D].
    + assert (c_osVersion c = 0%N) as E0 by lia. rewrite E0 in Hc. injection H as <-. exists []. split; [exact OI|].
      split; [apply Hc, text_zero; reflexivity|exact (D [])].
Qed.
End OS.

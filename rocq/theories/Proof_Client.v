(** Client detection on a fresh context: the entry chosen, its version, its engine. *)
From Verif Require Import Model_Base Model_CacheEntry Model_Version Model_Ctx Model_Parse Spec_Getters Spec_Select
  Proof_Base Proof_Local Proof_Safe Proof_Getters Proof_Select.
From Coq Require Import Lia ZifyBool ZifyNat ZifyN.

(** ** Capture groups *)

Lemma flat_pairs (ps : list (Z * Z)) k :
  nth_error (flat_map (fun x => [fst x; snd x]) ps) (2 * k) = option_map fst (nth_error ps k) /\
  nth_error (flat_map (fun x => [fst x; snd x]) ps) (2 * k + 1) = option_map snd (nth_error ps k).
Proof.
  revert k. induction ps as [|p ps IH]; intros k.
  - cbn. destruct k; cbn; split; try reflexivity; destruct (k + S (k + 0)); reflexivity.
  - destruct k as [|k]; [split; reflexivity|].
    replace (2 * S k) with (S (S (2 * k))) by lia. replace (S (S (2 * k)) + 1) with (S (S (2 * k + 1))) by lia.
    cbn [flat_map app nth_error]. exact (IH k).
Qed.

Lemma wrap8_small z : (-128 <= z < 128)%Z -> wrap8 z = z.
Proof. intros H. unfold wrap8. rewrite Z.mod_small by lia. lia. Qed.

Lemma group_nth m i g : (0 <= i < 64)%Z -> Model_Parse.group m i = Ok g ->
  nth_error m (2 * Z.to_nat i) = Some (fst g) /\ nth_error m (2 * Z.to_nat i + 1) = Some (snd g).
Proof.
  intros Hi. unfold Model_Parse.group. rewrite (wrap8_small (i * 2)) by lia. rewrite wrap8_small by lia.
  destruct (zindex m (i * 2)) as [lo|] eqn:E1; cbn; [|discriminate].
  destruct (zindex m (i * 2 + 1)) as [hi|] eqn:E2; cbn; [|discriminate]. intros [= <-]. cbn.
  apply zindex_Ok in E1 as [_ E1]. apply zindex_Ok in E2 as [_ E2].
  replace (Z.to_nat (i * 2)) with (2 * Z.to_nat i) in E1 by lia.
  replace (Z.to_nat (i * 2 + 1)) with (2 * Z.to_nat i + 1) in E2 by lia. auto.
Qed.

Lemma sub_text (ua : bytes) lo hi : (0 <= lo <= hi)%Z -> (hi <= Z.of_nat (length ua))%Z ->
  small ua ->
  exists a s b, ua = a ++ s ++ b /\ Z.of_nat (length a) = lo /\ Z.of_nat (length a + length s) = hi /\
    text ua (encode64 lo hi) s.
Proof.
  unfold small. intros H1 H2 H3.
  assert (E : slice64 ua (encode64 lo hi) = Ok (firstn (Z.to_nat (hi - lo)) (skipn (Z.to_nat lo) ua))).
  { unfold slice64, encode64. rewrite e_decode_encode; unfold u32, two32; rewrite ?Z.mod_small by lia; try lia.
    cbn [fst snd]. rewrite slice_ok by lia. f_equal. f_equal; [lia|]. f_equal. lia. }
  exists (firstn (Z.to_nat lo) ua), (firstn (Z.to_nat (hi - lo)) (skipn (Z.to_nat lo) ua)),
    (skipn (Z.to_nat (hi - lo)) (skipn (Z.to_nat lo) ua)).
  rewrite !firstn_skipn. split; [reflexivity|]. rewrite !firstn_length, skipn_length.
  split; [lia|]. split; [lia|]. apply text_slice. exact E.
Qed.

Lemma group_sane r ua m i g :
  sane_regex r -> small ua -> (0 <= i < 64)%Z -> re_find r ua = Some m ->
  Model_Parse.group m i = Ok g ->
  (fst g = (-1)%Z /\ snd g = (-1)%Z /\ absent m i) \/
  (fst g <> (-1)%Z /\ snd g <> (-1)%Z /\ exists s, captured m i ua s /\ text ua (encode64 (fst g) (snd g)) s).
Proof.
  intros S L Hi F G. apply (group_nth m i g Hi) in G as [G1 G2].
  destruct (S _ _ F) as (ps & -> & Fp). destruct (flat_pairs ps (Z.to_nat i)) as [N1 N2].
  rewrite N1 in G1. rewrite N2 in G2. destruct (nth_error ps (Z.to_nat i)) as [p|] eqn:E; [|discriminate].
  cbn in G1, G2. rewrite Forall_forall in Fp. apply nth_error_In in E as E'. destruct (Fp p E') as [-> | [B1 B2]].
  - left. cbn in G1, G2. split; [congruence|]. split; [congruence|]. split; [lia|].
    intros lo hi A1 A2. rewrite N1 in A1. cbn in A1. left. congruence.
  - right. injection G1 as G1. injection G2 as G2. rewrite <- G1, <- G2. split; [lia|]. split; [lia|].
    destruct (sub_text ua (fst p) (snd p)) as (a & s & b & -> & La & Ls & Tx); [lia|lia|exact L|].
    exists s. split; [|exact Tx]. exists a, b. split; [reflexivity|]. split; [lia|]. rewrite N1, N2. cbn.
    split; f_equal; lia.
Qed.

(** ** Small functions *)

Lemma major_spec s : major_of s (get_major s).
Proof.
  unfold get_major. destruct (index_byte s x2e) as [p|] eqn:E.
  - apply index_byte_Some in E as (a & b & -> & <- & N). left. exists b. rewrite firstn_app, firstn_all, Nat.sub_diag.
    cbn. rewrite app_nil_r. split; [reflexivity|exact N].
  - apply index_byte_None in E. right. auto.
Qed.

Lemma str_leb_text a : forall b, str_leb a b = true <-> text_le a b.
Proof.
  induction a as [|x a IH]; intros b.
  - split; [intros _; left; exists b; reflexivity|reflexivity].
  - destruct b as [|y b]; cbn.
    + split; [discriminate|]. intros [[r E]|(p & u & v & a' & b' & E1 & E2 & _)]; [discriminate|].
      destruct p; discriminate.
    + rewrite orb_true_iff, andb_true_iff, N.ltb_lt, IH. split.
      * intros [H|[H1 H2]].
        -- right. exists [], x, y, a, b. auto.
        -- apply (reflect_iff _ _ (beq_spec x y)) in H1 as ->. destruct H2 as [[r ->]|(p & u & v & a' & b' & -> & -> & H)].
           ++ left. exists r. reflexivity.
           ++ right. exists (y :: p), u, v, a', b'. auto.
      * intros [[r E]|(p & u & v & a' & b' & E1 & E2 & H)].
        -- injection E as -> ->. right. split; [apply (reflect_iff _ _ (beq_spec x x)); reflexivity|]. left. exists r. reflexivity.
        -- destruct p as [|w p]; cbn in E1, E2.
           ++ injection E1 as -> ->. injection E2 as -> ->. left. exact H.
           ++ injection E1 as -> ->. injection E2 as -> ->. right.
              split; [apply (reflect_iff _ _ (beq_spec w w)); reflexivity|]. right. exists p, u, v, a', b'. auto.
Qed.

Lemma ef_threshold f s : threshold f s (ef_apply f s).
Proof.
  destruct f as [l d]. unfold threshold, ef_apply. cbn [fst snd]. induction l as [|[t e] l IH]; cbn [ef_apply_list].
  - right. split; [intros ? []|reflexivity].
  - destruct (str_leb t s) eqn:E.
    + left. exists t, [], l. split; [reflexivity|]. split; [apply str_leb_text; exact E|intros ? []].
    + assert (NL : ~ text_le t s) by (rewrite <- str_leb_text; congruence).
      destruct IH as [(t' & l1 & l2 & El & P & N)|[N ->]].
      * left. exists t', ((t, e) :: l1), l2. split; [cbn; f_equal; exact El|]. split; [exact P|].
        intros y [<-|Hy]; [exact NL|exact (N y Hy)].
      * right. split; [|reflexivity]. intros y [<-|Hy]; [exact NL|exact (N y Hy)].
Qed.

Lemma amap_bound {A} (m : list (N * A)) k v : amap_get m k = Some v -> bound m k v.
Proof.
  induction m as [|[k' v'] m IH]; cbn; [discriminate|]. destruct (N.eqb_spec k' k) as [->|Hn].
  - intros [= ->]. exists [], m. split; [reflexivity|]. split; [reflexivity|intros ? []].
  - intros H. destruct (IH H) as (l1 & l2 & -> & P & N). exists ((k', v') :: l1), l2. split; [reflexivity|].
    split; [exact P|]. intros y [<-|Hy]; [exact Hn|exact (N y Hy)].
Qed.
Lemma amap_unbound {A} (m : list (N * A)) k : amap_get m k = None -> unbound m k.
Proof.
  induction m as [|[k' v'] m IH]; cbn; [intros _ ? []|]. destruct (N.eqb_spec k' k) as [->|Hn]; [discriminate|].
  intros H y [<-|Hy]; [exact Hn|exact (IH H y Hy)].
Qed.

(** ** Detection *)
Section Client.
Variable T : tables.

(** Parts of the context the client code leaves alone. *)
Definition frame (c : ctx) := (c_src c, c_maskC c, c_maskD c, c_hint c).

Definition version_state (ua : bytes) (x : clientTuple) (cv : N) (k : bool) : Prop :=
  (k = true /\ cv = ct_version64 x /\ ct_version64 x <> 0%N /\ (0 <= ct_matchRI x)%Z) \/
  (k = false /\ ((ct_matchRI x < 0)%Z \/ ct_version64 x = 0%N) /\ exists s, client_fragment T ua x s /\ text ua cv s).

Lemma client_after_spec x c c' u :
  client_sane T -> small (c_src c) -> (-1 <= ct_browserVI x < 64)%Z ->
  ctest T (c_src c) x = Ok true ->
  c_clientVersion c = 0%N -> bit flagVerConstSrc c = false ->
  client_after T x c = (c', Ok u) ->
  version_state (c_src c) x (c_clientVersion c') (bit flagVerConstSrc c') /\
  c' = match (ct_version64 x =? 0)%N || negb (0 <=? ct_matchRI x)%Z with
       | true => up_clientVersion (c_clientVersion c') c
       | false => set_flag flagVerConstSrc (up_clientVersion (ct_version64 x) c)
       end.
Proof.
  intros (S1 & _ & _) L V H0 Z0 K0. unfold client_after. unfold ctest, hit in H0.
  destruct (Z.leb_spec 0 (ct_matchRI x)) as [R|R].
  2: { intros [= <- <-]. rewrite orb_true_r. cbn. split; [|destruct c; cbn in *; subst; reflexivity].
       right. split; [exact K0|]. split; [auto|]. exists []. split; [apply CF_fixed_text; exact R|]. rewrite Z0. apply text_zero. reflexivity. }
  destruct (zindex (cr_re T) (ct_matchRI x)) as [r|] eqn:E; [|discriminate]. cbn in H0. injection H0 as M.
  apply zindex_Ok in E as [_ E].
  assert (Sr : sane_regex r). { rewrite Forall_forall in S1. apply S1. apply nth_error_In in E. exact E. }
  apply match_find in M. destruct (re_find r (c_src c)) as [m|] eqn:F; [|congruence].
  unfold client_version. cbn [negb orb]. rewrite orb_false_r. destruct (N.eqb_spec (ct_version64 x) 0) as [E0|E0]; cbn [negb].
  - destruct (Z.eqb_spec (ct_browserVI x) (-1)) as [Ev|Ev]; cbn [negb].
    + intros [= <- <-]. split; [|destruct c; cbn in *; subst; reflexivity].
      right. split; [exact K0|]. split; [auto|]. exists []. split; [apply CF_no_version; assumption|]. rewrite Z0. apply text_zero. reflexivity.
    + unfold mbind, mget, re_groups. rewrite F.
      destruct (Z.ltb_spec (ct_browserVI x) (Z.of_nat (length m))) as [Lm|Lm].
      * change (match mlift (zindex m (wrap8 (ct_browserVI x * 2))) c with
                | (c', Ok lo) => match mlift (zindex m (wrap8 (wrap8 (ct_browserVI x * 2) + 1))) c' with
                                 | (c'0, Ok hi) => (if negb (lo =? -1)%Z && negb (hi =? -1)%Z then mmod (up_clientVersion (encode64 lo hi)) else mret tt) c'0
                                 | (c'0, Panic) => (c'0, Panic) end
                | (c', Panic) => (c', Panic) end = (c', Ok u) -> 
                version_state (c_src c) x (c_clientVersion c') (bit flagVerConstSrc c') /\ c' = up_clientVersion (c_clientVersion c') c).
        unfold mlift. destruct (zindex m (wrap8 (ct_browserVI x * 2))) as [lo|] eqn:Z1; [|discriminate].
        destruct (zindex m (wrap8 (wrap8 (ct_browserVI x * 2) + 1))) as [hi|] eqn:Z2; [|discriminate].
        assert (G : Model_Parse.group m (ct_browserVI x) = Ok (lo, hi)) by (unfold Model_Parse.group; rewrite Z1; cbn; rewrite Z2; reflexivity).
        destruct (group_sane r (c_src c) m (ct_browserVI x) (lo, hi) Sr L ltac:(lia) F G) as [(A1 & A2 & A)|(A1 & A2 & s & Cs & Ts)]; cbn [fst snd] in *.
        -- subst lo hi. cbn. intros [= <- <-]. split; [|destruct c; cbn in *; subst; reflexivity].
           right. split; [exact K0|]. split; [auto|]. exists []. split; [apply (CF_absent _ _ _ r m); assumption|]. rewrite Z0. apply text_zero. reflexivity.
        -- apply Z.eqb_neq in A1. apply Z.eqb_neq in A2. rewrite A1, A2. cbn. intros [= <- <-]. split; [|reflexivity].
           right. split; [exact K0|]. split; [auto|]. exists s. split; [apply (CF_group _ _ _ r m); assumption|exact Ts].
      * intros [= <- <-]. split; [|destruct c; cbn in *; subst; reflexivity].
        right. split; [exact K0|]. split; [auto|]. exists []. split; [|rewrite Z0; apply text_zero; reflexivity].
        apply (CF_absent _ _ _ r m); try assumption. split; [lia|]. intros lo hi A1 _.
        assert (nth_error m (2 * Z.to_nat (ct_browserVI x)) <> None) as B by congruence. apply nth_error_Some in B. lia.
  - intros [= <- <-]. split; [|reflexivity]. left. split; [|auto].
    unfold bit, set_flag. cbn. apply check_set_same.
Qed.

(** *** Engine *)
Definition engine_state (ua : bytes) (x : clientTuple) (c : ctx) : Prop :=
  engine_is T ua x (c_engineName c) /\
  ((exists s, engine_version_is T ua (c_engineName c) s /\ text ua (c_engineVersion c) s) \/
   slice64 ua (c_engineVersion c) = Panic) /\
  bit flagEngineForceBlink c = (c_engineName c =? 0)%N && re_match (re_blink T) ua.
Definition no_engine (c : ctx) : Prop :=
  c_engineName c = 0%N /\ c_engineVersion c = 0%N /\ bit flagEngineForceBlink c = false.

Definition others (c : ctx) := (frame c, c_clientType c, c_clientName c, c_clientVersion c, bit flagVerConstSrc c).

Lemma others_engineName e c : others (up_engineName e c) = others c. Proof. reflexivity. Qed.
Lemma others_engineVersion e c : others (up_engineVersion e c) = others c. Proof. reflexivity. Qed.
Lemma others_blink c : others (set_flag flagEngineForceBlink c) = others c.
Proof. unfold others, bit, set_flag. cbn. rewrite check_set. reflexivity. Qed.

Lemma engine_version_step ua en c c' u :
  client_sane T -> small ua -> c_src c = ua -> c_engineName c = en -> c_engineVersion c = 0%N ->
  (if negb (en =? 0)%N then
      match amap_get (cr_ev T) en with
      | Some ri =>
          (re <- mlift (zindex (cr_evre T) ri) ;;
          src <- mget c_src ;;
          let m := re_groups re src in
          if 4 <=? length m then
            lo <- mlift (zindex m 2) ;;
            hi <- mlift (zindex m 3) ;;
            mmod (up_engineVersion (encode64 lo hi))
          else mret tt)%m
      | None => mret tt
      end
    else mret tt) c = (c', Ok u) ->
  c' = up_engineVersion (c_engineVersion c') c /\
  ((exists s, engine_version_is T ua en s /\ text ua (c_engineVersion c') s) \/ slice64 ua (c_engineVersion c') = Panic).
Proof.
  intros (_ & S2 & _) L Es En Z0. assert (C0 : up_engineVersion 0 c = c) by (destruct c; cbn in *; subst; reflexivity).
  destruct (N.eqb_spec en 0) as [E|E]; cbn [negb].
  { intros [= <- <-]. rewrite Z0, C0. split; [reflexivity|]. left. exists []. split; [constructor; auto|apply text_zero; reflexivity]. }
  destruct (amap_get (cr_ev T) en) as [ri|] eqn:B.
  2: { intros [= <- <-]. rewrite Z0, C0. split; [reflexivity|]. left. exists [].
       split; [constructor; right; apply amap_unbound; exact B|apply text_zero; reflexivity]. }
  apply amap_bound in B. unfold mbind at 1, mlift at 1. destruct (zindex (cr_evre T) ri) as [r|] eqn:R; [|discriminate].
  apply zindex_Ok in R as [R0 R]. assert (Sr : sane_regex r). { rewrite Forall_forall in S2. apply S2. apply nth_error_In in R. exact R. }
  unfold mbind at 1, mget. rewrite Es. cbv zeta. unfold re_groups. destruct (re_find r ua) as [m|] eqn:F.
  2: { cbn. intros [= <- <-]. rewrite Z0, C0. split; [reflexivity|]. left. exists [].
       split; [apply (EV_nomatch _ _ _ ri r); assumption|apply text_zero; reflexivity]. }
  destruct (Nat.leb_spec 4 (length m)) as [L4|L4].
  2: { intros [= <- <-]. rewrite Z0, C0. split; [reflexivity|]. left. exists [].
       split; [apply (EV_nogroup _ _ _ ri r m); assumption|apply text_zero; reflexivity]. }
  unfold mbind, mlift, mmod. destruct (zindex m 2) as [lo|] eqn:Z1; [|discriminate].
  destruct (zindex m 3) as [hi|] eqn:Z2; [|discriminate]. intros [= <- <-]. split; [reflexivity|]. cbn.
  assert (G : Model_Parse.group m 1 = Ok (lo, hi)).
  { unfold Model_Parse.group. change (wrap8 (wrap8 (1 * 2) + 1)) with 3%Z. change (wrap8 (1 * 2)) with 2%Z. rewrite Z1. cbn [rbind]. rewrite Z2. reflexivity. }
  destruct (group_sane r ua m 1 (lo, hi) Sr L ltac:(lia) F G) as [(A1 & A2 & _)|(_ & _ & s & Cs & Ts)]; cbn [fst snd] in *.
  - right. subst lo hi. unfold slice64, encode64. change (u32 (-1)) with 4294967295%N.
    rewrite e_decode_encode by (unfold two32; lia). cbn [fst snd]. unfold slice.
    replace (4294967295 <=? N.of_nat (length ua))%N with false by (unfold small in L; lia). rewrite andb_false_r. reflexivity.
  - left. exists s. split; [apply (EV_group _ _ _ ri r m); assumption|exact Ts].
Qed.

Lemma eval_engine_spec x c c' u :
  client_sane T -> small (c_src c) -> no_engine c -> version_state (c_src c) x (c_clientVersion c) (bit flagVerConstSrc c) ->
  eval_engine T x c = (c', Ok u) ->
  engine_state (c_src c) x c' /\ others c' = others c.
Proof.
  intros S L (E0 & V0 & B0) VS H. set (ua := c_src c) in *. set (cv := c_clientVersion c) in *.
  unfold eval_engine in H. unfold mbind at 1 in H.
  (* the entry's own engine *)
  set (c1 := if (ct_engine64 x =? 0)%N then c else up_engineName (ct_engine64 x) c).
  assert (H1 : (if negb (ct_engine64 x =? 0)%N then mmod (up_engineName (ct_engine64 x)) else mret tt) c = (c1, Ok tt)).
  { unfold c1. destruct (ct_engine64 x =? 0)%N; reflexivity. }
  assert (N1 : c_engineName c1 = ct_engine64 x).
  { unfold c1. destruct (N.eqb_spec (ct_engine64 x) 0) as [E|E]; [rewrite E; exact E0|reflexivity]. }
  assert (O1 : others c1 = others c) by (unfold c1; destruct (ct_engine64 x =? 0)%N; reflexivity).
  assert (V1 : c_engineVersion c1 = 0%N /\ bit flagEngineForceBlink c1 = false).
  { unfold c1. destruct (ct_engine64 x =? 0)%N; auto. }
  rewrite H1 in H. clear H1. clearbody c1. unfold mbind at 1 in H.
  match type of H with context [match ?m c1 with _ => _ end] => destruct (m c1) as [c2 [[]|]] eqn:H2 end; [|discriminate].
  assert (A2 : own_engine T ua x (c_engineName c2) /\ others c2 = others c /\ c_engineVersion c2 = 0%N /\ bit flagEngineForceBlink c2 = false).
  { assert (Os : c_src c1 = ua) by (unfold ua, cv; unfold others, frame in O1; congruence).
    assert (Ov : c_clientVersion c1 = cv) by (unfold ua, cv; unfold others, frame in O1; congruence).
    destruct (Z.eqb_spec (ct_engineFI x) (-1)) as [EF|EF]; cbn [negb] in H2.
    - injection H2 as <-. rewrite N1. split; [apply OE_default; exact EF|]. split; [exact O1|exact V1].
    - unfold mbind, mget, mlift, mmod in H2. rewrite Os, Ov in H2.
      destruct (slice64 ua cv) as [s|] eqn:Ss; [|discriminate]. apply text_slice in Ss.
      destruct (zindex (cr_ef T) (ct_engineFI x)) as [f|] eqn:Z; [|discriminate]. apply zindex_Ok in Z as [_ Z].
      injection H2 as <-. cbn. split; [|split; [exact O1|exact V1]].
      apply (OE_function _ _ _ f s (get_major s)); [exact EF|exact Z| |apply major_spec|apply ef_threshold].
      destruct VS as [(_ & Ecv & Hne & HR)|(_ & Hc & s' & Fs & Ts)].
      + apply ES_constant; [exact HR|exact Hne|]. rewrite <- Ecv. exact Ss.
      + apply ES_fragment; [exact Hc|]. rewrite (text_fun _ _ _ _ Ss Ts). exact Fs. }
  clear H2 O1 V1 N1 c1. destruct A2 as (W2 & O2 & V2 & B2).
  assert (Os2 : c_src c2 = ua) by (unfold ua, cv; unfold others, frame in O2; congruence).
  unfold mbind at 1, mget at 1 in H. unfold mbind at 1 in H.
  match type of H with context [match ?m c2 with _ => _ end] => destruct (m c2) as [c3 [[]|]] eqn:H3 end; [|discriminate].
  assert (A3 : engine_is T ua x (c_engineName c3) /\ others c3 = others c /\ c_engineVersion c3 = 0%N /\ bit flagEngineForceBlink c3 = false).
  { destruct (N.eqb_spec (c_engineName c2) 0) as [E|E].
    - rewrite E in W2. unfold mbind, mlift, mget in H3.
      destruct (index (cr_idx T) (N.of_nat cpBrowserEngine)) as [ir|] eqn:I; [|discriminate].
      assert (EC : engine_class T = ir). { apply index_nth in I. unfold engine_class. apply nth_error_nth. exact I. }
      destruct (zindex ir (Z.of_nat (length ir) - 1)); [|discriminate].
      rewrite Os2, engine_loop_search in H3. destruct (search (ctest T ua) ir) as [[v|]|] eqn:Sr; [| |discriminate].
      + injection H3 as <-. cbn. split; [|auto]. apply EI_pattern; [exact W2|]. rewrite EC.
        apply (search_some (ctest T ua)); [|exact Sr]. intros y b. apply hit_applies.
      + injection H3 as <-. rewrite E. split; [|auto]. apply EI_none; [exact W2|]. rewrite EC.
        apply (search_none (ctest T ua)); [|exact Sr]. intros y b. apply hit_applies.
    - injection H3 as <-. split; [|auto]. apply EI_own; [exact W2|exact E]. }
  clear H3 O2 V2 B2 W2 Os2 c2. destruct A3 as (W3 & O3 & V3 & B3).
  assert (Os3 : c_src c3 = ua) by (unfold ua, cv; unfold others, frame in O3; congruence).
  unfold mbind at 1, mget at 1 in H. unfold mbind at 1 in H.
  match type of H with context [match ?m c3 with _ => _ end] => destruct (m c3) as [c4 [[]|]] eqn:H4 end; [|discriminate].
  apply (engine_version_step ua (c_engineName c3) c3 c4 tt S L Os3 eq_refl V3) in H4 as [E4 V4].
  assert (N4 : c_engineName c4 = c_engineName c3) by (rewrite E4; reflexivity).
  assert (O4 : others c4 = others c) by (rewrite E4; exact O3).
  assert (B4 : bit flagEngineForceBlink c4 = false) by (rewrite E4; exact B3).
  assert (Os4 : c_src c4 = ua) by (rewrite E4; exact Os3).
  unfold mbind, mget in H. rewrite Os4, N4 in H. rewrite <- N4 in *.
  destruct ((c_engineName c4 =? 0)%N && re_match (re_blink T) ua) eqn:Bl.
  - injection H as <- <-. split; [|rewrite others_blink; exact O4]. split; [exact W3|]. split; [exact V4|].
    change (c_engineName (set_flag flagEngineForceBlink c4)) with (c_engineName c4). rewrite Bl.
    unfold bit, set_flag. cbn. apply check_set_same.
  - injection H as <- <-. split; [|exact O4]. split; [exact W3|]. split; [exact V4|]. rewrite Bl. exact B4.
Qed.

(** *** One class, all classes *)
Definition pristine (c : ctx) : Prop :=
  no_engine c /\ c_clientType c = 0%N /\ c_clientName c = 0%N /\ c_clientVersion c = 0%N /\ bit flagVerConstSrc c = false.

Definition entry_state (ua : bytes) (idx : nat) (x : clientTuple) (c : ctx) : Prop :=
  c_clientName c = ct_browser64 x /\ version_state ua x (c_clientVersion c) (bit flagVerConstSrc c) /\
  (idx = 1 -> engine_state ua x c) /\ (idx <> 1 -> no_engine c).

Lemma eval_client_spec idx c c' b :
  client_sane T -> small (c_src c) -> pristine c -> eval_client T idx c = (c', Ok b) ->
  exists ir, nth_error (cr_idx T) idx = Some ir /\
  if b then exists x, first (client_applies T (c_src c)) ir x /\ entry_state (c_src c) idx x c' /\ frame c' = frame c
  else none (client_applies T (c_src c)) ir /\ c' = c.
Proof.
  intros S L (NE & CT & CN & CV & K) H. unfold eval_client, mbind at 1, mlift at 1 in H.
  destruct (index (cr_idx T) (N.of_nat idx)) as [ir|] eqn:I; [|discriminate].
  apply index_nth in I. rewrite Nat2N.id in I. exists ir. split; [exact I|].
  unfold mbind at 1, mlift at 1 in H. destruct (zindex ir (Z.of_nat (length ir) - 1)); [|discriminate].
  unfold mbind at 1 in H. rewrite client_loop_search in H.
  destruct (search (ctest T (c_src c)) ir) as [[x|]|] eqn:Sr; [| |discriminate].
  - destruct (client_after T x c) as [c1 [[]|]] eqn:A; cbn [rbind] in H; [|discriminate].
    pose proof (search_in _ _ _ Sr) as [Hin Hx].
    assert (Vx : (-1 <= ct_browserVI x < 64)%Z).
    { destruct S as (_ & _ & S3). rewrite Forall_forall in S3. apply nth_error_In in I. specialize (S3 _ I).
      rewrite Forall_forall in S3. exact (S3 x Hin). }
    apply (client_after_spec x c c1 tt S L Vx Hx CV K) in A as [VS Ec1].
    assert (F1 : frame c1 = frame c) by (rewrite Ec1; destruct (_ || _); reflexivity).
    assert (Fr : c_src c1 = c_src c) by (unfold frame in F1; congruence).
    assert (NE1 : no_engine c1).
    { destruct NE as (E1 & E2 & E3). rewrite Ec1. destruct (_ || _); split; auto; split; auto. unfold bit, set_flag. cbn. rewrite check_set.
      exact E3. }
    unfold mbind at 1, mmod in H. unfold mbind at 1 in H.
    destruct (Nat.eqb_spec idx cpBrowser) as [Ei|Ei].
    + destruct (eval_engine T x (up_clientName (ct_browser64 x) c1)) as [c2 [[]|]] eqn:EE; [|discriminate].
      injection H as <- <-. apply eval_engine_spec in EE as [ES O]; [|exact S|cbn; rewrite Fr; exact L|exact NE1|cbn; rewrite Fr; exact VS].
      cbn in ES. rewrite Fr in ES. exists x.
      split; [apply (search_some (ctest T (c_src c))); [intros y b; apply hit_applies|exact Sr]|].
      unfold others, frame in O. cbn in O. inversion O as [[O1 O2 O3 O4 O5 O6 O7 O8]].
      split; [|unfold frame in *; congruence].
      split; [exact O6|]. split; [rewrite O7, O8; exact VS|]. split; [intros _; exact ES|intros Hn; destruct (Hn Ei)].
    + injection H as <- <-. exists x.
      split; [apply (search_some (ctest T (c_src c))); [intros y b; apply hit_applies|exact Sr]|].
      split; [|exact F1]. split; [reflexivity|]. split; [exact VS|]. split; [intros Hn; destruct (Ei Hn)|intros _; exact NE1].
  - injection H as <- <-. split; [|reflexivity]. apply (search_none (ctest T (c_src c))); [intros y b; apply hit_applies|exact Sr].
Qed.

Lemma client_classes_order : client_classes = client_order.
Proof. reflexivity. Qed.

Lemma client_try_spec mask ua c : client_sane T -> small ua -> pristine c -> c_src c = ua -> c_maskC c = mask ->
  forall l before, client_order = before ++ l -> Forall (client_silent T mask ua) before ->
  forall c' b, client_try T l c = (c', Ok b) ->
  frame c' = frame c /\
  if b then exists idx x, client_is T mask ua (c_clientType c') idx x /\ entry_state ua idx x c'
  else no_client T mask ua /\ c' = c.
Proof.
  intros S L P Es Em. induction l as [|[typ idx] l IH]; intros before EO Si c' b H.
  - cbn in H. injection H as <- <-. split; [reflexivity|]. split; [|reflexivity]. rewrite app_nil_r in EO.
    unfold no_client. rewrite EO. exact Si.
  - cbn [client_try] in H. unfold mbind at 1, mget in H. rewrite Em in H.
    destruct (N.eqb_spec (N.land mask typ) 0) as [E0|E0]; cbn [negb] in H.
    + apply (IH (before ++ [(typ, idx)])) in H; [exact H|rewrite <- app_assoc; exact EO|].
      apply Forall_app. split; [exact Si|]. constructor; [|constructor]. intros On. destruct (On E0).
    + unfold mbind at 1 in H. destruct (eval_client T idx c) as [c1 [[]|]] eqn:E; [| |discriminate].
      * injection H as <- <-. apply eval_client_spec in E as (ir & I & x & Fx & ES & Fr); [|exact S|rewrite Es; exact L|exact P].
        rewrite Es in *. split; [exact Fr|]. exists idx, x. split; [|exact ES].
        exists before, l, ir. split; [exact EO|]. split; [exact Si|]. split; [exact E0|]. split; [exact I|exact Fx].
      * apply eval_client_spec in E as (ir & I & N & ->); [|exact S|rewrite Es; exact L|exact P].
        apply (IH (before ++ [(typ, idx)])) in H; [exact H|rewrite <- app_assoc; exact EO|].
        apply Forall_app. split; [exact Si|]. constructor; [|constructor]. intros _. exists ir. rewrite Es in N. auto.
Qed.
End Client.

(** ** The getters of the client group *)
Section Getters.
Variable T : tables.
Variables mC mD h : N.
Variable ua : bytes.

Definition client_end : ctx * res bool := client_try T client_classes (fresh_ctx mC mD h ua).

Lemma cold_client_read {A} (read : M A) :
  snd (run_cold ((ensure flagClientDetect (parse_client T) ;; plift read)%p (fresh_ctx mC mD h ua))) =
  match snd client_end with Ok _ => snd (read (set_flag flagClientDetect (fst client_end))) | Panic => Panic end.
Proof.
  unfold pbind at 1. rewrite run_cold_bind. unfold parse_client.
  rewrite (run_cold_detect_m flagClientDetect _ _ (pret tt)) by reflexivity. unfold client_end.
  destruct (client_try T client_classes (fresh_ctx mC mD h ua)) as [c [b|]]; reflexivity.
Qed.

Lemma alone_client_type : alone T mC mD h ua GClientType =
  match snd client_end with Ok _ => Ok (VN (c_clientType (fst client_end))) | Panic => Panic end.
Proof.
  unfold alone, run_getter. rewrite run_cold_pmap. unfold get_client_type. rewrite cold_client_read.
  destruct (snd client_end); reflexivity.
Qed.
Lemma alone_browser : alone T mC mD h ua GBrowser =
  match snd client_end with Ok _ => rmap VB (snd (read_browser T (set_flag flagClientDetect (fst client_end)))) | Panic => Panic end.
Proof.
  unfold alone, run_getter. rewrite run_cold_pmap. unfold get_browser. rewrite cold_client_read.
  destruct (snd client_end); reflexivity.
Qed.
Lemma alone_browser_version_string : alone T mC mD h ua GBrowserVersionString =
  match snd client_end with Ok _ => rmap VB (snd (read_browser_version T (set_flag flagClientDetect (fst client_end)))) | Panic => Panic end.
Proof.
  unfold alone, run_getter. rewrite run_cold_pmap. unfold get_browser_version_string. rewrite cold_client_read.
  destruct (snd client_end); reflexivity.
Qed.
Lemma alone_engine : alone T mC mD h ua GEngine =
  match snd client_end with Ok _ => rmap VB (snd (read_engine T (set_flag flagClientDetect (fst client_end)))) | Panic => Panic end.
Proof.
  unfold alone, run_getter. rewrite run_cold_pmap. unfold get_engine. rewrite cold_client_read.
  destruct (snd client_end); reflexivity.
Qed.
Lemma alone_engine_version_string : alone T mC mD h ua GEngineVersionString =
  match snd client_end with Ok _ => rmap VB (snd (read_engine_version (set_flag flagClientDetect (fst client_end)))) | Panic => Panic end.
Proof.
  unfold alone, run_getter. rewrite run_cold_pmap. unfold get_engine_version_string. rewrite cold_client_read.
  destruct (snd client_end); reflexivity.
Qed.

Lemma pristine_fresh : pristine (fresh_ctx mC mD h ua).
Proof. repeat split. Qed.

(** What detection leaves behind. *)
Lemma client_end_spec b : client_sane T -> small ua -> snd client_end = Ok b ->
  frame (fst client_end) = (ua, mC, mD, h) /\
  if b then exists idx x, client_is T mC ua (c_clientType (fst client_end)) idx x /\ entry_state T ua idx x (fst client_end)
  else no_client T mC ua /\ fst client_end = fresh_ctx mC mD h ua.
Proof.
  intros S L E. assert (H : client_try T client_classes (fresh_ctx mC mD h ua) = (fst client_end, Ok b)).
  { rewrite <- E. unfold client_end. destruct (client_try T client_classes (fresh_ctx mC mD h ua)); reflexivity. }
  rewrite client_classes_order in H.
  exact (client_try_spec T mC ua _ S L pristine_fresh eq_refl eq_refl client_order [] eq_refl (Forall_nil _) _ _ H).
Qed.
End Getters.

Lemma client_is_on T mC ua t idx x : client_is T mC ua t idx x -> In (t, idx) client_order /\ on mC t.
Proof.
  intros (b & a & ir & E & _ & O & _). split; [|exact O]. rewrite E. apply in_or_app. right. left. reflexivity.
Qed.

Lemma bit_other i j c : i <> j -> bit j (set_flag i c) = bit j c.
Proof. intros H. unfold bit, set_flag. cbn. apply check_set_other. exact H. Qed.

Lemma frame_hint c a b d e f : frame c = (a, b, d, e) -> c_hint (set_flag f c) = e.
Proof. unfold frame. intros H. injection H. intros <- _ _ _. reflexivity. Qed.

Lemma read_browser_version_eq T c : snd (read_browser_version T c) =
  if (0 <? c_clientVersion c)%N then
    rbind (slice64 (if bit flagVerConstSrc c then cr_buf T else c_src c) (c_clientVersion c)) (fun raw =>
      Ok (trim_right (match index_byte_at raw x2f 0 with Some p => skipn (p + 1) raw | None => raw end) x2e))
  else Ok [].
Proof.
  unfold read_browser_version, mbind, mget, bit. destruct (0 <? c_clientVersion c)%N; [|reflexivity]. unfold mlift.
  destruct (slice64 _ _); reflexivity.
Qed.
Lemma read_engine_eq T c : snd (read_engine T c) =
  if bit flagEngineForceBlink c then Ok (bs "Blink")
  else if (0 <? c_engineName c)%N then slice64 (cr_buf T) (c_engineName c) else Ok [].
Proof.
  unfold read_engine, mbind, mget, bit. destruct (check_bit _ _); [reflexivity|].
  destruct (0 <? c_engineName c)%N; reflexivity.
Qed.
Lemma read_engine_version_eq c : snd (read_engine_version c) =
  if (0 <? c_engineVersion c)%N then slice64 (c_src c) (c_engineVersion c) else Ok [].
Proof. unfold read_engine_version, mbind, mget. destruct (0 <? c_engineVersion c)%N; reflexivity. Qed.

Section Results.
Variable T : tables.
Variables mC mD h : N.
Variable ua : bytes.
Hypothesis S : client_sane T.
Hypothesis L : small ua.

Lemma client_priority t : alone T mC mD 0 ua GClientType = Ok (VN t) ->
  (t = 0%N /\ no_client T mC ua /\ alone T mC mD 0 ua GBrowser = Ok (VB (bs "UNK"))) \/
  (exists idx x, client_is T mC ua t idx x /\
     (forall name, text (cr_buf T) (ct_browser64 x) name -> ct_browser64 x <> 0%N -> alone T mC mD 0 ua GBrowser = Ok (VB name)) /\
     (ct_browser64 x = 0%N -> alone T mC mD 0 ua GBrowser = Ok (VB (bs "UNK")))).
Proof.
  rewrite alone_client_type, alone_browser. destruct (snd (client_end T mC mD 0 ua)) as [b|] eqn:E; [|discriminate].
  intros [= <-]. destruct (client_end_spec T mC mD 0 ua b S L E) as [F H]. destruct b.
  - right. destruct H as (idx & x & CI & N & _). exists idx, x. split; [exact CI|].
    unfold read_browser, mbind, mget.
    assert (Hh : c_hint (set_flag flagClientDetect (fst (client_end T mC mD 0 ua))) = 0%N) by (exact (frame_hint _ _ _ _ _ _ F)).
    rewrite Hh. cbn [negb N.eqb]. change (c_clientName (set_flag flagClientDetect (fst (client_end T mC mD 0 ua)))) with (c_clientName (fst (client_end T mC mD 0 ua))).
    rewrite N. split.
    + intros name Tx Hn. destruct (N.ltb_spec 0 (ct_browser64 x)) as [Lt|Ge]; [|lia].
      destruct (N.ltb_spec 0 (ct_browser64 x)); [|lia]. apply text_slice in Tx. unfold mlift. rewrite Tx. reflexivity.
    + intros ->. reflexivity.
  - left. destruct H as [NC Ec]. rewrite Ec. split; [reflexivity|]. split; [exact NC|reflexivity].
Qed.

Lemma browser_version s : alone T mC mD h ua GBrowserVersionString = Ok (VB s) ->
  (no_client T mC ua /\ s = []) \/
  (exists t idx x frag, client_is T mC ua t idx x /\ client_fragment T ua x frag /\ version_of_fragment frag s).
Proof.
  rewrite alone_browser_version_string. destruct (snd (client_end T mC mD h ua)) as [b|] eqn:E; [|discriminate].
  destruct (client_end_spec T mC mD h ua b S L E) as [F H]. destruct b.
  2: { destruct H as [NC Ec]. rewrite Ec. cbn. intros [= <-]. left. auto. }
  destruct H as (idx & x & CI & _ & VS & _). set (c := fst (client_end T mC mD h ua)) in *.
  assert (Es : c_src c = ua) by (unfold frame in F; congruence).
  rewrite read_browser_version_eq.
  change (c_clientVersion (set_flag flagClientDetect c)) with (c_clientVersion c).
  change (c_src (set_flag flagClientDetect c)) with (c_src c).
  rewrite bit_other by discriminate. rewrite Es. intros H. right.
  assert (St : forall frag, version_of_fragment frag
     (trim_right (match index_byte_at frag x2f 0 with Some p => skipn (p + 1) frag | None => frag end) x2e)).
  { intros frag. set (rest := match index_byte_at frag x2f 0 with Some p => skipn (p + 1) frag | None => frag end).
    destruct (trim_right_spec rest x2e) as (n & E1 & E2). exists rest, n. split; [|split; [exact E1|]].
    - unfold rest, index_byte_at. cbn [skipn]. destruct (index_byte frag x2f) as [p|] eqn:I; cbn.
      + apply index_byte_Some in I as (a & b & -> & <- & Na). right. exists a. split; [|exact Na]. f_equal. f_equal.
        replace (length a + 1) with (length (a ++ [x2f])) by (rewrite app_length; reflexivity).
        change (a ++ x2f :: b) with (a ++ [x2f] ++ b). rewrite app_assoc, skipn_app, skipn_all, Nat.sub_diag. reflexivity.
      + left. apply index_byte_None in I. auto.
    - intros y Ey. exact (E2 x2e y Ey eq_refl). }
  destruct VS as [(K & Ecv & Hne & HR)|(K & Hc & frag & Fr & Tx)]; rewrite K in H.
  - rewrite Ecv in H. replace (0 <? ct_version64 x)%N with true in H by lia.
    destruct (slice64 (cr_buf T) (ct_version64 x)) as [frag|] eqn:Sl; [|discriminate]. apply text_slice in Sl.
    cbn in H. injection H as <-. exists (c_clientType c), idx, x, frag.
    split; [exact CI|]. split; [apply CF_constant; assumption|apply St].
  - exists (c_clientType c), idx, x, frag. split; [exact CI|]. split; [exact Fr|].
    destruct (N.ltb_spec 0 (c_clientVersion c)) as [Lt|Ge].
    + apply text_slice in Tx. rewrite Tx in H. cbn in H. injection H as <-. apply St.
    + assert (c_clientVersion c = 0%N) as E0 by lia. rewrite E0 in Tx. apply text_zero in Tx as ->.
      cbn in H. injection H as <-. exact (St []).
Qed.

Lemma engine_name s : alone T mC mD h ua GEngine = Ok (VB s) ->
  (not_a_browser T mC ua /\ s = []) \/
  (exists t x e, client_is T mC ua t 1 x /\ engine_is T ua x e /\ engine_name_is T ua e s).
Proof.
  rewrite alone_engine. destruct (snd (client_end T mC mD h ua)) as [b|] eqn:E; [|discriminate].
  destruct (client_end_spec T mC mD h ua b S L E) as [F H]. destruct b.
  2: { destruct H as [NC Ec]. rewrite Ec. cbn. intros [= <-]. left. split; [left; exact NC|reflexivity]. }
  destruct H as (idx & x & CI & _ & _ & E1 & E2). set (c := fst (client_end T mC mD h ua)) in *.
  rewrite read_engine_eq.
  rewrite bit_other by discriminate. change (c_engineName (set_flag flagClientDetect c)) with (c_engineName c).
  destruct (Nat.eq_dec idx 1) as [->|Hi].
  - destruct (E1 eq_refl) as (EI & _ & B). rewrite B. intros H. right. exists (c_clientType c), x, (c_engineName c).
    split; [exact CI|]. split; [exact EI|]. destruct (N.eqb_spec (c_engineName c) 0) as [E0|E0].
    + right. destruct (re_match (re_blink T) ua) eqn:M; cbn in H.
      * left. apply match_find in M. injection H as <-. auto.
      * right. rewrite E0 in H. cbn in H. injection H as <-. split; [exact E0|]. split; [|reflexivity].
        unfold re_match in M. destruct (re_find (re_blink T) ua); congruence.
    + left. split; [exact E0|]. cbn in H. replace (0 <? c_engineName c)%N with true in H by lia.
      destruct (slice64 (cr_buf T) (c_engineName c)) as [s'|] eqn:Sl; [|discriminate]. injection H as <-. apply text_slice. exact Sl.
  - destruct (E2 Hi) as (En & _ & B). rewrite B, En. intros [= <-]. left. split; [|reflexivity].
    right. exists (c_clientType c), idx, x. auto.
Qed.

Lemma engine_version s : alone T mC mD h ua GEngineVersionString = Ok (VB s) ->
  (not_a_browser T mC ua /\ s = []) \/
  (exists t x e, client_is T mC ua t 1 x /\ engine_is T ua x e /\ engine_version_is T ua e s).
Proof.
  rewrite alone_engine_version_string. destruct (snd (client_end T mC mD h ua)) as [b|] eqn:E; [|discriminate].
  destruct (client_end_spec T mC mD h ua b S L E) as [F H]. destruct b.
  2: { destruct H as [NC Ec]. rewrite Ec. cbn. intros [= <-]. left. split; [left; exact NC|reflexivity]. }
  destruct H as (idx & x & CI & _ & _ & E1 & E2). set (c := fst (client_end T mC mD h ua)) in *.
  assert (Es : c_src c = ua) by (unfold frame in F; congruence).
  rewrite read_engine_version_eq.
  change (c_engineVersion (set_flag flagClientDetect c)) with (c_engineVersion c).
  change (c_src (set_flag flagClientDetect c)) with (c_src c). rewrite Es.
  destruct (Nat.eq_dec idx 1) as [->|Hi].
  - destruct (E1 eq_refl) as (EI & V & _). intros H. right. exists (c_clientType c), x, (c_engineName c).
    split; [exact CI|]. split; [exact EI|]. destruct V as [(s' & Ev & Tx)|P].
    + destruct (N.ltb_spec 0 (c_engineVersion c)) as [Lt|Ge].
      * apply text_slice in Tx. rewrite Tx in H. injection H as <-. exact Ev.
      * assert (c_engineVersion c = 0%N) as E0 by lia. rewrite E0 in Tx. apply text_zero in Tx as ->. injection H as <-. exact Ev.
    + destruct (N.ltb_spec 0 (c_engineVersion c)) as [Lt|Ge].
      * rewrite P in H. discriminate.
      * assert (c_engineVersion c = 0%N) as E0 by lia. rewrite E0, slice_zero in P. discriminate.
  - destruct (E2 Hi) as (_ & Ev & _). rewrite Ev. intros [= <-]. left. split; [|reflexivity].
    right. exists (c_clientType c), idx, x. auto.
Qed.

End Results.

(** The chosen client is unique, and excludes "no client". *)
Lemma order_nodup : NoDup (map fst client_order).
Proof. cbn. repeat constructor; cbn; intuition discriminate. Qed.

Lemma client_is_unique T mC ua t idx x t' idx' x' :
  client_is T mC ua t idx x -> client_is T mC ua t' idx' x' -> t = t' /\ idx = idx' /\ x = x'.
Proof.
  intros (b1 & a1 & ir1 & E1 & S1 & O1 & I1 & F1) (b2 & a2 & ir2 & E2 & S2 & O2 & I2 & F2).
  assert (forall b1 b2 a1 a2 t idx ir x t' idx' ir' x', b1 ++ (t, idx) :: a1 = b2 ++ (t', idx') :: a2 ->
    Forall (client_silent T mC ua) b2 -> on mC t -> nth_error (cr_idx T) idx = Some ir -> first (client_applies T ua) ir x ->
    Forall (client_silent T mC ua) b1 -> on mC t' -> nth_error (cr_idx T) idx' = Some ir' -> first (client_applies T ua) ir' x' ->
    t = t' /\ idx = idx' /\ x = x') as K.
  { clear. induction b1 as [|k b1 IH]; intros [|k' b2] a1 a2 t idx ir x t' idx' ir' x' E S2 O I F S1 O' I' F'; cbn in E; injection E; intros.
    - subst. rewrite I in I'. injection I' as ->. split; [reflexivity|]. split; [reflexivity|]. exact (first_unique _ _ _ _ F F').
    - subst k'. inversion S2 as [|? ? Hs _]; subst. destruct (Hs O) as (ir2 & I2 & N2). cbn in I2. rewrite I in I2. injection I2 as <-.
      destruct (first_none _ _ _ F N2).
    - subst k. inversion S1 as [|? ? Hs _]; subst. destruct (Hs O') as (ir2 & I2 & N2). cbn in I2. rewrite I' in I2. injection I2 as <-.
      destruct (first_none _ _ _ F' N2).
    - subst k'. inversion S1; inversion S2; subst. eapply IH; eassumption. }
  rewrite E1 in E2. eapply K; eassumption.
Qed.
Lemma client_is_some T mC ua t idx x : client_is T mC ua t idx x -> ~ no_client T mC ua.
Proof.
  intros (b & a & ir & E & S & O & I & F) N. unfold no_client in N. rewrite E, Forall_app in N. destruct N as [_ N].
  inversion N as [|? ? Hs _]; subst. destruct (Hs O) as (ir2 & I2 & N2). cbn in I2. rewrite I in I2. injection I2 as <-.
  exact (first_none _ _ _ F N2).
Qed.

(** "UNK" and the empty text: what they say about the other answers. *)
From Verif Require Import Model_Base Model_CacheEntry Model_Ctx Model_Parse Model_Regex Spec_Getters Spec_Select Proof_Base
  Proof_Select Proof_Tables Proof_Client Proof_OS Proof_Device Proof_Reports Proof_Choice Proof_Quirks Proof_Group.
From Coq Require Import Lia ZifyBool ZifyNat ZifyN.
Open Scope nat_scope.

(** ** Names of the tables: inside the buffer, not empty, not starting with a space. *)
Fixpoint blanks (buf : bytes) (p : positive) (t : trie) : trie :=
  match buf with
  | [] => t
  | b :: buf => blanks buf (Pos.succ p) (if beq x20 b then tput p t else t)
  end.
Lemma blanks_keep buf : forall p t q, tget q t = true -> tget q (blanks buf p t) = true.
Proof.
  induction buf as [|b buf IH]; intros p t q H; cbn [blanks]; [exact H|].
  apply IH. destruct (beq x20 b); [apply tget_keep|]; exact H.
Qed.
Lemma blanks_set buf : forall p t i, nth_error buf i = Some x20 -> tget (Pos.of_nat (i + Pos.to_nat p)) (blanks buf p t) = true.
Proof.
  induction buf as [|b buf IH]; intros p t [|i] H; try discriminate; cbn [nth_error] in H; cbn [blanks].
  - injection H as ->. cbn [Nat.add]. rewrite Pos2Nat.id. apply blanks_keep. rewrite (proj2 (beq_eq x20 x20) eq_refl). apply tget_put.
  - replace (S i + Pos.to_nat p) with (i + Pos.to_nat (Pos.succ p)) by (rewrite Pos2Nat.inj_succ; lia). apply IH. exact H.
Qed.
Definition solid_at (t : trie) (n e : N) : bool :=
  let '(lo, hi) := fast_decode e in
  if (lo <? hi)%N then if (hi <=? n)%N then negb (tget (N.succ_pos lo) t) else false else false.
Definition blen (buf : bytes) : N := fold_left (fun n _ => N.succ n) buf 0%N.
Definition solid_all (buf : bytes) (es : list N) : bool :=
  let t := blanks buf 1 TL in let n := blen buf in forallb (solid_at t n) es.
Lemma blen_len buf : blen buf = N.of_nat (length buf).
Proof.
  unfold blen. replace (N.of_nat (length buf)) with (0 + N.of_nat (length buf))%N by lia. generalize 0%N.
  induction buf as [|b l IH]; intros n; cbn [fold_left length]; [lia|]. rewrite IH. lia.
Qed.
Definition solid (s : bytes) : Prop := exists b r, s = b :: r /\ b <> x20.
Lemma solid_all_ok buf es : solid_all buf es = true -> forall e, In e es ->
  e <> 0%N /\ (exists s, text buf e s) /\ forall s, text buf e s -> solid s.
Proof.
  unfold solid_all. intros H e I. rewrite forallb_forall in H. specialize (H e I). unfold solid_at in H. rewrite fast_decode_ok in H.
  rewrite blen_len in H. unfold e_decode in H. change two32 with 4294967296%N in H. set (lo := (e / 4294967296)%N) in *. set (hi := (e mod 4294967296)%N) in *.
  destruct (N.ltb_spec lo hi) as [L|]; [|discriminate]. destruct (N.leb_spec hi (N.of_nat (length buf))) as [L2|]; [|discriminate].
  split; [|split].
  - intros ->. unfold lo, hi in L. cbn in L. lia.
  - exists (firstn (N.to_nat (hi - lo)) (skipn (N.to_nat lo) buf)), (firstn (N.to_nat lo) buf), (skipn (N.to_nat (hi - lo)) (skipn (N.to_nat lo) buf)).
    fold lo hi. rewrite (firstn_skipn (N.to_nat (hi - lo))), firstn_skipn. split; [reflexivity|]. rewrite !firstn_length, skipn_length. split; lia.
  - intros s (a & b & E & L3 & L4). fold lo hi in L3, L4. destruct s as [|x s]; [cbn [length] in L4; lia|]. exists x, s. split; [reflexivity|].
    intros ->. apply Bool.negb_true_iff in H. apply Bool.not_true_iff_false in H. apply H. rewrite <- L3.
    replace (N.succ_pos (N.of_nat (length a))) with (Pos.of_nat (length a + Pos.to_nat 1)) by lia.
    apply blanks_set. rewrite E, nth_error_app2, Nat.sub_diag by lia. reflexivity.
Qed.
Lemma solid_trim s out : solid s -> trimmed s out -> out <> [] /\ exists j, s = out ++ repeat x20 j.
Proof.
  intros (b & r & Es & Nb) (i & j & E & _ & _). destruct i as [|i]; [|cbn [repeat app] in E; congruence]. cbn [repeat app] in E.
  split; [|exists j; exact E]. intros ->. cbn [app] in E. destruct j as [|j]; cbn [repeat] in E; congruence.
Qed.
(** No name is "UNK" when these letters are not in the buffer. *)
Definition no_unk (buf : bytes) : bool := negb (contains_b buf (bs "UNK")).
Lemma no_unk_ok buf e s out j : no_unk buf = true -> text buf e s -> s = out ++ repeat x20 j -> out <> bs "UNK".
Proof.
  intros H (a & b & E & _) -> ->. apply Bool.negb_true_iff in H. apply Bool.not_true_iff_false in H. apply H. apply contains_b_iff.
  exists a, (repeat x20 j ++ b). rewrite E, <- !app_assoc. reflexivity.
Qed.
Lemma no_unk_text buf e s : no_unk buf = true -> text buf e s -> s <> bs "UNK".
Proof. intros H T. apply (no_unk_ok buf e s s 0 H T). rewrite app_nil_r. reflexivity. Qed.

(** ** Clients *)
Definition client_names (T : tables) : bool :=
  if solid_all (cr_buf T) (map ct_browser64 (concat (cr_idx T)) ++ map fst (cr_ev T)) then no_unk (cr_buf T) else false.
Lemma client_known T mC mD ua t s : client_sane T -> client_names T = true -> small ua ->
  alone T mC mD 0 ua GClientType = Ok (VN t) -> alone T mC mD 0 ua GBrowser = Ok (VB s) ->
  s <> [] /\ (s = bs "UNK" <-> t = 0%N).
Proof.
  intros S C L Ht Hs. unfold client_names in C. destruct (solid_all (cr_buf T) _) eqn:So; [|discriminate].
  destruct (priority T mC mD 0 ua t S L Ht) as (P0 & P1 & [NC|(t' & idx & x & CI)]).
  - destruct (P0 NC) as [-> E]. rewrite E in Hs. injection Hs as <-. split; [discriminate|]. split; reflexivity.
  - destruct (P1 t' idx x CI) as (-> & N & _).
    destruct (solid_all_ok _ _ So (ct_browser64 x)) as (Nz & (s' & Tx) & Sd).
    { apply in_or_app. left. apply in_map. exact (client_is_in _ _ _ _ _ _ CI). }
    rewrite (N s' Tx Nz) in Hs. injection Hs as <-. split; [destruct (Sd s' Tx) as (b & r & -> & _); discriminate|]. split.
    + intros E. destruct (no_unk_text _ _ _ C Tx E).
    + intros E. apply client_is_on in CI as [I _]. rewrite E in I. cbn in I. intuition discriminate.
Qed.
Lemma no_client_type T mC mD h ua t : client_sane T -> small ua -> alone T mC mD h ua GClientType = Ok (VN t) -> t = 0%N -> no_client T mC ua.
Proof.
  intros S L H E. destruct (priority T mC mD h ua t S L H) as (_ & P1 & [NC|(t' & idx & x & CI)]); [exact NC|].
  destruct (P1 t' idx x CI) as (<- & _). apply client_is_on in CI as [I _]. rewrite E in I. cbn in I. intuition discriminate.
Qed.
Lemma client_nothing T mC mD h ua g s : client_sane T -> small ua -> alone T mC mD h ua GClientType = Ok (VN 0) ->
  In g [GBrowserVersionString; GEngine; GEngineVersionString] -> alone T mC mD h ua g = Ok (VB s) -> s = [].
Proof.
  intros S L H I E. pose proof (no_client_type _ _ _ _ _ _ S L H eq_refl) as NC.
  assert (K : forall t idx x, ~ client_is T mC ua t idx x) by (intros t idx x CI; exact (client_is_some _ _ _ _ _ _ CI NC)).
  destruct I as [<-|[<-|[<-|[]]]].
  - destruct (browser_version T mC mD h ua S L s E) as [[_ ->]|(t & idx & x & f & CI & _)]; [reflexivity|destruct (K _ _ _ CI)].
  - destruct (engine_name T mC mD h ua S L s E) as [[_ ->]|(t & x & e & CI & _)]; [reflexivity|destruct (K _ _ _ CI)].
  - destruct (engine_version T mC mD h ua S L s E) as [[_ ->]|(t & x & e & CI & _)]; [reflexivity|destruct (K _ _ _ CI)].
Qed.
(** An engine is reported for browsers only, and an engine version only with an engine. *)
Lemma engine_browser T mC mD h ua t s : client_sane T -> small ua -> alone T mC mD h ua GClientType = Ok (VN t) ->
  alone T mC mD h ua GEngine = Ok (VB s) -> s <> [] -> t = 1%N.
Proof.
  intros S L H E Ns. destruct (engine_name T mC mD h ua S L s E) as [[_ ->]|(t' & x & e & CI & _)]; [contradiction|].
  destruct (priority T mC mD h ua t S L H) as (_ & P1 & _). destruct (P1 t' 1 x CI) as (-> & _).
  apply client_is_on in CI as [I _]. cbn in I. repeat (destruct I as [I|I]; [congruence|]). destruct I.
Qed.
Lemma engine_versioned T mC mD h ua s v : client_sane T -> client_names T = true -> small ua ->
  alone T mC mD h ua GEngine = Ok (VB s) -> alone T mC mD h ua GEngineVersionString = Ok (VB v) -> s = [] -> v = [].
Proof.
  intros S C L. unfold client_names in C. destruct (solid_all (cr_buf T) _) eqn:So; [|discriminate].
  rewrite alone_engine, alone_engine_version_string. destruct (snd (client_end T mC mD h ua)) as [b|] eqn:E; [|discriminate].
  destruct (client_end_spec T mC mD h ua b S L E) as [F H]. destruct b.
  2: { destruct H as [_ Ec]. rewrite Ec. cbn. intros _ [= <-]. reflexivity. }
  destruct H as (idx & x & CI & _ & _ & E1 & E2). set (c := fst (client_end T mC mD h ua)) in *.
  assert (Es : c_src c = ua) by (unfold frame in F; congruence).
  rewrite read_engine_eq, read_engine_version_eq. rewrite bit_other by discriminate.
  change (c_engineName (set_flag flagClientDetect c)) with (c_engineName c).
  change (c_engineVersion (set_flag flagClientDetect c)) with (c_engineVersion c).
  change (c_src (set_flag flagClientDetect c)) with (c_src c). rewrite Es.
  destruct (Nat.eq_dec idx 1) as [->|Hi].
  - destruct (E1 eq_refl) as (EI & V & B). rewrite B. intros Hn Hv ->.
    assert (E0 : c_engineName c = 0%N \/ unbound (cr_ev T) (c_engineName c)).
    { destruct (N.eqb_spec (c_engineName c) 0) as [Z|Nz]; [left; exact Z|]. right. intros kv I Ek.
      destruct (solid_all_ok _ _ So (c_engineName c)) as (_ & _ & Sd).
      { apply in_or_app. right. rewrite <- Ek. apply in_map. exact I. }
      cbn [andb] in Hn. replace (0 <? c_engineName c)%N with true in Hn by lia.
      destruct (slice64 (cr_buf T) (c_engineName c)) as [s'|] eqn:Sl; [|discriminate]. injection Hn as ->. apply text_slice in Sl.
      destruct (Sd _ Sl) as (b & r & X & _). discriminate X. }
    destruct V as [(s' & Ev & Tx)|P].
    + assert (s' = []) as -> by (assert (Nb : forall ri, c_engineName c <> 0%N -> ~ bound (cr_ev T) (c_engineName c) ri) by (intros ri Nz (l1 & l2 & El & _); destruct E0 as [Z|U]; [contradiction|]; apply (U (c_engineName c, ri)); [rewrite El; apply in_elt|reflexivity]);
        destruct Ev as [_|ri r Nz Bd|ri r m Nz Bd|ri r m w Nz Bd]; [reflexivity|destruct (Nb _ Nz Bd)|destruct (Nb _ Nz Bd)|destruct (Nb _ Nz Bd)]).
      destruct (N.ltb_spec 0 (c_engineVersion c)) as [Lt|Ge].
      * apply text_slice in Tx. rewrite Tx in Hv. injection Hv as <-. reflexivity.
      * injection Hv as <-. reflexivity.
    + destruct (N.ltb_spec 0 (c_engineVersion c)) as [Lt|Ge].
      * rewrite P in Hv. discriminate.
      * injection Hv as <-. reflexivity.
  - destruct (E2 Hi) as (_ & Ev & _). rewrite Ev. intros _ [= <-] _. reflexivity.
Qed.

(** Header hints. *)
Definition hint_names (T : tables) : bool := solid_all (hr_buf T) (map snd (hr_idx T)).
Lemma browser_some T mC mD h ua s : client_sane T -> client_names T = true -> hint_names T = true -> small ua ->
  alone T mC mD h ua GBrowser = Ok (VB s) -> s <> [].
Proof.
  intros S C Hh L E. unfold client_names in C. destruct (solid_all (cr_buf T) _) eqn:So; [|discriminate].
  destruct (browser_names T mC mD h ua s S L E) as [->|[(_ & x & I & Tx)|(_ & e & I & Tx)]]; [discriminate| |].
  - destruct (solid_all_ok _ _ So (ct_browser64 x)) as (_ & _ & Sd); [apply in_or_app; left; apply in_map; exact I|].
    destruct (Sd s Tx) as (b & r & -> & _). discriminate.
  - destruct (solid_all_ok _ _ Hh e I) as (_ & _ & Sd). destruct (Sd s Tx) as (b & r & -> & _). discriminate.
Qed.

(** ** Operating systems *)
Definition os_entry_named (srcs : list bytes) (x : osTuple) : bool :=
  if (ot_nameSI x =? -1)%Z then true
  else if (ot_nameSI x =? 1)%Z then
    match nth_error srcs (Z.to_nat (ot_matchRI x)) with Some src => if (0 <=? ot_matchRI x)%Z then group_named src else false | None => false end
  else false.
Definition os_names (T : tables) (srcs : list bytes) : bool :=
  if forallb (os_entry_named srcs) (or_os T) then
    if solid_all (or_buf T) (map ot_name64 (filter (fun x => (ot_nameSI x =? -1)%Z) (or_os T))) then no_unk (or_buf T) else false
  else false.
Lemma os_is_some T ua x : os_is T ua x -> ~ no_os T ua.
Proof. intros (l1 & l2 & E & A & _) N. apply (N x); [rewrite E; apply in_elt|exact A]. Qed.
Lemma os_is_in T ua x : os_is T ua x -> In x (or_os T).
Proof. intros (l1 & l2 & E & _). rewrite E. apply in_elt. Qed.
Lemma os_known T srcs mC mD h ua s : os_sane T -> or_re T = map compile srcs -> os_names T srcs = true -> small ua ->
  alone T mC mD h ua GOS = Ok (VB s) -> s <> [] /\ (s = bs "UNK" <-> no_os T ua).
Proof.
  intros S R C L E. unfold os_names in C. destruct (forallb (os_entry_named srcs) (or_os T)) eqn:Fe; [|discriminate].
  destruct (solid_all (or_buf T) _) eqn:So; [|discriminate]. rewrite forallb_forall in Fe.
  destruct (os_name T mC mD h ua S L s E) as [[NO ->]|(x & OI & Hn)]; [split; [discriminate|]; split; auto|].
  assert (NN : ~ no_os T ua) by exact (os_is_some _ _ _ OI).
  assert (K : s <> [] /\ s <> bs "UNK"); [|destruct K as [K1 K2]; split; [exact K1|]; split; [intros X; destruct (K2 X)|intros X; destruct (NN X)]].
  pose proof (os_is_in _ _ _ OI) as Ix. specialize (Fe x Ix). unfold os_entry_named in Fe.
  destruct (Z.eqb_spec (ot_nameSI x) (-1)) as [En|En].
  - destruct (solid_all_ok _ _ So (ot_name64 x)) as (Nz & _ & Sd).
    { apply in_map. apply filter_In. split; [exact Ix|]. apply Z.eqb_eq. exact En. }
    destruct Hn as [m w out _ (Ne & _) _ _|m _ (Ne & _) _|w out _ _ Tx Tr|_ Z]; try contradiction.
    destruct (solid_trim w out (Sd w Tx) Tr) as (N1 & j & Ej). split; [exact N1|]. exact (no_unk_ok _ _ _ _ _ C Tx Ej).
  - destruct (Z.eqb_spec (ot_nameSI x) 1) as [E1|]; [|discriminate]. destruct (nth_error srcs (Z.to_nat (ot_matchRI x))) as [src|] eqn:Nt; [|discriminate].
    destruct (Z.leb_spec 0 (ot_matchRI x)) as [Lr|]; [|discriminate].
    assert (Fm : forall m, finds T (ot_matchRI x) ua m -> re_find (compile src) ua = Some m).
    { intros m (_ & r & Nr & F). rewrite R, nth_error_map, Nt in Nr. cbn [option_map] in Nr. injection Nr as <-. exact F. }
    assert (Fx : exists m, finds T (ot_matchRI x) ua m).
    { destruct OI as (l1 & l2 & _ & (_ & A) & _). destruct A as [(_ & r & Nr & F)|(X & _)]; [|lia].
      destruct (re_find r ua) as [m|] eqn:Fm'; [|contradiction]. exists m. split; [exact Lr|]. exists r. auto. }
    destruct Hn as [m w out Fi (_ & Cp) _ Tr|m Fi (_ & Cp) _|w out Ng _ _ _|Ng _].
    + rewrite E1 in Cp. exact (proj2 (group_named_ok src ua m Fe (Fm m Fi)) w out Cp Tr).
    + rewrite E1 in Cp. destruct (proj2 (group_named_ok src ua m Fe (Fm m Fi)) [] [] Cp) as [X _]; [|contradiction].
      exists 0, 0. cbn. split; [reflexivity|]. split; intros y; discriminate || (destruct y; discriminate).
    + exfalso. destruct Fx as [m Fi]. destruct (Ng m Fi) as [X|X]; [congruence|]. rewrite E1 in X. exact (proj1 (group_named_ok src ua m Fe (Fm m Fi)) X).
    + exfalso. destruct Fx as [m Fi]. destruct (Ng m Fi) as [X|X]; [congruence|]. rewrite E1 in X. exact (proj1 (group_named_ok src ua m Fe (Fm m Fi)) X).
Qed.
Lemma os_nothing T srcs mC mD h ua s v : os_sane T -> or_re T = map compile srcs -> os_names T srcs = true -> small ua ->
  alone T mC mD h ua GOS = Ok (VB s) -> alone T mC mD h ua GOSVersionString = Ok (VB v) -> s = bs "UNK" -> v = [].
Proof.
  intros S R C L E V U. destruct (os_known T srcs mC mD h ua s S R C L E) as (_ & K & _). specialize (K U).
  destruct (os_version T mC mD h ua S L v V) as [[_ ->]|(x & w & OI & _)]; [reflexivity|]. destruct (os_is_some _ _ _ OI K).
Qed.

(** ** Devices *)
Definition brand_names (T : tables) : bool :=
  if solid_all (dr_buf T) (map dt_brand64 (concat (dr_idx T))) then
    if solid_all (vr_buf T) (map vt_brand64 (vr_idx T)) then if no_unk (dr_buf T) then no_unk (vr_buf T) else false else false
  else false.
Lemma brand_known T mC mD h ua s : device_sane T -> brand_names T = true -> short ua -> alone T mC mD h ua GBrand = Ok (VB s) ->
  s <> [] /\ forall m, alone T mC mD h ua GModel = Ok (VB m) -> s = bs "UNK" -> m = [].
Proof.
  intros S C L E. unfold brand_names in C. destruct (solid_all (dr_buf T) _) eqn:So; [|discriminate]. destruct (solid_all (vr_buf T) _) eqn:Sv; [|discriminate].
  destruct (no_unk (dr_buf T)) eqn:U; [|discriminate].
  destruct (device_brand T mC mD h ua S L s E) as [(b & idx & d & x & I & B)|[ND F]].
  - assert (Ix : In (dt_brand64 x) (map dt_brand64 (concat (dr_idx T)))).
    { apply in_map. destruct I as (bf & af & l & _ & _ & _ & El & l1 & l2 & -> & _). apply in_concat. exists (l1 ++ x :: l2).
      split; [apply nth_error_In with idx; exact El|apply in_elt]. }
    destruct (solid_all_ok _ _ So _ Ix) as (Nz & _ & Sd). destruct B as [[Z _]|(_ & w & Tx & Tr)]; [contradiction|].
    destruct (solid_trim w s (Sd w Tx) Tr) as (N1 & j & Ej). split; [exact N1|]. intros m _ X. destruct (no_unk_ok _ _ _ _ _ U Tx Ej X).
  - split.
    + destruct F as [_|_ _ _|b r w out _ _ (l1 & l2 & Ef & _) Tx Tr _|r _ _ _]; try discriminate.
      assert (Ib : In (b, r) (fragments T)) by (rewrite Ef; apply in_elt).
      unfold fragments in Ib. apply in_flat_map in Ib as (v & Iv & Ib). apply in_map_iff in Ib as (r' & Er & _). injection Er as <- _.
      destruct (solid_all_ok _ _ Sv (vt_brand64 v) (in_map _ _ _ Iv)) as (_ & _ & Sd). exact (proj1 (solid_trim w out (Sd w Tx) Tr)).
    + intros m Hm _. exact (proj2 (model_reports T mC mD h ua m S L Hm) ND).
Qed.

(** ** An empty engine although an engine pattern applies *)
Lemma engine_loop_hit T ua ir v : engine_loop T ua ir = Ok (Some v) -> In v ir /\ client_applies T ua v.
Proof.
  induction ir as [|x ir IH]; cbn [engine_loop]; [discriminate|]. unfold client_applies, applies.
  destruct (Z.leb_spec 0 (ct_matchRI x)) as [L|L].
  - destruct (zindex (cr_re T) (ct_matchRI x)) as [r|] eqn:Z; cbn [rbind]; [|discriminate]. apply zindex_Ok in Z as [_ Z].
    destruct (re_match r ua) eqn:M.
    + intros [= <-]. split; [left; reflexivity|]. left. split; [exact L|]. exists r. split; [exact Z|]. apply match_find. exact M.
    + intros H. destruct (IH H). split; [right; assumption|assumption].
  - destruct (slice64 (cr_buf T) (ct_match64 x)) as [s|] eqn:Sl; cbn [rbind]; [|discriminate].
    destruct (substr_hit ua s) eqn:M.
    + intros [= <-]. split; [left; reflexivity|]. right. split; [exact L|]. exists s. split; [apply text_slice; exact Sl|apply substr_occurs; exact M].
    + intros H. destruct (IH H). split; [right; assumption|assumption].
Qed.
Definition silent_engine (T : tables) (mC mD : N) (ua : bytes) : bool :=
  match engine_loop T ua (nth 0 (cr_idx T) []), alone T mC mD 0 ua GClientType, alone T mC mD 0 ua GEngine with
  | Ok (Some _), Ok (VN 1), Ok (VB []) => true
  | _, _, _ => false
  end.
Lemma silent_engine_ok T mC mD ua : silent_engine T mC mD ua = true ->
  (exists v, In v (engine_class T) /\ engine_applies T ua v) /\ alone T mC mD 0 ua GClientType = Ok (VN 1) /\ alone T mC mD 0 ua GEngine = Ok (VB []).
Proof.
  unfold silent_engine. destruct (engine_loop T ua (nth 0 (cr_idx T) [])) as [[v|]|] eqn:E; try discriminate. intros H. split.
  - exists v. exact (engine_loop_hit T ua _ v E).
  - destruct (alone T mC mD 0 ua GClientType) as [[[|[p|p|]]| |]|]; try discriminate. split; [reflexivity|].
    destruct (alone T mC mD 0 ua GEngine) as [[n|[|b s]|]|]; try discriminate. reflexivity.
Qed.

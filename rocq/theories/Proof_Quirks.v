(** Dead skip rules of the operating system detection, and dollar signs in reported names. *)
From Verif Require Import Model_Base Model_CacheEntry Model_Ctx Model_Parse Spec_Getters Spec_Select Proof_Base
  Proof_Select Proof_Tables Proof_Client Proof_OS Proof_Device Proof_Reports Proof_Choice Proof_Blind Proof_Panic.
From Coq Require Import Lia ZifyBool ZifyNat ZifyN.

(** ** C49 *)
Definition rule_texts : list bytes := ios_patterns ++ android_patterns.
Definition dead_check (T : tables) : bool :=
  forallb (fun r => negb (existsb (beqs (re_src r)) rule_texts)) (or_re T).
Lemma dead T : dead_check T = true -> forall ua x, ~ skipped T ua x.
Proof.
  intros D ua x (_ & r & E & H). unfold dead_check in D. rewrite forallb_forall in D. specialize (D r (nth_error_In _ _ E)).
  assert (I : In (re_src r) rule_texts) by (apply in_or_app; destruct H as [[H _]|[H _]]; auto).
  apply Bool.negb_true_iff in D. apply Bool.not_true_iff_false in D. apply D.
  apply existsb_exists. exists (re_src r). split; [exact I|apply beqs_eq; reflexivity].
Qed.
Lemma rules_case T ua ua' :
  (exists a b, ua = a ++ bs "Mac" ++ b) -> (exists a b, ua' = a ++ bs "like Android" ++ b) ->
  alone T 63 1023 0 ua GOS = Ok (VB (bs "iOS")) -> alone T 63 1023 0 ua' GOS = Ok (VB (bs "Android")) ->
  exists T ua ua', looks_mac ua /\ alone T ClientTypeAll DeviceTypeAll 0 ua GOS = Ok (VB (bs "iOS")) /\
    like_android ua' /\ alone T ClientTypeAll DeviceTypeAll 0 ua' GOS = Ok (VB (bs "Android")).
Proof.
  intros M A H1 H2. exists T, ua, ua'. split; [|split; [exact H1|split; [|exact H2]]].
  - exists (bs "Mac"). split; [left; reflexivity|]. split; [discriminate|exact M].
  - split; [discriminate|exact A].
Qed.

(** ** C50: a fast check that no text of a list of ranges contains a dollar sign *)
Inductive trie := TL | TN (l : trie) (b : bool) (r : trie).
Fixpoint tput (p : positive) (t : trie) : trie :=
  match p, t with
  | xH, TL => TN TL true TL
  | xH, TN l _ r => TN l true r
  | xO p, TL => TN (tput p TL) false TL
  | xO p, TN l b r => TN (tput p l) b r
  | xI p, TL => TN TL false (tput p TL)
  | xI p, TN l b r => TN l b (tput p r)
  end.
Fixpoint tget (p : positive) (t : trie) : bool :=
  match t with
  | TL => false
  | TN l b r => match p with xH => b | xO p => tget p l | xI p => tget p r end
  end.
Lemma tget_put p : forall t, tget p (tput p t) = true.
Proof. induction p; intros [|l b r]; cbn; auto. Qed.
Lemma tget_keep p : forall q t, tget p t = true -> tget p (tput q t) = true.
Proof. induction p; intros [q|q|] [|l b r] H; cbn in *; try discriminate; auto. Qed.

Fixpoint marks (buf : bytes) (p : positive) (t : trie) : trie :=
  match buf with
  | [] => t
  | b :: buf => marks buf (Pos.succ p) (if beq x24 b then tput p t else t)
  end.
Lemma marks_keep buf : forall p t q, tget q t = true -> tget q (marks buf p t) = true.
Proof.
  induction buf as [|b buf IH]; intros p t q H; cbn [marks]; [exact H|].
  apply IH. destruct (beq x24 b); [apply tget_keep|]; exact H.
Qed.
Lemma marks_set buf : forall p t i, nth_error buf i = Some x24 -> tget (Pos.of_nat (i + Pos.to_nat p)) (marks buf p t) = true.
Proof.
  induction buf as [|b buf IH]; intros p t [|i] H; try discriminate; cbn [nth_error] in H; cbn [marks].
  - injection H as ->. cbn [Nat.add]. rewrite Pos2Nat.id. apply marks_keep. rewrite (proj2 (beq_eq x24 x24) eq_refl). apply tget_put.
  - replace (S i + Pos.to_nat p) with (i + Pos.to_nat (Pos.succ p)) by (rewrite Pos2Nat.inj_succ; lia). apply IH. exact H.
Qed.
Fixpoint clear (n : nat) (p : positive) (t : trie) : bool :=
  match n with 0 => true | S n => negb (tget p t) && clear n (Pos.succ p) t end.
Lemma clear_get n : forall p t i, clear n p t = true -> i < n -> tget (Pos.of_nat (i + Pos.to_nat p)) t = false.
Proof.
  induction n as [|n IH]; intros p t i H Hi; [lia|]. cbn [clear] in H. apply andb_prop in H as [H1 H2]. destruct i as [|i].
  - cbn [Nat.add]. rewrite Pos2Nat.id. apply Bool.negb_true_iff. exact H1.
  - replace (S i + Pos.to_nat p) with (i + Pos.to_nat (Pos.succ p)) by (rewrite Pos2Nat.inj_succ; lia). apply IH; [exact H2|lia].
Qed.
Definition clean_at (t : trie) (e : N) : bool :=
  let '(lo, hi) := fast_decode e in clear (N.to_nat (hi - lo)) (N.succ_pos lo) t.
Definition clean_all (buf : bytes) (es : list N) : bool := let t := marks buf 1 TL in forallb (clean_at t) es.
Lemma clean_all_ok buf es : clean_all buf es = true -> forall e s, In e es -> text buf e s -> ~ In x24 s.
Proof.
  unfold clean_all. intros H e s I (a & b & -> & L1 & L2) D. rewrite forallb_forall in H. specialize (H e I). unfold clean_at in H.
  rewrite fast_decode_ok in H. unfold e_decode in H. change two32 with 4294967296%N in H. rewrite <- L1, <- L2 in H.
  apply In_nth_error in D as [i D]. assert (Hi : i < length s) by (apply nth_error_Some; congruence).
  pose proof (clear_get _ _ _ i H ltac:(lia)) as X. apply Bool.not_true_iff_false in X. apply X.
  replace (i + Pos.to_nat (N.succ_pos (N.of_nat (length a)))) with ((length a + i) + Pos.to_nat 1).
  - apply marks_set. rewrite nth_error_app2 by lia. replace (length a + i - length a) with i by lia. rewrite nth_error_app1 by exact Hi. exact D.
  - destruct (length a) as [|k]; [cbn; lia|]. cbn [N.of_nat N.succ_pos]. rewrite Pos2Nat.inj_succ, SuccNat2Pos.id_succ. cbn. lia.
Qed.

(** Names of the tables. *)
Lemma client_is_in T mC ua t idx x : client_is T mC ua t idx x -> In x (concat (cr_idx T)).
Proof.
  intros (_ & _ & ir & _ & _ & _ & E & l1 & l2 & -> & _). apply in_concat. exists (l1 ++ x :: l2).
  split; [apply nth_error_In with idx; exact E|apply in_elt].
Qed.
Lemma browser_names T mC mD h ua s : client_sane T -> small ua -> alone T mC mD h ua GBrowser = Ok (VB s) ->
  s = bs "UNK" \/ (h = 0%N /\ exists x, In x (concat (cr_idx T)) /\ text (cr_buf T) (ct_browser64 x) s) \/
  (h <> 0%N /\ exists e, In e (map snd (hr_idx T)) /\ text (hr_buf T) e s).
Proof.
  intros S L. rewrite alone_browser. destruct (snd (client_end T mC mD h ua)) as [b|] eqn:E; [|discriminate].
  destruct (client_end_spec T mC mD h ua b S L E) as [F H]. unfold read_browser, mbind, mget, mlift.
  rewrite (frame_hint _ _ _ _ _ flagClientDetect F).
  change (c_clientName (set_flag flagClientDetect (fst (client_end T mC mD h ua)))) with (c_clientName (fst (client_end T mC mD h ua))).
  destruct (N.eqb_spec h 0) as [->|Hh]; cbn [negb].
  - destruct (N.ltb_spec 0 (c_clientName (fst (client_end T mC mD 0 ua)))) as [Lt|Ge].
    + replace (0 <? c_clientName (fst (client_end T mC mD 0 ua)))%N with true by lia.
      destruct b; [|destruct H as [_ Ec]; rewrite Ec in Lt; cbn in Lt; lia].
      destruct H as (idx & x & CI & N & _). rewrite N. cbn [snd]. destruct (slice64 (cr_buf T) (ct_browser64 x)) as [w|] eqn:Sl; intros R; [|discriminate R].
      injection R as <-. apply text_slice in Sl. right. left. split; [reflexivity|]. exists x. split; [exact (client_is_in _ _ _ _ _ _ CI)|exact Sl].
    + cbn. intros [= <-]. auto.
  - destruct (amap_get (hr_idx T) h) as [e|] eqn:A; [|cbn; intros [= <-]; auto].
    destruct (N.ltb_spec 0 e) as [Lt|Ge]; [|cbn; intros [= <-]; auto].
    cbn [snd]. destruct (slice64 (hr_buf T) e) as [w|] eqn:Sl; intros R; [|discriminate R].
    injection R as <-. apply text_slice in Sl. right. right. split; [exact Hh|]. exists e. split; [|exact Sl].
    apply amap_bound in A as (l1 & l2 & -> & _). apply in_map_iff. exists (h, e). split; [reflexivity|apply in_elt].
Qed.

Definition dollar (s : bytes) : bool := existsb (beq x24) s.
Lemma dollar_in s : In x24 s -> dollar s = true.
Proof. intros H. apply existsb_exists. exists x24. split; [exact H|apply beq_eq; reflexivity]. Qed.

(** Entries whose range is clean, others sliced and compared with the list of known names. *)
Definition known_all (buf : bytes) (es : list N) (names : list bytes) : bool :=
  let t := marks buf 1 TL in
  forallb (fun e => clean_at t e || match slice64 buf e with Ok s => existsb (beqs s) names | Panic => true end) es.
Lemma known_all_ok buf es names : known_all buf es names = true -> forall e s, In e es -> text buf e s -> In x24 s -> In s names.
Proof.
  unfold known_all. intros H e s I Tx D. rewrite forallb_forall in H. specialize (H e I). apply orb_prop in H as [H|H].
  - exfalso. apply (clean_all_ok buf [e]) with (e := e) (s := s); [|left; reflexivity|exact Tx|exact D].
    unfold clean_all. cbn [forallb]. rewrite H. reflexivity.
  - apply text_slice in Tx. rewrite Tx in H. apply existsb_exists in H as (w & Iw & B). apply beqs_eq in B. subst w. exact Iw.
Qed.
Definition names_check (T : tables) (names : list bytes) : bool :=
  known_all (cr_buf T) (map ct_browser64 (concat (cr_idx T))) names &&
  clean_all (hr_buf T) (map snd (hr_idx T)).
Lemma names_known T names mC mD h ua s : client_sane T -> names_check T names = true -> small ua ->
  alone T mC mD h ua GBrowser = Ok (VB s) -> In x24 s -> h = 0%N /\ In s names.
Proof.
  intros S C L H D. unfold names_check in C. apply andb_prop in C as [C1 C2].
  destruct (browser_names T mC mD h ua s S L H) as [->|[(Hh & x & I & Tx)|(Hh & e & I & Tx)]].
  - repeat (destruct D as [D|D]; [discriminate D|]). destruct D.
  - split; [exact Hh|]. apply (known_all_ok _ _ _ C1 (ct_browser64 x) s); [apply in_map; exact I|exact Tx|exact D].
  - destruct (clean_all_ok _ _ C2 e s I Tx D).
Qed.

(** Engines. *)
Definition engine_texts (T : tables) : list N :=
  map ct_engine64 (concat (cr_idx T)) ++ map ct_browser64 (nth 0 (cr_idx T) []) ++
  flat_map (fun f => snd f :: map snd (fst f)) (cr_ef T).
Lemma engine_in T mC ua t x e : client_is T mC ua t 1 x -> engine_is T ua x e -> e = 0%N \/ In e (engine_texts T).
Proof.
  intros CI EI. apply client_is_in in CI.
  assert (O : forall e, own_engine T ua x e -> In e (engine_texts T)).
  { intros e' [_|f s m e'' _ Nf _ _ Th]; unfold engine_texts.
    - apply in_or_app. left. apply in_map. exact CI.
    - apply in_or_app. right. apply in_or_app. right. apply in_flat_map. exists f. split; [exact (nth_error_In _ _ Nf)|].
      destruct Th as [(t' & l1 & l2 & E & _)|[_ ->]]; [|left; reflexivity].
      right. apply in_map_iff. exists (t', e''). split; [reflexivity|]. rewrite E. apply in_elt. }
  destruct EI as [e' Ow _|v _ (l1 & l2 & E & _)|_]; [right; auto| |left; reflexivity].
  right. unfold engine_texts. apply in_or_app. right. apply in_or_app. left. apply in_map. unfold engine_class in E. rewrite E. apply in_elt.
Qed.
Lemma engine_clean T mC mD h ua s : client_sane T -> clean_all (cr_buf T) (engine_texts T) = true -> small ua ->
  alone T mC mD h ua GEngine = Ok (VB s) -> ~ In x24 s.
Proof.
  intros S C L H. destruct (engine_name T mC mD h ua S L s H) as [[_ ->]|(t & x & e & CI & EI & [[Ne Tx]|[(_ & _ & ->)|(_ & _ & ->)]])].
  - intros [].
  - destruct (engine_in _ _ _ _ _ _ CI EI) as [E0|I]; [contradiction|]. exact (clean_all_ok _ _ C e s I Tx).
  - intros D. repeat (destruct D as [D|D]; [discriminate D|]). destruct D.
  - intros [].
Qed.

(** Brands. *)
Lemma trimmed_in (w s : bytes) b : trimmed w s -> In b s -> In b w.
Proof. intros (i & j & -> & _) I. apply in_or_app. right. apply in_or_app. left. exact I. Qed.
Definition brand_check (T : tables) : bool :=
  clean_all (dr_buf T) (map dt_brand64 (concat (dr_idx T))) && clean_all (vr_buf T) (map vt_brand64 (vr_idx T)).
Lemma brand_clean T mC mD h ua s : device_sane T -> brand_check T = true -> short ua ->
  alone T mC mD h ua GBrand = Ok (VB s) -> ~ In x24 s.
Proof.
  intros S C L H D. apply andb_prop in C as [C1 C2].
  destruct (device_brand T mC mD h ua S L s H) as [(b & idx & d & x & I & B)|[_ F]].
  - destruct B as [[_ ->]|(_ & w & Tx & Tr)].
    + repeat (destruct D as [D|D]; [discriminate D|]). destruct D.
    + apply (clean_all_ok _ _ C1 (dt_brand64 x) w); [|exact Tx|exact (trimmed_in _ _ _ Tr D)].
      apply in_map. destruct I as (bf & af & l & _ & _ & _ & E & l1 & l2 & -> & _). apply in_concat. exists (l1 ++ x :: l2).
      split; [apply nth_error_In with idx; exact E|apply in_elt].
  - assert (U : ~ In x24 (bs "UNK")) by (intros X; repeat (destruct X as [X|X]; [discriminate X|]); destruct X).
    destruct F as [_|_ _ _|b r w out _ _ (l1 & l2 & E & _) Tx Tr _|r _ _ _]; try exact (U D).
    apply (clean_all_ok _ _ C2 b w); [|exact Tx|exact (trimmed_in _ _ _ Tr D)].
    assert (I : In (b, r) (fragments T)) by (rewrite E; apply in_elt).
    unfold fragments in I. apply in_flat_map in I as (v & Iv & I). apply in_map_iff in I as (r' & Er & _). injection Er as <- _.
    apply in_map. exact Iv.
Qed.

(** Operating systems: a dollar sign can only come from the user agent. *)
Lemma os_clean T mC mD h ua s : os_sane T -> clean_all (or_buf T) (map ot_name64 (or_os T)) = true -> small ua ->
  alone T mC mD h ua GOS = Ok (VB s) -> In x24 s -> In x24 ua.
Proof.
  intros S C L H D.
  assert (U : ~ In x24 (bs "UNK")) by (intros X; repeat (destruct X as [X|X]; [discriminate X|]); destruct X).
  destruct (os_name T mC mD h ua S L s H) as [[_ ->]|(x & I & Hn)]; [destruct (U D)|].
  destruct Hn as [m w out _ (_ & a & b & -> & _) _ Tr|m _ _ _|w out _ _ Tx Tr|_ _].
  - apply in_or_app. right. apply in_or_app. left. exact (trimmed_in _ _ _ Tr D).
  - destruct (U D).
  - exfalso. apply (clean_all_ok _ _ C (ot_name64 x) w); [|exact Tx|exact (trimmed_in _ _ _ Tr D)].
    destruct I as (l1 & l2 & E & _). apply in_map. rewrite E. apply in_elt.
  - destruct (U D).
Qed.

(** ** C51: several getters at once *)

Definition res_eqb (x y : res value) : bool :=
  match x, y with
  | Ok (VB a), Ok (VB b) => beqs a b
  | Ok (VN a), Ok (VN b) => (a =? b)%N
  | Panic, Panic => true
  | _, _ => false
  end.
Lemma res_eqb_eq x y : res_eqb x y = true -> x = y.
Proof.
  destruct x as [[a|a|a]|], y as [[b|b|b]|]; cbn; intros H; try discriminate; try reflexivity.
  - apply N.eqb_eq in H. congruence.
  - apply beqs_eq in H. congruence.
Qed.

Lemma readme_case (T : tables) (claims : list (getter * res value)) (ua : bytes) (g : getter) (v w : res value) :
  In (g, v) claims -> v <> w -> res_eqb (alone T 63 1023 0 ua g) w = true ->
  exists g v, In (g, v) claims /\ alone T ClientTypeAll DeviceTypeAll 0 ua g <> v.
Proof. intros I N H. apply res_eqb_eq in H. exists g, v. split; [exact I|]. change (alone T 63 1023 0 ua g <> v). congruence. Qed.

(** ** C52 *)
Lemma os_settings T ua g mC mD h mC' mD' h' : In g [GOS; GOSVersion; GOSVersionString] ->
  alone T mC' mD' h' ua g = alone T mC mD h ua g.
Proof. intros I. apply setting_ignored; intros H; repeat (destruct I as [<-|I]; [discriminate H|]); destruct I. Qed.
Lemma device_settings T ua g mC mD h mC' h' : In g [GDeviceType; GBrand; GModel] ->
  alone T mC' mD h' ua g = alone T mC mD h ua g.
Proof. intros I. apply setting_ignored; intros H; try reflexivity; repeat (destruct I as [<-|I]; [discriminate H|]); destruct I. Qed.
Lemma client_settings T ua g mC mD h mD' h' :
  In g [GClientType; GBrowser; GBrowserVersion; GBrowserVersionString; GEngine; GEngineVersion; GEngineVersionString] ->
  alone T mC mD' h ua g = alone T mC mD h ua g /\ (g <> GBrowser -> alone T mC mD' h' ua g = alone T mC mD h ua g).
Proof.
  intros I. split; [|intros NB]; apply setting_ignored; intros H; try reflexivity;
  repeat (destruct I as [<-|I]; [try discriminate H; try contradiction|]); destruct I.
Qed.

(** Models: likewise.  The texts that are copied unexpanded: those of models with a fixed text, and the single models of
    entries with a fixed text. *)
Definition fixed_models (T : tables) : list N :=
  map mt_model64 (filter (fun m => (mt_matchRI m <? 0)%Z && negb (mt_match64 m =? 0)%N) (dr_dm T)) ++
  flat_map (fun x => if (dt_modelSI x =? -1)%Z then [] else if (dt_matchRI x <? 0)%Z then
    match nth_error (dr_dm T) (Z.to_nat (dt_modelSI x)) with Some m => [mt_model64 m] | None => [] end else []) (concat (dr_idx T)).
Lemma expands_in m ua tpl out : expands m ua tpl out -> In x24 out -> In x24 ua.
Proof.
  assert (Cp : forall i s, captured m i ua s -> In x24 s -> In x24 ua).
  { intros i s (a & b & -> & _) I. apply in_or_app. right. apply in_or_app. left. exact I. }
  induction 1 as [s N|pre d rest s out N _ C _ IH|pre rest s out N C _ IH|pre d rest N _]; intros D; try contradiction;
    apply in_app_or in D as [D|D]; try contradiction; apply in_app_or in D as [D|D]; eauto.
Qed.
Lemma model_clean T mC mD h ua s : device_sane T -> clean_all (dr_buf T) (fixed_models T) = true -> short ua ->
  alone T mC mD h ua GModel = Ok (VB s) -> In x24 s -> In x24 ua.
Proof.
  intros S C L H D. destruct (device_model T mC mD h ua S L s H) as [(b & idx & def & x & w & I & Tx & Tr)|[_ ->]]; [|destruct D].
  apply (trimmed_in _ _ _ Tr) in D. clear Tr s H.
  assert (Ix : In x (concat (dr_idx T))).
  { destruct I as (bf & af & l & _ & _ & _ & E & l1 & l2 & -> & _). apply in_concat. exists (l1 ++ x :: l2).
    split; [apply nth_error_In with idx; exact E|apply in_elt]. }
  destruct Tx as [_|ri m s Mi Lr Ts|ri m r ms tpl out _ _ _ _ _ Ex]; [destruct D| |exact (expands_in _ _ _ _ Ex D)].
  exfalso. apply (clean_all_ok _ _ C (mt_model64 m) s); [|exact Ts|exact D]. unfold fixed_models. apply in_or_app.
  inversion Mi as [m' Ni N E1|m' Ei Ns F E1|]; subst.
  - right. apply in_flat_map. exists x. split; [exact Ix|]. replace (dt_modelSI x =? -1)%Z with false by lia.
    replace (dt_matchRI x <? 0)%Z with true by lia. rewrite N. left. reflexivity.
  - left. apply in_map. apply filter_In. destruct F as (l1 & l2 & E & Ap & _). split.
    + apply (in_range (dr_dm T) (dt_models64 x)). unfold models in E. rewrite E. apply in_elt.
    + apply andb_true_intro. split; [lia|]. apply negb_true_iff, N.eqb_neq. intros Z0.
      destruct Ap as [[X _]|(_ & t & Tt & Ne & _)]; [lia|]. rewrite Z0 in Tt. apply Ne. apply text_zero in Tt; exact Tt.
Qed.

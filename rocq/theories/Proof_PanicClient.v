(** The client getters panic exactly when the chosen entry names a group its pattern does not have. *)
From Verif Require Import Model_Base Model_CacheEntry Model_Version Model_Ctx Model_Parse Model_Regex Spec_Version
  Spec_Getters Spec_Select Spec_Panic Proof_Base Proof_Local Proof_Safe Proof_Getters Proof_Regex Proof_Sets Proof_Select
  Proof_Client Proof_OS Proof_Device Proof_Panic.
From Coq Require Import Lia ZifyBool ZifyNat ZifyN.

Section Client.
Variable T : tables.

Definition fn_fine (f : engineFn) : Prop := Forall (fun p => fits (cr_buf T) (snd p)) (fst f) /\ fits (cr_buf T) (snd f).
Definition client_fine (x : clientTuple) : Prop :=
  ((0 <= ct_matchRI x)%Z -> exists r, zindex (cr_re T) (ct_matchRI x) = Ok r) /\
  ((ct_matchRI x < 0)%Z -> fits (cr_buf T) (ct_match64 x)) /\
  fits (cr_buf T) (ct_browser64 x) /\ fits (cr_buf T) (ct_engine64 x) /\ fits (cr_buf T) (ct_version64 x) /\
  (ct_engineFI x = (-1)%Z \/ (ct_version64 x = 0%N /\ exists f, zindex (cr_ef T) (ct_engineFI x) = Ok f /\ fn_fine f)).
Definition client_table_fine : Prop :=
  length (cr_idx T) = 7 /\ Forall (fun ir => ir <> [] /\ Forall client_fine ir) (cr_idx T) /\
  Forall (fun p => exists r, zindex (cr_evre T) (snd p) = Ok r) (cr_ev T) /\
  Forall (always_group 1) (cr_evre T) /\
  Forall (fun p => fits (hr_buf T) (snd p)) (hr_idx T).

Hypothesis S : client_sane T.
Hypothesis TF : client_table_fine.

Lemma ctest_fine ua x : client_fine x -> exists b, ctest T ua x = Ok b.
Proof. intros (H1 & H2 & _). apply hit_fine; assumption. Qed.

Lemma after_cases x c : client_fine x -> (-1 <= ct_browserVI x < 64)%Z -> ctest T (c_src c) x = Ok true ->
  (exists c', client_after T x c = (c', Ok tt)) /\ ~ missing_group T (c_src c) x \/
  snd (client_after T x c) = Panic /\ missing_group T (c_src c) x.
Proof.
  intros (H1 & _) V Ht. unfold client_after. unfold ctest, hit in Ht. destruct (Z.leb_spec 0 (ct_matchRI x)) as [R|R].
  2: { left. split; [eexists; reflexivity|]. intros (r & m & Q & _). lia. }
  destruct (H1 R) as [r Zr]. rewrite Zr in Ht |- *. cbn [rbind] in Ht. apply ok_inj in Ht. unfold re_match in Ht.
  destruct (re_find r (c_src c)) as [m|] eqn:F; [|discriminate]. apply zindex_Ok in Zr as [_ Zr].
  assert (Miss : missing_group T (c_src c) x -> ct_version64 x = 0%N /\ (0 <= ct_browserVI x < Z.of_nat (length m))%Z /\
                 (Z.of_nat (length m) <= 2 * ct_browserVI x + 1)%Z).
  { intros (r' & m' & _ & Q1 & Q2 & Q3 & Q4 & Q5). rewrite Zr in Q2. injection Q2 as <-. rewrite F in Q3. injection Q3 as <-. auto. }
  unfold client_version. destruct (N.eqb_spec (ct_version64 x) 0) as [E0|E0]; cbn [negb].
  2: { left. split; [eexists; reflexivity|]. intros Q. apply Miss in Q as [Q _]. contradiction. }
  destruct (Z.eqb_spec (ct_browserVI x) (-1)) as [Ev|Ev]; cbn [negb].
  { left. split; [eexists; reflexivity|]. intros Q. apply Miss in Q. lia. }
  unfold mbind, mget, mlift. cbv zeta. unfold re_groups. rewrite F.
  destruct (Z.ltb_spec (ct_browserVI x) (Z.of_nat (length m))) as [Lm|Lm].
  2: { left. split; [eexists; reflexivity|]. intros Q. apply Miss in Q. lia. }
  rewrite (wrap8_small (ct_browserVI x * 2)) by lia. rewrite wrap8_small by lia.
  assert (Ze : forall i, (0 <= i < Z.of_nat (length m))%Z -> exists z, zindex m i = Ok z).
  { intros i B. destruct (nth_error m (Z.to_nat i)) as [z|] eqn:N.
    - exists z. apply zindex_Ok. split; [lia|exact N].
    - apply nth_error_None in N. lia. }
  destruct (Z_lt_dec (ct_browserVI x * 2 + 1) (Z.of_nat (length m))) as [Lt|Ge].
  - left. destruct (Ze (ct_browserVI x * 2)%Z ltac:(lia)) as [lo E1]. destruct (Ze (ct_browserVI x * 2 + 1)%Z ltac:(lia)) as [hi E2].
    rewrite E1, E2. split.
    + destruct (_ && _); eexists; reflexivity.
    + intros Q. apply Miss in Q. lia.
  - right. split.
    + destruct (zindex m (ct_browserVI x * 2)) as [lo|]; [|reflexivity].
      destruct (zindex m (ct_browserVI x * 2 + 1)) as [hi|] eqn:E2; [|reflexivity].
      apply zindex_Ok in E2 as [_ E2]. assert (nth_error m (Z.to_nat (ct_browserVI x * 2 + 1)) <> None) as Q by congruence.
      apply nth_error_Some in Q. lia.
    + exists r, m. repeat split; try assumption; lia.
Qed.

Lemma threshold_fits ua x e : client_fine x -> own_engine T ua x e -> fits (cr_buf T) e.
Proof.
  intros (_ & _ & _ & F & _ & Fe) W. destruct W as [_|f s mj e N1 Nf _ _ Th]; [exact F|].
  destruct Fe as [Fe|(_ & f' & Zf & F1 & F2)]; [contradiction|]. apply zindex_Ok in Zf as [_ Zf]. rewrite Nf in Zf. injection Zf as <-. unfold threshold in Th.
  destruct Th as [(t & l1 & l2 & El & _)|[_ ->]]; [|exact F2]. rewrite Forall_forall in F1. apply (F1 (t, e)). rewrite El.
  apply in_or_app. right. left. reflexivity.
Qed.
Lemma engine_fits ua x e : client_fine x -> engine_is T ua x e -> fits (cr_buf T) e.
Proof.
  intros Fx E. destruct E as [e Ow _|y Ow Fy|_ _].
  - exact (threshold_fits ua x _ Fx Ow).
  - destruct TF as (L7 & Fi & _). assert (I : In (engine_class T) (cr_idx T)).
    { unfold engine_class. apply nth_In. lia. }
    rewrite Forall_forall in Fi. destruct (Fi _ I) as [_ Fc]. rewrite Forall_forall in Fc.
    destruct (Fc _ (first_in _ _ _ Fy)) as (_ & _ & Q & _). exact Q.
  - apply fits_zero.
Qed.

Lemma engine_version_fits ua en : small ua -> forall c c' u, c_src c = ua -> c_engineVersion c = 0%N ->
  (if negb (en =? 0)%N then
      match amap_get (cr_ev T) en with
      | Some ri =>
          (re <- mlift (zindex (cr_evre T) ri) ;;
          src <- mget c_src ;;
          let m := re_groups re src in
          if 4 <=? length m then
            lo <- mlift (zindex m 2) ;;
            hi <- mlift (zindex m 3) ;;
            mmod (up_engineVersion (encode64 lo hi))
          else mret tt)%m
      | None => mret tt
      end
    else mret tt) c = (c', Ok u) -> fits ua (c_engineVersion c').
Proof.
  intros L c c' u Es Z0. destruct TF as (_ & _ & _ & Fg & _).
  assert (F0 : fits ua (c_engineVersion c)) by (rewrite Z0; apply fits_zero).
  destruct (negb (en =? 0)%N); [|intros [= <- <-]; exact F0].
  destruct (amap_get (cr_ev T) en) as [ri|]; [|intros [= <- <-]; exact F0].
  unfold mbind at 1, mlift at 1. destruct (zindex (cr_evre T) ri) as [r|] eqn:R; [|discriminate].
  apply zindex_Ok in R as [_ R]. rewrite Forall_forall in Fg. specialize (Fg r (nth_error_In _ _ R)).
  unfold mbind at 1, mget. rewrite Es. cbv zeta. unfold re_groups. destruct (re_find r ua) as [m|] eqn:F; [|intros [= <- <-]; exact F0].
  destruct (4 <=? length m); [|intros [= <- <-]; exact F0].
  destruct (Fg _ _ F) as (lo & hi & N1 & N2 & B1 & B2). cbn in N1, N2.
  assert (Z1 : zindex m 2 = Ok lo) by (apply zindex_Ok; split; [lia|exact N1]).
  assert (Z2 : zindex m 3 = Ok hi) by (apply zindex_Ok; split; [lia|exact N2]).
  unfold mbind, mlift, mmod. rewrite Z1, Z2. intros [= <- <-]. cbn [c_engineVersion up_engineVersion].
  destruct (sub_text ua lo hi B1 B2 L) as (a & s & b & _ & _ & _ & Tx). apply text_slice in Tx. exists s. exact Tx.
Qed.
Lemma engine_version_fine en c : (if negb (en =? 0)%N then
      match amap_get (cr_ev T) en with
      | Some ri =>
          (re <- mlift (zindex (cr_evre T) ri) ;;
          src <- mget c_src ;;
          let m := re_groups re src in
          if 4 <=? length m then
            lo <- mlift (zindex m 2) ;;
            hi <- mlift (zindex m 3) ;;
            mmod (up_engineVersion (encode64 lo hi))
          else mret tt)%m
      | None => mret tt
      end
    else mret tt) c = (fst ((if negb (en =? 0)%N then
      match amap_get (cr_ev T) en with
      | Some ri =>
          (re <- mlift (zindex (cr_evre T) ri) ;;
          src <- mget c_src ;;
          let m := re_groups re src in
          if 4 <=? length m then
            lo <- mlift (zindex m 2) ;;
            hi <- mlift (zindex m 3) ;;
            mmod (up_engineVersion (encode64 lo hi))
          else mret tt)%m
      | None => mret tt
      end
    else mret tt) c), Ok tt).
Proof.
  destruct TF as (_ & _ & Fv & _ & _). destruct (negb (en =? 0)%N); [|reflexivity].
  destruct (amap_get (cr_ev T) en) as [ri|] eqn:A; [|reflexivity]. apply amap_bound in A as (l1 & l2 & El & _).
  rewrite Forall_forall in Fv. destruct (Fv (en, ri)) as [r Zr]; [rewrite El; apply in_or_app; right; left; reflexivity|].
  cbn [snd] in Zr. unfold mbind at 1, mlift at 1. rewrite Zr. unfold mbind at 3, mlift at 3. unfold mbind at 1, mget at 1. cbv zeta.
  destruct (4 <=? length (re_groups r (c_src c))) eqn:L4; [|unfold mbind, mlift, mget; rewrite L4; reflexivity].
  set (m := re_groups r (c_src c)) in *.
  assert (Ze : forall i, (0 <= i < Z.of_nat (length m))%Z -> exists z, zindex m i = Ok z).
  { intros i B. destruct (nth_error m (Z.to_nat i)) as [z|] eqn:N.
    - exists z. apply zindex_Ok. split; [lia|exact N].
    - apply nth_error_None in N. lia. }
  destruct (Ze 2%Z ltac:(lia)) as [lo E1]. destruct (Ze 3%Z ltac:(lia)) as [hi E2].
  unfold mbind, mlift, mget. fold m. rewrite L4, E1, E2. reflexivity.
Qed.

(** Running one step that succeeds. *)
Lemma step {A B} (a : M A) (f : A -> M B) c c' x : a c = (c', Ok x) -> mbind a f c = f x c'.
Proof. intros E. unfold mbind. rewrite E. reflexivity. Qed.

Lemma eval_engine_fine x c : small (c_src c) -> no_engine c -> client_fine x ->
  version_state T (c_src c) x (c_clientVersion c) (bit flagVerConstSrc c) ->
  exists c', eval_engine T x c = (c', Ok tt) /\ fits (c_src c) (c_engineVersion c').
Proof.
  intros L (E0 & V0 & B0) Fx VS. set (ua := c_src c) in *. unfold eval_engine.
  set (c1 := if (ct_engine64 x =? 0)%N then c else up_engineName (ct_engine64 x) c).
  assert (H1 : (if negb (ct_engine64 x =? 0)%N then mmod (up_engineName (ct_engine64 x)) else mret tt) c = (c1, Ok tt))
    by (unfold c1; destruct (ct_engine64 x =? 0)%N; reflexivity).
  assert (O1 : c_src c1 = ua /\ c_engineVersion c1 = 0%N /\ c_clientVersion c1 = c_clientVersion c)
    by (unfold c1; destruct (ct_engine64 x =? 0)%N; auto).
  rewrite (step _ _ _ _ _ H1). clear H1. clearbody c1. destruct O1 as (S1 & V1 & W1).
  match goal with |- context [mbind ?m _ c1] => assert (H2 : exists c2, m c1 = (c2, Ok tt) /\ c_src c2 = ua /\ c_engineVersion c2 = 0%N) end.
  { destruct (Z.eqb_spec (ct_engineFI x) (-1)) as [EF|EF]; cbn [negb]; [eexists; split; [reflexivity|auto]|].
    destruct Fx as (_ & _ & _ & _ & _ & [Q|[Q [f [Zf _]]]]); [contradiction|].
    destruct VS as [(_ & _ & Hn & _)|(_ & _ & s & _ & Tx)]; [contradiction|]. apply text_slice in Tx.
    unfold mbind, mget, mlift, mmod. rewrite S1, W1, Tx, Zf. eexists. split; [reflexivity|]. auto. }
  destruct H2 as (c2 & H2 & S2 & V2). rewrite (step _ _ _ _ _ H2). clear H2.
  unfold mbind at 1, mget at 1.
  match goal with |- context [mbind ?m _ c2] => assert (H3 : exists c3, m c2 = (c3, Ok tt) /\ c_src c3 = ua /\ c_engineVersion c3 = 0%N) end.
  { destruct (c_engineName c2 =? 0)%N; [|eexists; split; [reflexivity|auto]]. pose proof TF as (L7 & Fi & _).
    destruct (index_ok (cr_idx T) (N.of_nat cpBrowserEngine)) as [ir Ei]; [unfold cpBrowserEngine; lia|].
    unfold mbind at 1, mlift. rewrite Ei. apply index_nth in Ei. rewrite Forall_forall in Fi.
    destruct (Fi ir (nth_error_In _ _ Ei)) as [Ne Fc]. destruct (last_ok ir Ne) as [z Ez]. unfold mbind at 1. rewrite Ez.
    unfold mbind at 1, mget. unfold mbind at 1. rewrite engine_loop_search.
    destruct (not_panic (search (ctest T (c_src c2)) ir)) as [o Eo].
    { apply search_ok. eapply Forall_impl; [|exact Fc]. intros y Fy. destruct (ctest_fine (c_src c2) y Fy) as [b ->]. discriminate. }
    rewrite Eo. destruct o; eexists; (split; [reflexivity|auto]). }
  destruct H3 as (c3 & H3 & S3 & V3). rewrite (step _ _ _ _ _ H3). clear H3.
  unfold mbind at 1, mget at 1. pose proof (engine_version_fine (c_engineName c3) c3) as H4. rewrite (step _ _ _ _ _ H4).
  apply (engine_version_fits ua _ L _ _ _ S3 V3) in H4.
  match goal with |- exists _, _ ?c4 = _ /\ _ => set (c4' := c4) in * end. unfold mbind at 1, mget at 1. unfold mbind at 1, mget at 1.
  destruct (_ && _); eexists; (split; [reflexivity|exact H4]).
Qed.

Definition chosen_fine (ua : bytes) (c : ctx) : Prop := fits ua (c_engineVersion c).

Lemma eval_client_cases idx c : idx < 7 -> small (c_src c) -> pristine c ->
  exists ir, nth_error (cr_idx T) idx = Some ir /\
  ((exists c', eval_client T idx c = (c', Ok true) /\ fits (c_src c) (c_engineVersion c') /\
      exists x, first (client_applies T (c_src c)) ir x /\ ~ missing_group T (c_src c) x) \/
   eval_client T idx c = (c, Ok false) \/
   (snd (eval_client T idx c) = Panic /\ exists x, first (client_applies T (c_src c)) ir x /\ missing_group T (c_src c) x)).
Proof.
  intros Li L P. pose proof P as ((NE1 & NE2 & NE3) & CT & CN & CV & K). pose proof TF as (L7 & Fi & _).
  destruct (index_ok (cr_idx T) (N.of_nat idx)) as [ir Ei]; [lia|]. pose proof Ei as Ei'.
  apply index_nth in Ei. rewrite Nat2N.id in Ei. exists ir. split; [exact Ei|].
  rewrite Forall_forall in Fi. destruct (Fi ir (nth_error_In _ _ Ei)) as [Ne Fc]. destruct (last_ok ir Ne) as [z Ez].
  assert (EC : eval_client T idx c =
    match search (ctest T (c_src c)) ir with
    | Ok (Some x) =>
        match client_after T x c with
        | (c', Ok _) => ((if idx =? cpBrowser then eval_engine T x else mret tt) ;; mret true)%m (up_clientName (ct_browser64 x) c')
        | (c', Panic) => (c', Panic)
        end
    | Ok None => (c, Ok false)
    | Panic => (c, Panic)
    end).
  { unfold eval_client, mbind at 1, mlift. rewrite Ei'. unfold mbind at 1. rewrite Ez. unfold mbind at 1. rewrite client_loop_search.
    destruct (search (ctest T (c_src c)) ir) as [[x|]|]; [|reflexivity|reflexivity].
    destruct (client_after T x c) as [c1 [u|]]; reflexivity. }
  rewrite EC. clear EC.
  destruct (not_panic (search (ctest T (c_src c)) ir)) as [[x|] Sr].
  { apply search_ok. eapply Forall_impl; [|exact Fc]. intros y Fy. destruct (ctest_fine (c_src c) y Fy) as [b ->]. discriminate. }
  2: { rewrite Sr. right. left. reflexivity. }
  rewrite Sr. pose proof (search_in _ _ _ Sr) as [Ix Tx]. rewrite Forall_forall in Fc. pose proof (Fc x Ix) as Fx.
  assert (Vx : (-1 <= ct_browserVI x < 64)%Z).
  { destruct S as (_ & _ & S3). rewrite Forall_forall in S3. apply nth_error_In in Ei. specialize (S3 _ Ei).
    rewrite Forall_forall in S3. exact (S3 x Ix). }
  assert (Fi' : first (client_applies T (c_src c)) ir x).
  { apply (search_some (ctest T (c_src c))); [intros y b; apply hit_applies|exact Sr]. }
  destruct (after_cases x c Fx Vx Tx) as [[[c1 A] NM]|[A M]].
  - left. rewrite A. pose proof A as A'. apply (client_after_spec T x c c1 tt S L Vx Tx CV K) in A' as [VS Ec1].
    assert (F1 : c_src c1 = c_src c) by (rewrite Ec1; destruct (_ || _); reflexivity).
    assert (N1 : no_engine c1).
    { rewrite Ec1. destruct (_ || _); (split; [assumption|split; [assumption|]]); [exact NE3|]. unfold bit, set_flag. cbn. rewrite check_set.
      exact NE3. }
    unfold mbind at 1. destruct (idx =? cpBrowser).
    + destruct (eval_engine_fine x (up_clientName (ct_browser64 x) c1)) as (c2 & E2 & F2);
        [cbn [c_src up_clientName]; rewrite F1; exact L|exact N1|exact Fx|cbn [c_src up_clientName]; rewrite F1; exact VS|].
      rewrite E2. exists c2. split; [reflexivity|]. split; [cbn [c_src up_clientName] in F2; rewrite F1 in F2; exact F2|]. exists x. auto.
    + eexists. split; [reflexivity|]. split; [|exists x; auto]. cbn [c_engineVersion up_clientName]. destruct N1 as (_ & -> & _). apply fits_zero.
  - right. right. destruct (client_after T x c) as [c1 [u|]]; [discriminate|]. split; [reflexivity|]. exists x. auto.
Qed.

Variables mC mD h : N.
Variable ua : bytes.
Hypothesis L : small ua.

Lemma try_cases c : pristine c -> c_src c = ua -> c_maskC c = mC ->
  forall l before, client_order = before ++ l -> Forall (client_silent T mC ua) before ->
  (exists c' b, client_try T l c = (c', Ok b) /\ fits ua (c_engineVersion c') /\
    (b = true -> exists t idx x, client_is T mC ua t idx x /\ ~ missing_group T ua x)) \/
  (snd (client_try T l c) = Panic /\ exists t idx x, client_is T mC ua t idx x /\ missing_group T ua x).
Proof.
  intros P Es Em. induction l as [|[typ idx] l IH]; intros before EO Si.
  - left. exists c, false. split; [reflexivity|]. split; [|discriminate]. destruct P as ((_ & -> & _) & _). apply fits_zero.
  - assert (EC : client_try T ((typ, idx) :: l) c =
      if negb (N.land mC typ =? 0)%N then
        match eval_client T idx c with
        | (c', Ok true) => (up_clientType typ c', Ok true)
        | (c', Ok false) => client_try T l c'
        | (c', Panic) => (c', Panic)
        end
      else client_try T l c).
    { cbn [client_try]. unfold mbind, mget, mmod, mret. rewrite Em. destruct (negb _); [|reflexivity].
      destruct (eval_client T idx c) as [c1 [[]|]]; reflexivity. }
    rewrite EC. clear EC.
    assert (EO' : client_order = (before ++ [(typ, idx)]) ++ l) by (rewrite <- app_assoc; exact EO).
    destruct (N.eqb_spec (N.land mC typ) 0) as [E0|E0]; cbn [negb].
    + apply (IH (before ++ [(typ, idx)]) EO'). apply Forall_app. split; [exact Si|]. constructor; [|constructor]. intros On. destruct (On E0).
    + assert (Li : idx < 7).
      { assert (I : In (typ, idx) client_order) by (rewrite EO; apply in_or_app; right; left; reflexivity).
        cbn in I. repeat (destruct I as [I|I]; [injection I as <- <-; lia|]). destruct I. }
      destruct (eval_client_cases idx c Li ltac:(rewrite Es; exact L) P) as (ir & I & Cs). rewrite Es in Cs.
      assert (CI : forall x, first (client_applies T ua) ir x -> client_is T mC ua typ idx x).
      { intros x F. exists before, l, ir. auto. }
      destruct Cs as [(c' & E & F & x & Fx & NM)|[E|[E (x & Fx & M)]]].
      * left. rewrite E. eexists. exists true. split; [reflexivity|]. split; [exact F|]. intros _. exists typ, idx, x. auto.
      * rewrite E. apply (IH (before ++ [(typ, idx)]) EO'). apply Forall_app. split; [exact Si|]. constructor; [|constructor]. intros _.
        pose proof E as E'. apply eval_client_spec in E' as (ir' & I' & N & _); [|exact S|rewrite Es; exact L|exact P].
        exists ir'. rewrite Es in N. auto.
      * right. destruct (eval_client T idx c) as [c1 [b|]]; [discriminate|]. split; [reflexivity|]. exists typ, idx, x. auto.
Qed.

Lemma end_cases :
  (exists b, snd (client_end T mC mD h ua) = Ok b /\ fits ua (c_engineVersion (fst (client_end T mC mD h ua))) /\
     forall t idx x, client_is T mC ua t idx x -> ~ missing_group T ua x) \/
  (snd (client_end T mC mD h ua) = Panic /\ exists t idx x, client_is T mC ua t idx x /\ missing_group T ua x).
Proof.
  destruct (try_cases (fresh_ctx mC mD h ua) (pristine_fresh mC mD h ua) eq_refl eq_refl client_order [] eq_refl (Forall_nil _))
    as [(c' & b & E & F & H)|H]; [left|right].
  - unfold client_end. rewrite client_classes_order, E. exists b. split; [reflexivity|]. split; [exact F|].
    intros t idx x CI M. destruct b.
    + destruct (H eq_refl) as (t' & idx' & x' & CI' & NM). destruct (client_is_unique _ _ _ _ _ _ _ _ _ CI CI') as (_ & _ & <-). auto.
    + assert (E' : snd (client_end T mC mD h ua) = Ok false) by (unfold client_end; rewrite client_classes_order, E; reflexivity).
      destruct (client_end_spec T mC mD h ua false S L E') as [_ [NC _]].
      destruct CI as (bf & af & ir & EO & _ & On & I & Fx). unfold no_client in NC. rewrite EO in NC.
      apply Forall_app in NC as [_ NC]. inversion NC as [|? ? N1 _]; subst. destruct (N1 On) as (ir' & I' & N'). cbn [snd] in I'.
      rewrite I in I'. injection I' as <-. exact (first_none _ _ _ Fx N').
  - unfold client_end. rewrite client_classes_order. exact H.
Qed.

Lemma hint_fits e : amap_get (hr_idx T) h = Some e -> fits (hr_buf T) e.
Proof.
  intros A. apply amap_bound in A as (l1 & l2 & El & _). destruct TF as (_ & _ & _ & _ & Fh). rewrite Forall_forall in Fh.
  apply (Fh (h, e)). rewrite El. apply in_or_app. right. left. reflexivity.
Qed.
Lemma fits_ok buf e : fits buf e -> slice64 buf e <> Panic.
Proof. intros [s E]. unfold slice64. rewrite E. discriminate. Qed.

Lemma version_panic (proj : ctx -> version) (upd : version -> ctx -> ctx) (gs : P bytes) c :
  v_p (proj c) = false -> snd (run_cold (pmap VB gs c)) = Panic ->
  snd (run_cold (pmap VV (fun c => if v_p (proj c) then Ret (c, Ok (proj c))
           else (raw <- gs ;; plift (mmod (fun c => upd (fst (parse (proj c) raw)) c)) ;; plift (mget proj))%p c) c)) = Panic.
Proof.
  intros Hp. rewrite !run_cold_pmap. cbv beta. rewrite Hp. unfold pbind at 1. rewrite run_cold_bind.
  destruct (run_cold (gs c)) as [c1 [raw|]]; cbn; [discriminate|auto].
Qed.

Lemma client_panics g : In g client_getters ->
  (alone T mC mD h ua g = Panic <-> exists t idx x, client_is T mC ua t idx x /\ missing_group T ua x).
Proof.
  intros G.
  assert (Core : forall g, In g [GClientType; GBrowser; GBrowserVersionString; GEngine; GEngineVersionString] ->
    (alone T mC mD h ua g = Panic <-> exists t idx x, client_is T mC ua t idx x /\ missing_group T ua x)).
  { clear G g. intros g G. destruct end_cases as [(b & E & F & NM)|[E M]].
    2: { split; [intros _; exact M|intros _]. destruct G as [<-|[<-|[<-|[<-|[<-|[]]]]]];
      rewrite ?alone_client_type, ?alone_browser, ?alone_browser_version_string, ?alone_engine, ?alone_engine_version_string, E; reflexivity. }
    split; [|intros (t & idx & x & CI & M); destruct (NM t idx x CI M)]. intros Q. exfalso. revert Q.
    destruct (client_end_spec T mC mD h ua b S L E) as [Fr H]. pose proof TF as (_ & Fi & _).
    set (c := fst (client_end T mC mD h ua)) in *.
    assert (Es : c_src c = ua) by (unfold frame in Fr; congruence). assert (Eh : c_hint c = h) by (unfold frame in Fr; congruence).
    assert (Fx : forall t idx x, client_is T mC ua t idx x -> client_fine x).
    { intros t idx x (_ & _ & ir & _ & _ & _ & I & Fx). rewrite Forall_forall in Fi. destruct (Fi ir (nth_error_In _ _ I)) as [_ Fc].
      rewrite Forall_forall in Fc. exact (Fc x (first_in _ _ _ Fx)). }
    assert (Nm : fits (cr_buf T) (c_clientName c) /\ (bit flagVerConstSrc c = false -> fits ua (c_clientVersion c)) /\
                 (bit flagVerConstSrc c = true -> fits (cr_buf T) (c_clientVersion c)) /\ fits (cr_buf T) (c_engineName c)).
    { destruct b.
      - destruct H as (idx & x & CI & N & VS & E1 & E2). specialize (Fx _ _ _ CI).
        split; [rewrite N; apply Fx|]. split; [|split].
        + intros K. destruct VS as [(K' & _)|(_ & _ & s & _ & Tx)]; [congruence|]. apply text_slice in Tx. exists s. exact Tx.
        + intros K. destruct VS as [(_ & -> & _)|(K' & _)]; [apply Fx|congruence].
        + destruct (Nat.eq_dec idx 1) as [E'|E'].
          * destruct (E1 E') as [EI _]. exact (engine_fits ua x _ Fx EI).
          * destruct (E2 E') as [-> _]. apply fits_zero.
      - destruct H as [_ Ec]. rewrite Ec. cbn. repeat split; intros; apply fits_zero. }
    destruct Nm as (Nn & Nv & Nk & Ne).
    destruct G as [<-|[<-|[<-|[<-|[<-|[]]]]]].
    - rewrite alone_client_type, E. discriminate.
    - rewrite alone_browser, E. fold c. unfold read_browser, mbind, mget. change (c_hint (set_flag flagClientDetect c)) with (c_hint c).
      change (c_clientName (set_flag flagClientDetect c)) with (c_clientName c). rewrite Eh.
      destruct (negb (h =? 0)%N).
      + destruct (amap_get (hr_idx T) h) as [e|] eqn:A; [|discriminate]. destruct (0 <? e)%N; [|discriminate]. unfold mlift. cbn [snd].
        apply hint_fits in A as [s A]. unfold slice64. rewrite A. discriminate.
      + destruct (0 <? c_clientName c)%N eqn:Q; [|discriminate]. rewrite Q. unfold mlift. cbn [snd].
        destruct Nn as [s Nn]. unfold slice64. rewrite Nn. discriminate.
    - rewrite alone_browser_version_string, E. fold c. rewrite read_browser_version_eq.
      change (c_clientVersion (set_flag flagClientDetect c)) with (c_clientVersion c).
      change (c_src (set_flag flagClientDetect c)) with (c_src c). rewrite bit_other by discriminate. rewrite Es.
      destruct (0 <? c_clientVersion c)%N; [|discriminate]. destruct (bit flagVerConstSrc c).
      + destruct (Nk eq_refl) as [s Q]. unfold slice64. rewrite Q. discriminate.
      + destruct (Nv eq_refl) as [s Q]. unfold slice64. rewrite Q. discriminate.
    - rewrite alone_engine, E. fold c. rewrite read_engine_eq. rewrite bit_other by discriminate.
      change (c_engineName (set_flag flagClientDetect c)) with (c_engineName c). destruct (bit flagEngineForceBlink c); [discriminate|].
      destruct (0 <? c_engineName c)%N; [|discriminate]. destruct Ne as [s Q]. unfold slice64. rewrite Q. discriminate.
    - rewrite alone_engine_version_string, E. fold c. rewrite read_engine_version_eq.
      change (c_engineVersion (set_flag flagClientDetect c)) with (c_engineVersion c).
      change (c_src (set_flag flagClientDetect c)) with (c_src c). rewrite Es.
      destruct (0 <? c_engineVersion c)%N; [|discriminate]. destruct F as [s Q]. unfold slice64. rewrite Q. discriminate. }
  assert (Ver : forall g gs, (alone T mC mD h ua gs <> Panic -> alone T mC mD h ua g <> Panic) ->
      (alone T mC mD h ua gs = Panic -> alone T mC mD h ua g = Panic) ->
      In gs [GClientType; GBrowser; GBrowserVersionString; GEngine; GEngineVersionString] ->
      (alone T mC mD h ua g = Panic <-> exists t idx x, client_is T mC ua t idx x /\ missing_group T ua x)).
  { clear G g. intros g gs Q1 Q2 I. rewrite <- (Core gs I). split; [|exact Q2]. intros Q.
    destruct (alone T mC mD h ua gs) eqn:E; [|reflexivity]. destruct Q1; [discriminate|exact Q]. }
  destruct G as [<-|[<-|[<-|[<-|[<-|[<-|[<-|[]]]]]]]]; try (apply Core; cbn; solve [auto 6]).
  - apply (Ver GBrowserVersion GBrowserVersionString); [| |cbn; auto].
    + apply version_no_panic. reflexivity.
    + apply version_panic. reflexivity.
  - apply (Ver GEngineVersion GEngineVersionString); [| |cbn; auto 6].
    + apply version_no_panic. reflexivity.
    + apply version_panic. reflexivity.
Qed.
End Client.

(** Client detection on a built program, in terms of the database. *)
From Verif Require Import Model_Base Model_CacheEntry Model_Version Model_Ctx Model_Regex Model_Parse Model_Compiler Model_Shipped Model_Built
  Spec_Version Spec_Getters Spec_Select Spec_Compiler Spec_Database Proof_Base Proof_Select Proof_Client Proof_Choice
  Proof_Tables Proof_Compiler Proof_Built.
From Coq Require Import Lia ZifyBool ZifyNat ZifyN Permutation.
Open Scope nat_scope.

Lemma Forall2_nth {Y X} (R : Y -> X -> Prop) l xs : Forall2 R l xs -> forall i,
  (forall x, nth_error xs i = Some x -> exists y, nth_error l i = Some y /\ R y x) /\
  (forall y, nth_error l i = Some y -> exists x, nth_error xs i = Some x /\ R y x).
Proof.
  induction 1 as [|y x l xs H F IH]; intros [|i]; cbn [nth_error]; split; try discriminate.
  - intros x' [= <-]. eauto.
  - intros y' [= <-]. eauto.
  - apply IH.
  - apply IH.
Qed.

(** Versions. *)
Lemma refers_const b v vi v64 : buf_ok b -> refers b v vi v64 -> (v64 <> 0%N <-> constant v).
Proof.
  intros Kb [(-> & _ & ->)|[(C & _ & I)|((d & -> & Dd) & _ & ->)]].
  - split; [contradiction|]. intros [N _]. contradiction.
  - split; [auto|]. intros _. apply (text_nonzero (b_buf b) _ v); [apply C|exact (interned_text _ _ _ Kb I)].
  - split; [contradiction|]. intros [_ C]. contradiction (C d). reflexivity.
Qed.
Lemma refers_group b v vi v64 : refers b v vi v64 -> vi <> (-1)%Z -> group_ref v vi.
Proof. intros [(_ & -> & _)|[(_ & -> & _)|(G & _)]]; [contradiction|contradiction|auto]. Qed.
Lemma refers_none b v vi v64 : buf_ok b -> refers b v vi v64 -> vi = (-1)%Z -> v64 = 0%N -> v = [].
Proof.
  intros Kb [(-> & _)|[(C & _ & I)|(_ & B & _)]] E1 E2; [reflexivity| |lia].
  exfalso. apply (text_nonzero (b_buf b) v64 v); [apply C|exact (interned_text _ _ _ Kb I)|exact E2].
Qed.

Section Client.
Variables (K : compiler) (D : database) (T : tables) (k : ktables).
Hypothesis CF : client_facts K D T k.
Hypothesis L7 : length (db_client D) = 7.
Hypothesis PR : Forall (Forall client_proper) (db_client D).

Let okb : buf_ok (k_buf k) := cf_ok _ _ _ _ CF.
Lemma hit_iff ua y x : client_means K k y x -> (client_hit K ua y <-> client_applies T ua x).
Proof.
  intros (M & _). unfold client_applies, client_hit. rewrite (cf_re _ _ _ _ CF), (cf_buf _ _ _ _ CF). symmetry.
  exact (matches_applies K (k_client K) client_re _ _ _ _ _ ua okb M).
Qed.
Lemma class_of i ir : nth_error (cr_idx T) i = Some ir -> Forall2 (client_means K k) (class D i) ir.
Proof.
  intros N. destruct (proj1 (Forall2_nth _ _ _ (cf_idx _ _ _ _ CF) i) _ N) as (f & Nf & F). unfold class.
  rewrite (nth_error_nth _ _ _ Nf). exact F.
Qed.
Lemma class_some i : i < 7 -> exists ir, nth_error (cr_idx T) i = Some ir.
Proof.
  intros L. destruct (nth_error (db_client D) i) as [f|] eqn:Nf; [|apply nth_error_None in Nf; lia].
  destruct (proj2 (Forall2_nth _ _ _ (cf_idx _ _ _ _ CF) i) _ Nf) as (ir & N & _). eauto.
Qed.
Lemma class_proper i y : In y (class D i) -> client_proper y.
Proof.
  unfold class. intros I. destruct (nth_error (db_client D) i) as [f|] eqn:Nf.
  - rewrite (nth_error_nth _ _ _ Nf) in I. rewrite Forall_forall in PR. pose proof (PR f (nth_error_In _ _ Nf)) as Pf.
    rewrite Forall_forall in Pf. exact (Pf y I).
  - apply nth_error_None in Nf. rewrite nth_overflow in I by exact Nf. destruct I.
Qed.
Lemma none_class ua i ir : nth_error (cr_idx T) i = Some ir -> (none (client_hit K ua) (class D i) <-> none (client_applies T ua) ir).
Proof. intros N. apply (none_iff (client_means K k)); [exact (class_of i ir N)|]. intros y x _ _. apply hit_iff. Qed.
Lemma silent_iff mask ua p : snd p < 7 -> (client_silent T mask ua p <-> db_client_silent K D mask ua p).
Proof.
  intros L. destruct (class_some _ L) as [ir N]. unfold client_silent, db_client_silent. split; intros H O; specialize (H O).
  - destruct H as (ir' & N' & H). rewrite N in N'. injection N' as <-. apply (none_class ua _ _ N). exact H.
  - exists ir. split; [exact N|]. apply (none_class ua _ _ N). exact H.
Qed.
Lemma order_small p : In p client_order -> snd p < 7.
Proof. intros I. repeat (destruct I as [<-|I]; [cbn; lia|]). destruct I. Qed.
Lemma silent_all mask ua l : (forall p, In p l -> In p client_order) ->
  (Forall (client_silent T mask ua) l <-> Forall (db_client_silent K D mask ua) l).
Proof.
  intros I. split; intros F; rewrite Forall_forall in *; intros p Ip; apply (silent_iff mask ua p (order_small p (I p Ip))); exact (F p Ip).
Qed.
Lemma no_client_iff mask ua : no_client T mask ua <-> db_no_client K D mask ua.
Proof. apply silent_all. auto. Qed.
Lemma is_down mask ua t idx x : client_is T mask ua t idx x ->
  exists y, db_client_is K D mask ua t idx y /\ client_means K k y x /\ client_proper y /\ client_hit K ua y.
Proof.
  intros (before & after & ir & E & S & O & N & Fx).
  destruct (first_backward (client_means K k) (client_hit K ua) (client_applies T ua) _ _ (class_of _ _ N)
    (fun y x _ _ M => hit_iff ua y x M) x Fx) as (y & Fy & M).
  exists y. split; [|split; [exact M|]].
  - exists before, after. split; [exact E|]. split; [|auto]. apply silent_all; [|exact S]. intros p Ip. rewrite E. apply in_or_app. auto.
  - destruct Fy as (l1 & l2 & El & Hy & _). split; [|exact Hy]. apply (class_proper idx). rewrite El. apply in_or_app. right. left. reflexivity.
Qed.
Lemma is_up mask ua t idx y : db_client_is K D mask ua t idx y -> exists x, client_is T mask ua t idx x /\ client_means K k y x.
Proof.
  intros (before & after & E & S & O & Fy). assert (L : idx < 7).
  { apply (order_small (t, idx)). rewrite E. apply in_or_app. right. left. reflexivity. }
  destruct (class_some _ L) as [ir N].
  destruct (first_forward (client_means K k) (client_hit K ua) (client_applies T ua) _ _ (class_of _ _ N)
    (fun y x _ _ M => hit_iff ua y x M) y Fy) as (x & Fx & M).
  exists x. split; [|exact M]. exists before, after, ir. split; [exact E|]. split; [|auto]. apply silent_all; [|exact S].
  intros p Ip. rewrite E. apply in_or_app. auto.
Qed.
Lemma not_a_browser_down mask ua : not_a_browser T mask ua -> db_not_a_browser K D mask ua.
Proof.
  intros [N|(t & idx & x & C & Ni)]; [left; apply no_client_iff; exact N|]. right. destruct (is_down _ _ _ _ _ C) as (y & Cy & _). eauto.
Qed.

Lemma fragment_down ua y x s : client_means K k y x -> client_hit K ua y -> client_fragment T ua x s -> db_fragment K ua y s.
Proof.
  intros (M & _ & R & _) H F. pose proof (matches_plain K (k_client K) client_re _ _ _ _ _ ua M H) as Pl.
  pose proof (refers_const _ _ _ _ okb R) as RC.
  assert (Fi : forall r m, (0 <= ct_matchRI x)%Z -> nth_error (cr_re T) (Z.to_nat (ct_matchRI x)) = Some r -> re_find r ua = Some m ->
    db_finds K (k_client K) client_re (yc_regex y) ua m).
  { intros r m L N Fm. rewrite (cf_re _ _ _ _ CF) in N. apply (matches_finds K (k_client K) client_re _ _ _ _ _ ua m M).
    split; [exact L|]. exists r. auto. }
  destruct F as [L|s L V Tx|L V I|r m s L V I N Fm C|r m L V I N Fm A].
  - apply BF_plain. apply Pl. exact L.
  - rewrite (cf_buf _ _ _ _ CF) in Tx. apply RC in V. destruct R as [(E & _)|[(_ & _ & I)|((d & E & _) & _)]].
    + destruct V. contradiction.
    + rewrite (text_fun _ _ _ _ Tx (interned_text _ _ _ okb I)). apply BF_constant; [intros P; apply Pl in P; lia|exact V].
    + destruct V as [_ V]. contradiction (V d).
  - apply BF_none; [intros P; apply Pl in P; lia|]. exact (refers_none _ _ _ _ okb R I V).
  - apply (BF_group _ _ _ m (ct_browserVI x)); [exact (Fi r m L N Fm)|exact (refers_group _ _ _ _ R I)|exact C].
  - apply (BF_absent _ _ _ m (ct_browserVI x)); [exact (Fi r m L N Fm)|exact (refers_group _ _ _ _ R I)|exact A].
Qed.

(** Engines: a range stands for a name, 0 for the empty one. *)
Definition named (e : N) (en : bytes) : Prop := optional (k_buf k) en e.
Lemma named_fun e en en' : named e en -> named e en' -> en = en'.
Proof.
  intros H H'. apply (optional_text _ _ _ okb) in H as [H _]. apply (optional_text _ _ _ okb) in H' as [H' _]. exact (text_fun _ _ _ _ H H').
Qed.
Lemma threshold_first vs r d64 dn m e : NoDup (map fst vs) -> rules_mean (k_buf k) vs r -> Forall (fun ve => snd ve <> []) vs ->
  optional (k_buf k) dn d64 -> threshold (r, d64) m e -> exists w, first_engine vs dn m w /\ named e w.
Proof.
  intros ND Rm NE Od Th.
  assert (P : Permutation (sort_keys vs) vs) by apply sort_perm. pose proof (sort_ascending vs) as S. unfold rules_mean in Rm.
  set (l := sort_keys vs) in *. clearbody l.
  assert (Pk : forall k, In k (map fst vs) <-> In k (map fst l)).
  { intros k0. split; apply Permutation_in; apply Permutation_map; [apply Permutation_sym|]; exact P. }
  destruct Th as [(t & Fi)|[No ->]]; cbn [fst snd] in *.
  - destruct (first_backward _ (fun ve => text_le (fst ve) m) (fun te => text_le (fst te) m) _ _ Rm) with (x := (t, e)) as ([v w] & Fw & Ev & Iw).
    { intros y x _ _ [-> _]. reflexivity. }
    { exact Fi. }
    cbn [fst snd] in *. subst t. destruct Fw as (l1 & l2 & El & Tv & B). exists w.
    assert (Iv : In (v, w) l) by (rewrite El; apply in_or_app; right; left; reflexivity). split.
    + left. exists v. split; [exact (Permutation_in _ P Iv)|]. split; [exact Tv|]. intros k' Ik Tk. apply Pk in Ik.
      rewrite El in Ik. rewrite map_app in Ik. apply in_app_or in Ik as [Ik|Ik].
      * apply in_map_iff in Ik as (z & Ez & Iz). subst k'. contradiction (B z Iz).
      * cbn [map In fst] in Ik. destruct Ik as [<-|Ik]; [left; exists []; symmetry; apply app_nil_r|].
        apply in_map_iff in Ik as (z & Ez & Iz). subst k'. apply str_leb_text. exact (S l1 (v, w) l2 El z Iz).
    + right. split; [|exact Iw]. rewrite Forall_forall in NE. exact (NE (v, w) (Permutation_in _ P Iv)).
  - exists dn. split; [|exact Od]. right. split; [|reflexivity]. intros k' Ik Tk. apply Pk in Ik. apply in_map_iff in Ik as (z & Ez & Iz). subst k'.
    destruct (In_nth_error _ _ Iz) as [n Nz]. destruct (proj2 (Forall2_nth _ _ _ Rm n) z Nz) as (te & Nt & E1 & _).
    apply (No te (nth_error_In _ _ Nt)). rewrite <- E1. exact Tk.
Qed.
Lemma own_down ua y x e : client_means K k y x -> client_proper y -> client_hit K ua y -> own_engine T ua x e ->
  exists w, db_own_engine K ua y w /\ named e w.
Proof.
  intros M (_ & Pv) H O. pose proof M as (_ & _ & R & Me). unfold engine_means in Me. destruct (yc_engine y) as [en|] eqn:Ye.
  2: { destruct Me as [E1 E2]. destruct O as [Fi|f s m e Fi _ _ _ _]; [|contradiction]. rewrite E1. exists [].
       split; [apply BE_none; exact Ye|left; auto]. }
  destruct Me as (Od & _ & _ & [(V & Fi)|(V & Fp & r & Nr & Rm)]).
  - destruct O as [_|f s m e Fi' _ _ _ _]; [|contradiction]. exists (ye_default en). split; [apply (BE_default _ _ _ en); assumption|exact Od].
  - destruct (Pv en eq_refl V) as (NC & ND & NE). destruct O as [Fi|f s m e Fi' Nf Es Mj Th]; [lia|].
    rewrite (cf_ef _ _ _ _ CF), Nr in Nf. injection Nf as <-.
    assert (Z : ct_version64 x = 0%N).
    { destruct (N.eq_dec (ct_version64 x) 0) as [E|E]; [exact E|]. apply (refers_const _ _ _ _ okb R) in E. contradiction. }
    destruct Es as [s L V64 _|s _ Fr]; [contradiction|].
    destruct (threshold_first _ _ _ _ _ _ ND Rm NE Od Th) as (w & Fw & Nw). exists w. split; [|exact Nw].
    apply (BE_version _ _ _ en s m); try assumption. exact (fragment_down _ _ _ _ M H Fr).
Qed.
Lemma engine_down ua y x e : client_means K k y x -> client_proper y -> client_hit K ua y -> engine_is T ua x e ->
  exists w, db_engine K D ua y w /\ named e w.
Proof.
  intros M P H E. assert (C0 : exists ir, nth_error (cr_idx T) 0 = Some ir) by (apply class_some; lia). destruct C0 as [ir N0].
  assert (Ec : engine_class T = ir) by (unfold engine_class; exact (nth_error_nth _ _ _ N0)).
  assert (Z : forall w, named 0 w -> w = []). { intros w Nw. apply (named_fun 0 w []); [exact Nw|left; auto]. }
  destruct E as [e O Ne|v O Fv|O No].
  - destruct (own_down _ _ _ _ M P H O) as (w & Ow & Nw). exists w. split; [|exact Nw]. apply BN_own; [exact Ow|]. intros ->.
    apply (optional_text _ _ _ okb) in Nw as [_ Nw]. apply Ne. apply Nw. reflexivity.
  - destruct (own_down _ _ _ _ M P H O) as (w & Ow & Nw). rewrite (Z _ Nw) in Ow. rewrite Ec in Fv.
    destruct (first_backward (client_means K k) (client_hit K ua) (client_applies T ua) _ _ (class_of _ _ N0)
      (fun y x _ _ M => hit_iff ua y x M) v Fv) as (z & Fz & Mz).
    exists (yc_name z). split; [apply BN_pattern; assumption|]. apply Mz.
  - destruct (own_down _ _ _ _ M P H O) as (w & Ow & Nw). rewrite (Z _ Nw) in Ow. rewrite Ec in No. exists []. split; [|left; auto].
    apply BN_none; [exact Ow|]. apply (none_class ua 0 ir N0). exact No.
Qed.
Lemma name_down ua e en s : named e en -> engine_name_is T ua e s -> db_engine_name ua en s.
Proof.
  intros Nw H. pose proof (optional_text _ _ _ okb Nw) as [Tx Z]. unfold engine_name_is in H. rewrite (cf_buf _ _ _ _ CF), (cf_blink _ _ _ _ CF) in H.
  destruct H as [[Ne Ts]|[(-> & H & ->)|(-> & H & ->)]].
  - left. rewrite (text_fun _ _ _ _ Ts Tx). split; [|reflexivity]. intros E. apply Ne. apply Z. exact E.
  - right. left. split; [apply Z; reflexivity|auto].
  - right. right. split; [apply Z; reflexivity|auto].
Qed.
Lemma version_down ua e en s : named e en -> engine_version_is T ua e s -> db_engine_version D ua en s.
Proof.
  intros Nw H. pose proof (cf_known _ _ _ _ CF en) as Kn.
  assert (B : forall ri r, e <> 0%N -> bound (cr_ev T) e ri -> nth_error (cr_evre T) (Z.to_nat ri) = Some r -> known_engine D en /\ r = engine_regex en).
  { intros ri r Ne Bd N. destruct Nw as [[_ ->]|[_ I]]; [contradiction|]. destruct (cf_bound _ _ _ _ CF _ _ _ I Bd) as (n & -> & Nn).
    rewrite Nat2Z.id, (cf_evre _ _ _ _ CF), nth_error_map, Nn in N. injection N as <-. split; [|reflexivity]. apply Kn. exact (nth_error_In _ _ Nn). }
  destruct H as [U|ri r Ne Bd N Fm|ri r m Ne Bd N Fm L|ri r m s Ne Bd N Fm C].
  - apply BV_unknown. rewrite <- Kn. destruct U as [->|U].
    + destruct Nw as [[-> _]|[Nn I]]; [rewrite engine_names_in; intros [X _]; contradiction|].
      exfalso. exact (text_nonzero _ _ _ Nn (interned_text _ _ _ okb I) eq_refl).
    + destruct Nw as [[-> _]|[Nn I]]; [rewrite engine_names_in; intros [X _]; contradiction|]. apply (cf_unbound _ _ _ _ CF en e I). exact U.
  - destruct (B _ _ Ne Bd N) as [Kw ->]. apply BV_nomatch; assumption.
  - destruct (B _ _ Ne Bd N) as [Kw ->]. apply (BV_nogroup _ _ _ m); assumption.
  - destruct (B _ _ Ne Bd N) as [Kw ->]. apply (BV_group _ _ _ m); assumption.
Qed.

Lemma built_client_sane : client_sane T.
Proof.
  assert (SM : forall (f : bytes -> regex) l, (forall p, sane_regex (f p)) -> Forall sane_regex (map f l)).
  { intros f l H. apply Forall_forall. intros r I. apply in_map_iff in I as (p & <- & _). apply H. }
  split; [rewrite (cf_re _ _ _ _ CF); apply SM; intros p; apply sane_compiled|].
  split; [rewrite (cf_evre _ _ _ _ CF); apply SM; intros p; apply sane_compiled|].
  pose proof (cf_idx _ _ _ _ CF) as F. clear -F. apply Forall_forall. intros ir Ir. apply Forall_forall. intros x Ix.
  destruct (In_nth_error _ _ Ir) as [i Ni]. destruct (proj1 (Forall2_nth _ _ _ F i) _ Ni) as (l & _ & Fl).
  destruct (In_nth_error _ _ Ix) as [j Nj]. destruct (proj1 (Forall2_nth _ _ _ Fl j) _ Nj) as (y & _ & _ & _ & R & _).
  destruct R as [(_ & -> & _)|[(_ & -> & _)|(_ & B & _)]]; lia.
Qed.

Lemma client_choice mC mD h ua t : small ua -> alone T mC mD h ua GClientType = Ok (VN t) ->
  (db_no_client K D mC ua -> t = 0%N /\ alone T mC mD 0 ua GBrowser = Ok (VB (bs "UNK"))) /\
  (forall t' idx y, db_client_is K D mC ua t' idx y -> t = t' /\
     (yc_name y <> [] -> alone T mC mD 0 ua GBrowser = Ok (VB (yc_name y))) /\
     (yc_name y = [] -> alone T mC mD 0 ua GBrowser = Ok (VB (bs "UNK")))) /\
  (db_no_client K D mC ua \/ exists t' idx y, db_client_is K D mC ua t' idx y).
Proof.
  intros L H. destruct (priority T mC mD h ua t built_client_sane L H) as (H1 & H2 & H3). split; [|split].
  - intros N. apply H1. apply no_client_iff. exact N.
  - intros t' idx y C. destruct (is_up _ _ _ _ _ C) as (x & Cx & (_ & O & _)). destruct (H2 _ _ _ Cx) as (-> & N1 & N2).
    split; [reflexivity|]. pose proof (optional_text _ _ _ okb O) as [Tx Z]. rewrite <- (cf_buf _ _ _ _ CF) in Tx. split; intros E.
    + apply N1; [exact Tx|]. intros E'. apply E. apply Z. exact E'.
    + apply N2. apply Z. exact E.
  - destruct H3 as [N|(t' & idx & x & C)]; [left; apply no_client_iff; exact N|]. right. destruct (is_down _ _ _ _ _ C) as (y & Cy & _). eauto.
Qed.
Lemma client_version mC mD h ua s : small ua -> alone T mC mD h ua GBrowserVersionString = Ok (VB s) ->
  (db_no_client K D mC ua /\ s = []) \/
  (exists t idx y frag, db_client_is K D mC ua t idx y /\ db_fragment K ua y frag /\ version_of_fragment frag s).
Proof.
  intros L H. destruct (browser_version T mC mD h ua built_client_sane L s H) as [[N ->]|(t & idx & x & fr & C & F & V)].
  - left. split; [apply no_client_iff; exact N|reflexivity].
  - right. destruct (is_down _ _ _ _ _ C) as (y & Cy & M & _ & Hy). exists t, idx, y, fr. split; [exact Cy|]. split; [|exact V].
    exact (fragment_down _ _ _ _ M Hy F).
Qed.
Lemma client_engine mC mD h ua : small ua ->
  (forall s, alone T mC mD h ua GEngine = Ok (VB s) ->
     (db_not_a_browser K D mC ua /\ s = []) \/
     (exists t y en, db_client_is K D mC ua t 1 y /\ db_engine K D ua y en /\ db_engine_name ua en s)) /\
  (forall s, alone T mC mD h ua GEngineVersionString = Ok (VB s) ->
     (db_not_a_browser K D mC ua /\ s = []) \/
     (exists t y en, db_client_is K D mC ua t 1 y /\ db_engine K D ua y en /\ db_engine_version D ua en s)).
Proof.
  intros L. destruct (engine_full T mC mD h ua built_client_sane L) as [H1 H2]. split; intros s H.
  - destruct (H1 s H) as [[N ->]|(t & x & e & C & E & Nm)]; [left; split; [apply not_a_browser_down; exact N|reflexivity]|].
    right. destruct (is_down _ _ _ _ _ C) as (y & Cy & M & P & Hy). destruct (engine_down _ _ _ _ M P Hy E) as (w & Ew & Nw).
    exists t, y, w. split; [exact Cy|]. split; [exact Ew|]. exact (name_down _ _ _ _ Nw Nm).
  - destruct (H2 s H) as [[N ->]|(t & x & e & C & E & Nm)]; [left; split; [apply not_a_browser_down; exact N|reflexivity]|].
    right. destruct (is_down _ _ _ _ _ C) as (y & Cy & M & P & Hy). destruct (engine_down _ _ _ _ M P Hy E) as (w & Ew & Nw).
    exists t, y, w. split; [exact Cy|]. split; [exact Ew|]. exact (version_down _ _ _ _ Nw Nm).
Qed.
End Client.

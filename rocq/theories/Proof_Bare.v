(** A user agent without words is unknown. *)
From Coq Require Import Lia ZifyBool ZifyNat ZifyN.
From Verif Require Import Model_Base Model_Blob Model_Ctx Model_Regex Model_Shipped Model_Parse Spec_Regex Spec_Select Spec_Getters Spec_Panic Spec_Bare
  Proof_Base Proof_Regex Proof_Pattern Proof_Select Proof_Covers Proof_Shadow Proof_Index Proof_Live
  Proof_Getters Proof_Client Proof_Reports Proof_Tables Proof_Known Proof_Choice Proof_Fine Proof_StaleShipped.
Open Scope nat_scope.

(** ** What a pattern demands *)
Definition words : list (N * N) := [(48, 57); (65, 90); (97, 122); (128, 1114111)]%N.
Definition word_rune (x : N) : bool := cls_mem false words x.
Definition heavy (v : Spec_Regex.text) : nat := length (filter (fun x => word_rune (fst x)) v).
Fixpoint need (a : re) : nat :=
  match a with
  | Cls neg rs => if sub_cls neg rs false words then 1 else 0
  | Cat a b => need a + need b
  | Alt a b => Nat.min (need a) (need b)
  | Grp _ a => need a
  | _ => 0
  end.
Lemma heavy_app u v : heavy (u ++ v) = heavy u + heavy v.
Proof. unfold heavy. rewrite filter_app, app_length. reflexivity. Qed.
Lemma need_lang a u v w : lang a u v w -> need a <= heavy v.
Proof.
  intros L. induction L as [ |neg rs u x wd w M| | |a b u v1 v2 w _ IH1 _ IH2|a b u v w _ IH|a b u v w _ IH| |g a u v1 v2 w _ IH1 _ IH2|n a u v w _ IH];
    cbn [need]; rewrite ?heavy_app; try lia.
  destruct (sub_cls neg rs false words) eqn:S; [|lia]. pose proof (sub_cls_ok _ _ _ _ _ S M) as W.
  unfold heavy. cbn [filter fst]. unfold word_rune. rewrite W. cbn. lia.
Qed.

(** ** Runes and bytes *)
Lemma weight_app a b : weight (a ++ b) = weight a + weight b.
Proof. unfold weight. rewrite filter_app, app_length. reflexivity. Qed.
Lemma decode_wordy c s : word_rune (fst (decode_rune (c :: s))) = true -> wordy c = true.
Proof.
  intros H. destruct (N.ltb_spec (bn c) 128) as [L|L].
  - replace (fst (decode_rune (c :: s))) with (bn c) in H.
    + unfold word_rune, cls_mem, words in H. cbn [existsb fst snd] in H. unfold in_rng in H. unfold wordy. lia.
    + unfold decode_rune. destruct (N.ltb_spec (bn c) 128); [reflexivity|lia].
  - unfold wordy. lia.
Qed.
Lemma skipn_weight k s : weight (skipn k s) <= weight s.
Proof. rewrite <- (firstn_skipn k s) at 2. rewrite weight_app. lia. Qed.
Lemma heavy_fuel n : forall s, heavy (runes_fuel n s) <= weight s.
Proof.
  induction n as [|n IH]; intros s; cbn [runes_fuel]; [unfold heavy; cbn; lia|]. destruct s as [|c s]; [unfold heavy; cbn; lia|].
  pose proof (decode_wordy c s) as W. pose proof (decode_rune_width c s) as [L _]. destruct (decode_rune (c :: s)) as [r k]. cbn [fst snd] in *.
  destruct k as [|k]; [lia|]. cbn [skipn]. specialize (IH (skipn k s)). pose proof (skipn_weight k s) as S.
  unfold heavy in *. cbn [filter fst]. unfold weight in *. cbn [filter]. destruct (word_rune r).
  - rewrite (W eq_refl). cbn [length]. lia.
  - destruct (wordy c); cbn [length]; lia.
Qed.
Lemma heavy_runes s : heavy (runes s) <= weight s.
Proof. apply heavy_fuel. Qed.

(** ** Entries *)
Definition demanding (src : bytes) : bool := match parse_re src with Some (a, _) => 2 <=? need a | None => false end.
Lemma demanding_ok src ua : demanding src = true -> re_find (compile src) ua <> None -> 2 <= weight ua.
Proof.
  unfold demanding. destruct (parse_re src) as [[a ng]|] eqn:P; [|discriminate]. intros H F. apply Nat.leb_le in H.
  apply (compile_lang src a ng ua P) in F. destruct F as (u & v & w & E & L). apply need_lang in L. pose proof (heavy_runes ua) as W.
  rewrite E, !heavy_app in W. lia.
Qed.

(** A long text cut at many places: the rest at every 512th byte. *)
Definition page : nat := 512.
Fixpoint pages (n : nat) (s : bytes) : list bytes := match n with 0 => [] | S n' => s :: pages n' (skipn page s) end.
Lemma pages_nth n : forall s k t, nth_error (pages n s) k = Some t -> t = skipn (k * page) s.
Proof.
  induction n as [|n IH]; intros s k t H; [destruct k; discriminate H|]. destruct k as [|k]; cbn [pages nth_error] in H.
  - injection H as <-. reflexivity.
  - apply IH in H. rewrite skipn_skipn in H. rewrite H. f_equal; lia.
Qed.
Definition cut (ps : tree bytes) (e : N) : bytes :=
  let lo := (e / 4294967296)%N in let hi := (e mod 4294967296)%N in
  match look ps (Z.of_N (lo / 512)) with
  | Some t => firstn (N.to_nat (hi - lo)) (skipn (N.to_nat (lo mod 512)) t)
  | None => []
  end.
Lemma cut_ok n buf e s : text buf e s -> cut (numbered (pages n buf)) e = s \/ cut (numbered (pages n buf)) e = [].
Proof.
  intros (a & b & E & La & Ls). unfold cut. destruct (look _ _) as [t|] eqn:K; [left|right; reflexivity].
  apply look_nth in K; [|lia]. apply pages_nth in K. rewrite K, skipn_skipn.
  replace (Z.to_nat (Z.of_N (e / 4294967296 / 512)) * page + N.to_nat ((e / 4294967296) mod 512)) with (length a).
  - rewrite E, skipn_app, skipn_all, Nat.sub_diag. cbn [skipn app].
    replace (N.to_nat _) with (length s) by lia. rewrite firstn_app, firstn_all, Nat.sub_diag. cbn [firstn]. apply app_nil_r.
  - rewrite <- La. pose proof (N.div_mod (N.of_nat (length a)) 512). unfold page. lia.
Qed.
Definition demands (t : tree regex) (ps : tree bytes) (ri : Z) (m64 : N) : bool :=
  if (0 <=? ri)%Z then match look t ri with Some r => demanding (re_src r) | None => false end else 2 <=? weight (cut ps m64).
Lemma demands_ok res n buf ri m64 ua : compiled res -> demands (numbered res) (numbered (pages n buf)) ri m64 = true ->
  applies res buf ri m64 ua -> 2 <= weight ua.
Proof.
  intros C D [(L & r & N & M)|(L & s & X & O)]; unfold demands in D.
  - destruct (Z.leb_spec 0 ri); [|lia]. destruct (look _ _) as [r'|] eqn:K; [|discriminate D]. apply (look_nth _ _ _ L) in K.
    rewrite N in K. injection K as <-. rewrite (C r (nth_error_In _ _ N)) in M. exact (demanding_ok _ _ D M).
  - destruct (Z.leb_spec 0 ri); [lia|]. apply Nat.leb_le in D. destruct O as (_ & a & b & ->). rewrite !weight_app.
    destruct (cut_ok n buf m64 s X) as [K|K]; rewrite K in D; [lia|cbn in D; lia].
Qed.

(** ** Tables *)
Definition demand_class {A} (test : A -> bool) (ls : list (list A)) (k : nat) : bool :=
  match nth_error ls k with Some ir => forallb test ir | None => false end.
Lemma demand_none {A} (test : A -> bool) (P : A -> Prop) ls k : demand_class test ls k = true -> (forall x, test x = true -> ~ P x) ->
  exists ir, nth_error ls k = Some ir /\ none P ir.
Proof.
  unfold demand_class. destruct (nth_error ls k) as [ir|]; [|discriminate]. intros H N. exists ir. split; [reflexivity|].
  intros y I. rewrite forallb_forall in H. exact (N y (H y I)).
Qed.

Section Unknown.
Variable T : tables.
Hypothesis C1 : compiled (cr_re T).
Hypothesis C2 : compiled (or_re T).
Hypothesis C3 : compiled (dr_re T).
Hypothesis C4 : compiled (vr_re T).
Hypothesis C5 : compiled [re_tablet T; re_mobile T].

Definition pages_of (s : bytes) : tree bytes := numbered (pages 1000 s).
Definition clients_demand : bool :=
  let t := numbered (cr_re T) in let ps := pages_of (cr_buf T) in
  forallb (demand_class (fun x => demands t ps (ct_matchRI x) (ct_match64 x)) (cr_idx T)) [2; 5; 4; 6; 3; 1].
Definition systems_demand : bool :=
  let t := numbered (or_re T) in let ps := pages_of (or_buf T) in
  forallb (fun x => demands t ps (ot_matchRI x) (ot_match64 x)) (or_os T).
Definition devices_demand : bool :=
  let t := numbered (dr_re T) in let ps := pages_of (dr_buf T) in
  forallb (demand_class (fun x => demands t ps (dt_matchRI x) (dt_match64 x)) (dr_idx T)) [0; 1; 2; 5; 6; 7; 3; 4].
Definition vendors_demand : bool := forallb (fun r => demanding (re_src r)) (re_tablet T :: re_mobile T :: vr_re T).

Lemma bare_client mask ua : clients_demand = true -> weight ua < 2 -> no_client T mask ua.
Proof.
  intros H W. unfold no_client, client_silent. rewrite Forall_forall. intros [t k] I _. unfold clients_demand in H. cbv zeta in H. rewrite forallb_forall in H.
  assert (K : In k [2; 5; 4; 6; 3; 1]) by (cbn in I |- *; repeat (destruct I as [I|I]; [injection I as <- <-; tauto|]); destruct I).
  apply (demand_none _ _ _ _ (H k K)). intros x D A. pose proof (demands_ok _ _ _ _ _ _ C1 D A). lia.
Qed.
Lemma bare_os ua : systems_demand = true -> weight ua < 2 -> no_os T ua.
Proof.
  intros H W x I [_ A]. unfold systems_demand in H. cbv zeta in H. rewrite forallb_forall in H. pose proof (demands_ok _ _ _ _ _ _ C2 (H x I) A). lia.
Qed.
Lemma bare_device mask ua : devices_demand = true -> weight ua < 2 -> no_device T mask ua.
Proof.
  intros H W. unfold no_device, device_silent. rewrite Forall_forall. intros [[t k] d] I _. unfold devices_demand in H. cbv zeta in H. rewrite forallb_forall in H.
  assert (K : In k [0; 1; 2; 5; 6; 7; 3; 4]) by (cbn in I |- *; repeat (destruct I as [I|I]; [injection I as <- <- <-; tauto|]); destruct I).
  apply (demand_none _ _ _ _ (H k K)). intros x D A. pose proof (demands_ok _ _ _ _ _ _ C3 D A). lia.
Qed.
Lemma bare_miss r ua : vendors_demand = true -> weight ua < 2 -> In r (re_tablet T :: re_mobile T :: vr_re T) -> re_find r ua = None.
Proof.
  intros H W I. unfold vendors_demand in H. rewrite forallb_forall in H. specialize (H r I).
  assert (E : r = compile (re_src r)) by (destruct I as [<-|[<-|I]]; [apply C5; left; reflexivity|apply C5; right; left; reflexivity|apply C4, I]).
  destruct (re_find r ua) eqn:F; [|reflexivity]. exfalso. assert (X : re_find (compile (re_src r)) ua <> None) by congruence.
  pose proof (demanding_ok _ _ H X). lia.
Qed.
Lemma range_in {A} (l : list A) e x : In x (range_of l e) -> In x l.
Proof.
  unfold range_of. intros I. rewrite <- (firstn_skipn (N.to_nat (e / 4294967296)) l). apply in_or_app. right.
  rewrite <- (firstn_skipn (N.to_nat (e mod 4294967296 - e / 4294967296)) (skipn _ l)). apply in_or_app. left. exact I.
Qed.
Lemma bare_brand ua s : vendors_demand = true -> weight ua < 2 -> fallback_brand T ua s -> s = bs "UNK".
Proof.
  intros H W F. destruct F as [_| |b r s out _ _ (l1 & l2 & E & X & _)|]; try reflexivity. exfalso. apply X. cbn [snd].
  apply (bare_miss r ua H W). right. right. assert (I : In (b, r) (fragments T)) by (rewrite E; apply in_elt).
  unfold fragments in I. apply in_flat_map in I. destruct I as (v & _ & I). apply in_map_iff in I. destruct I as (r' & E' & I). injection E' as _ <-.
  exact (range_in _ _ _ I).
Qed.
End Unknown.

(** ** Answers *)
Definition text_getters : list getter := [GBrowser; GBrowserVersionString; GEngine; GEngineVersionString; GOS; GOSVersionString; GBrand; GModel].
Lemma text_value T mC mD h ua g : In g text_getters -> alone T mC mD h ua g <> Panic -> exists s, alone T mC mD h ua g = Ok (VB s).
Proof.
  intros I. unfold alone. cbn in I. repeat (destruct I as [<-|I]; [cbn [run_getter]; rewrite run_cold_pmap; cbn [snd];
    match goal with |- context[rmap VB ?x] => destruct x as [b|] end; [intros _; exists b; reflexivity|contradiction]|]). destruct I.
Qed.
Lemma number_value T mC mD h ua g : In g [GClientType; GDeviceType] -> alone T mC mD h ua g <> Panic -> exists n, alone T mC mD h ua g = Ok (VN n).
Proof.
  intros I. unfold alone. cbn in I. repeat (destruct I as [<-|I]; [cbn [run_getter]; rewrite run_cold_pmap; cbn [snd];
    match goal with |- context[rmap VN ?x] => destruct x as [b|] end; [intros _; exists b; reflexivity|contradiction]|]). destruct I.
Qed.
Lemma bare_answers T mC mD h ua : compiled (cr_re T) -> compiled (or_re T) -> compiled (dr_re T) -> compiled (vr_re T) ->
  compiled [re_tablet T; re_mobile T] -> clients_demand T = true -> systems_demand T = true -> devices_demand T = true -> vendors_demand T = true ->
  client_sane T -> os_sane T -> device_sane T -> short ua -> weight ua < 2 -> (forall h g, alone T mC mD h ua g <> Panic) ->
  (forall g, In g [GClientType; GDeviceType] -> alone T mC mD h ua g = Ok (VN 0)) /\
  (forall g, In g [GOS; GBrand] -> alone T mC mD h ua g = Ok (VB (bs "UNK"))) /\
  alone T mC mD 0 ua GBrowser = Ok (VB (bs "UNK")) /\
  (forall g, In g [GBrowserVersionString; GEngine; GEngineVersionString; GOSVersionString; GModel] -> alone T mC mD h ua g = Ok (VB [])).
Proof.
  intros C1 C2 C3 C4 C5 D1 D2 D3 D4 S1 S2 S3 L W NP. pose proof (short_small _ L) as Sm.
  pose proof (bare_client T C1 mC ua D1 W) as NC. pose proof (bare_os T C2 ua D2 W) as NO. pose proof (bare_device T C3 mD ua D3 W) as ND.
  destruct (number_value T mC mD h ua GClientType ltac:(cbn; auto) (NP h GClientType)) as [t Ht].
  assert (t = 0%N) by (exact (proj1 (proj1 (priority T mC mD h ua t S1 Sm Ht) NC))). subst t.
  destruct (text_value T mC mD h ua GOS ltac:(cbn; auto 10) (NP h GOS)) as [os Ho].
  assert (os = bs "UNK") by (exact (proj1 (proj1 (os_reports T mC mD h ua S2 Sm) os Ho) NO)). subst os.
  destruct (device_reports T mC mD h ua S3 L) as [RT RB].
  split; [|split; [|split]].
  - intros g [<-|[<-|[]]]; [exact Ht|]. destruct (number_value T mC mD h ua GDeviceType ltac:(cbn; auto) (NP h GDeviceType)) as [t' Ht'].
    destruct (RT t' Ht') as (_ & F & _). destruct (F ND) as (os & E & [(O & I & _)|(_ & [(M & _)|[(_ & M & _)|(_ & _ & ->)]])]).
    + rewrite Ho in E. specialize (E O). injection E as <-. cbn in I. repeat (destruct I as [I|I]; [discriminate I|]). destruct I.
    + destruct (M (bare_miss T C4 C5 _ ua D4 W (or_introl eq_refl))).
    + destruct (M (bare_miss T C4 C5 _ ua D4 W (or_intror (or_introl eq_refl)))).
    + exact Ht'.
  - intros g [<-|[<-|[]]]; [exact Ho|]. destruct (text_value T mC mD h ua GBrand ltac:(cbn; auto 10) (NP h GBrand)) as [b Hb].
    rewrite Hb. rewrite (bare_brand T C4 C5 ua b D4 W (proj2 (RB b Hb) ND)). reflexivity.
  - destruct (number_value T mC mD 0 ua GClientType ltac:(cbn; auto) (NP 0%N GClientType)) as [t0 Ht0].
    exact (proj2 (proj1 (priority T mC mD 0 ua t0 S1 Sm Ht0) NC)).
  - intros g I. assert (J : In g text_getters) by (cbn in I |- *; tauto).
    destruct (text_value T mC mD h ua g J (NP h g)) as [s Hs]. rewrite Hs.
    assert (s = []) as ->; [|reflexivity].
    cbn in I. destruct I as [<-|[<-|[<-|[<-|[<-|[]]]]]].
    + apply (client_nothing T mC mD h ua GBrowserVersionString s S1 Sm Ht); [cbn; auto|exact Hs].
    + apply (client_nothing T mC mD h ua GEngine s S1 Sm Ht); [cbn; auto|exact Hs].
    + apply (client_nothing T mC mD h ua GEngineVersionString s S1 Sm Ht); [cbn; auto|exact Hs].
    + exact (proj1 (proj2 (os_reports T mC mD h ua S2 Sm) s Hs) NO).
    + exact (proj2 (model_reports T mC mD h ua s S3 L Hs) ND).
Qed.

(** ** The shipped tables *)
Lemma shipped_clients_demand : clients_demand shipped = true.
Proof. vm_cast_no_check (eq_refl true). Qed.
Lemma shipped_systems_demand : systems_demand shipped = true.
Proof. vm_cast_no_check (eq_refl true). Qed.
Lemma shipped_devices_demand : devices_demand shipped = true.
Proof. vm_cast_no_check (eq_refl true). Qed.
Lemma shipped_vendors_demand : vendors_demand shipped = true.
Proof. vm_cast_no_check (eq_refl true). Qed.
Lemma vr_compiled : compiled (vr_re shipped). Proof. exact (compile_all_compiled _). Qed.
Lemma words_compiled : compiled [re_tablet shipped; re_mobile shipped].
Proof. intros r [<-|[<-|[]]]; vm_compute; reflexivity. Qed.
Lemma shipped_bare mC mD h ua : short ua -> weight ua < 2 ->
  (forall g, In g [GClientType; GDeviceType] -> alone shipped mC mD h ua g = Ok (VN 0)) /\
  (forall g, In g [GOS; GBrand] -> alone shipped mC mD h ua g = Ok (VB (bs "UNK"))) /\
  alone shipped mC mD 0 ua GBrowser = Ok (VB (bs "UNK")) /\
  (forall g, In g [GBrowserVersionString; GEngine; GEngineVersionString; GOSVersionString; GModel] -> alone shipped mC mD h ua g = Ok (VB [])).
Proof.
  intros L W.
  apply (bare_answers shipped mC mD h ua cr_compiled or_compiled dr_compiled vr_compiled words_compiled shipped_clients_demand shipped_systems_demand
    shipped_devices_demand shipped_vendors_demand shipped_client_sane shipped_os_sane shipped_device_sane L W).
  assert (D : detects shipped mC mD ua).
  { apply (shipped_detects mC mD ua L). intros t idx x CI. exfalso.
    exact (client_is_some _ _ _ _ _ _ CI (bare_client shipped cr_compiled mC ua shipped_clients_demand W)). }
  intros h' g. exact (alone_fine mC mD h' ua g L D).
Qed.

(** ** Two are enough *)
Definition hits (res : list regex) (ri : Z) (ua : bytes) : bool :=
  if (0 <=? ri)%Z then match nth_error res (Z.to_nat ri) with Some r => match re_find r ua with Some _ => true | None => false end | None => false end else false.
Lemma hits_ok res buf ri m64 ua : hits res ri ua = true -> applies res buf ri m64 ua.
Proof.
  unfold hits. destruct (Z.leb_spec 0 ri) as [L|]; [|discriminate]. destruct (nth_error res _) as [r|] eqn:N; [|discriminate].
  destruct (re_find r ua) eqn:F; [|discriminate]. intros _. left. split; [exact L|]. exists r. split; [exact N|]. congruence.
Qed.
Definition enough (T : tables) (ua1 ua2 ua3 : bytes) (k1 n1 n2 k3 n3 : nat) : bool :=
  match nth_error (cr_idx T) k1, nth_error (or_os T) n2, nth_error (dr_idx T) k3 with
  | Some l1, Some x2, Some l3 =>
      match nth_error l1 n1, nth_error l3 n3 with
      | Some x1, Some x3 => hits (cr_re T) (ct_matchRI x1) ua1 && hits (or_re T) (ot_matchRI x2) ua2 && hits (dr_re T) (dt_matchRI x3) ua3
      | _, _ => false
      end
  | _, _, _ => false
  end.
Lemma enough_ok T t1 t3 d3 ua1 ua2 ua3 k1 n1 n2 k3 n3 : (forall ua x, ~ skipped T ua x) -> In (t1, k1) client_order -> In (t3, k3, d3) device_order ->
  enough T ua1 ua2 ua3 k1 n1 n2 k3 n3 = true ->
  (forall mask, on mask t1 -> ~ no_client T mask ua1) /\ ~ no_os T ua2 /\ (forall mask, on mask t3 -> ~ no_device T mask ua3).
Proof.
  intros NS I1 I3 H. unfold enough in H. destruct (nth_error (cr_idx T) k1) as [l1|] eqn:E1; [|discriminate H].
  destruct (nth_error (or_os T) n2) as [x2|] eqn:E2; [|discriminate H]. destruct (nth_error (dr_idx T) k3) as [l3|] eqn:E3; [|discriminate H].
  destruct (nth_error l1 n1) as [x1|] eqn:F1; [|discriminate H]. destruct (nth_error l3 n3) as [x3|] eqn:F3; [|discriminate H].
  apply andb_prop in H. destruct H as [H H3]. apply andb_prop in H. destruct H as [H1 H2]. split; [|split].
  - intros mask O N. unfold no_client in N. rewrite Forall_forall in N. destruct (N _ I1 O) as (ir & E & Z). cbn [snd] in E. rewrite E1 in E. injection E as <-.
    apply (Z x1 (nth_error_In _ _ F1)). exact (hits_ok _ _ _ _ _ H1).
  - intros N. apply (N x2 (nth_error_In _ _ E2)). split; [apply NS|exact (hits_ok _ _ _ _ _ H2)].
  - intros mask O N. unfold no_device in N. rewrite Forall_forall in N. destruct (N _ I3 O) as (ir & E & Z). cbn [fst snd] in E. rewrite E3 in E. injection E as <-.
    apply (Z x3 (nth_error_In _ _ F3)). exact (hits_ok _ _ _ _ _ H3).
Qed.

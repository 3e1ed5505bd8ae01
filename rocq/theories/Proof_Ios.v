(** Safari on iPads and iPhones: the device. *)
From Verif Require Import Model_Base Model_CacheEntry Model_Regex Model_Ctx Model_Parse Model_Shipped Spec_Regex Spec_Getters Spec_Select Spec_Word Spec_Panic Spec_Family Spec_Ios
  Proof_Base Proof_Pattern Proof_Word Proof_Covers Proof_Quick Proof_Index Proof_Shadow Proof_Bare Proof_Charset Proof_Agree Proof_Select Proof_OS Proof_Choice
  Proof_Live Proof_Tables Proof_Fine Proof_StaleShipped Proof_Reports Proof_Family Proof_Tail Proof_Desktop Proof_DesktopBrowser Proof_DesktopShipped Proof_DesktopDevice.
From Coq Require Import Lia ZifyBool ZifyNat ZifyN.
Open Scope nat_scope.

(** ** Matches in the middle *)
Fixpoint inner (a : re) : re :=
  match a with Bol | Eol => Cls false [] | Cat a b => Cat (inner a) (inner b) | Alt a b => Alt (inner a) (inner b) | Star g a => Star g (inner a) | Grp n a => Grp n (inner a) | _ => a end.
Lemma inner_ok b u v w : lang b u v w -> forall a, b = inner a -> forall u' w', lang a u' v w'.
Proof.
  induction 1; intros [ |neg' rs'| | |a1 a2|a1 a2|g' a1|n' a1] E u' w'; cbn [inner] in E; try discriminate E; try (injection E as; subst); try (constructor; eauto; fail).
  all: try discriminate H.
  all: apply L_more; eauto.
Qed.
Definition hits_inner (src : bytes) (mid : bytes) : bool :=
  match parse_re src with Some (a, _) => tries (inner a) (places true (map chr mid)) | None => false end.
Lemma hits_inner_ok src mid x y : ascii (x ++ mid ++ y) -> hits_inner src mid = true -> re_find (compile src) (x ++ mid ++ y) <> None.
Proof.
  intros A H. unfold hits_inner in H. destruct (parse_re src) as [[a ng]|] eqn:P; [|discriminate H]. apply tries_found in H as (u & v & w & E & L).
  apply (proj2 (compile_lang src a ng _ P)). exists (map chr x ++ u), v, (w ++ map chr y). split; [|exact (inner_ok _ _ _ _ L a eq_refl _ _)].
  rewrite (runes_ascii_all _ A), !map_app. fold chr. change (map (fun b => (bn b, 1)) mid) with (map chr mid). rewrite E, <- !app_assoc. reflexivity.
Qed.

(** ** The families *)
Definition dig_item : list item := [(digs, false)].
Lemma gen_dig is w d : gen is w -> digit d -> gen (dig_item ++ is) (map chr [d] ++ w).
Proof. intros G D. exact (G_one digs false is (bn d) w (digit_in d D) G). Qed.
Definition ios_items (device system : bytes) : list item :=
  lit_items (bs "Mozilla/5.0 (" ++ device ++ bs "; CPU " ++ system ++ bs " ") ++ num_items ++ lit_items (bs "_") ++ dig_item ++
  lit_items (bs " like Mac OS X) AppleWebKit/605.1.15 (KHTML, like Gecko) Version/") ++ num_items ++ lit_items (bs ".") ++ dig_item ++ lit_items (bs " Mobile/15E148 Safari/604.1").
Lemma ios_gen device system ua : ios_ua device system ua -> gen (ios_items device system) (map chr ua).
Proof.
  intros [n d m e Hn Hd Hm He]. unfold ios_items, safari_ua.
  replace (bs "Mozilla/5.0 (" ++ device ++ bs "; CPU " ++ system ++ bs " " ++ n ++ bs "_" ++ [d] ++
    bs " like Mac OS X) AppleWebKit/605.1.15 (KHTML, like Gecko) Version/" ++ m ++ bs "." ++ [e] ++ bs " Mobile/15E148 Safari/604.1")
    with ((bs "Mozilla/5.0 (" ++ device ++ bs "; CPU " ++ system ++ bs " ") ++ n ++ bs "_" ++ [d] ++
    bs " like Mac OS X) AppleWebKit/605.1.15 (KHTML, like Gecko) Version/" ++ m ++ bs "." ++ [e] ++ bs " Mobile/15E148 Safari/604.1") by (rewrite <- !app_assoc; reflexivity).
  rewrite (map_app chr (bs "Mozilla/5.0 (" ++ _)). apply gen_lit. rewrite (map_app chr n). apply gen_num; [|exact Hn].
  rewrite (map_app chr (bs "_")). apply gen_lit. rewrite (map_app chr [d]). apply gen_dig; [|exact Hd].
  rewrite (map_app chr (bs " like Mac OS X) AppleWebKit/605.1.15 (KHTML, like Gecko) Version/")). apply gen_lit. rewrite (map_app chr m). apply gen_num; [|exact Hm].
  rewrite (map_app chr (bs ".")). apply gen_lit. rewrite (map_app chr [e]). apply gen_dig; [|exact He]. apply gen_end.
Qed.

(** ** What is computed *)
Definition phone_miss (T : tables) (l : list (list item)) (stop stop' : nat) : bool :=
  let t := numbered (dr_re T) in let ps := numbered (pages 400 (dr_buf T)) in
  let Fs := map fam_of l in
  let f := fun x : deviceTuple => quick_at t ps (dt_matchRI x) (dt_match64 x) in
  if forallb (class_silent T f Fs) [0; 1; 2; 5; 6; 7] then
    match nth_error (dr_idx T) 3 with
    | Some ir =>
        if table_miss f (map (fun F => (F, N.of_nat stop)) Fs) 0 ir then
          match nth_error ir stop with
          | Some x => table_miss (fun m => quick_at t ps (mt_matchRI m) (mt_match64 m)) (map (fun F => (F, N.of_nat stop')) Fs) 0 (models T x)
          | None => false
          end
        else false
    | None => false
    end
  else false.
Definition phone_entry (T : tables) (mids : list bytes) (mid : bytes) (stop stop' : nat) (brand model : bytes) (ty : N) : bool :=
  match nth_error (dr_idx T) 3 with
  | Some ir =>
      match nth_error ir stop with
      | Some x =>
          (0 <=? dt_matchRI x)%Z && (dt_modelSI x =? -1)%Z && negb (dt_models64 x =? 0)%N && negb (dt_brand64 x =? 0)%N &&
          match slice64 (dr_buf T) (dt_brand64 x) with Ok s => beqs s brand | Panic => false end && beqs (trim brand x20) brand &&
          match nth_error (dr_re T) (Z.to_nat (dt_matchRI x)) with Some r => forallb (hits_inner (re_src r)) mids | None => false end &&
          match nth_error (models T x) stop' with
          | Some m =>
              (0 <=? mt_matchRI m)%Z &&
              match nth_error (dr_re T) (Z.to_nat (mt_matchRI m)) with Some r => hits_inner (re_src r) mid | None => false end &&
              match slice64 (dr_buf T) (mt_model64 m) with Ok s => beqs s model && negb (existsb (Byte.eqb x24) model) | Panic => false end && beqs (trim model x20) model &&
              match slice64 (dr_buf T) (mt_type64 m) with Ok s => existsb (fun q => beqs s (fst q) && (snd q =? ty)%N) type_names | Panic => false end
          | None => false
          end
      | None => false
      end
  | None => false
  end.

Section Phone.
Variable T : tables.
Hypothesis C3 : compiled (dr_re T).
Hypothesis S3 : device_sane T.
Variables (l : list (list item)) (stop stop' : nat) (mids : list bytes) (mid brand model : bytes) (ty : N).
Hypothesis PM : phone_miss T l stop stop' = true.
Hypothesis PE : phone_entry T mids mid stop stop' brand model ty = true.
Variables (items : list item) (ua : bytes) (mC mD : N).
Hypothesis HI : In items l.
Hypothesis FF : fixed_first items = true.
Hypothesis HA : ascii ua.
Hypothesis HG : gen items (runes ua).
Hypothesis H1 : exists a m b, In m mids /\ ua = a ++ m ++ b.
Hypothesis H2 : exists a b, ua = a ++ mid ++ b.
Hypothesis L : short ua.
Hypothesis O : on mD 2.
Hypothesis NP : forall h g, In g [GDeviceType; GBrand; GModel] -> alone T mC mD h ua g <> Panic.
Lemma hit_applies_inner ri e r m : (0 <= ri)%Z -> nth_error (dr_re T) (Z.to_nat ri) = Some r -> hits_inner (re_src r) m = true -> (exists a b, ua = a ++ m ++ b) ->
  applies (dr_re T) (dr_buf T) ri e ua.
Proof.
  intros R Nr Hh (a & b & E). left. split; [exact R|]. exists r. split; [exact Nr|]. rewrite (C3 r (nth_error_In _ _ Nr)).
  pose proof HA as A. rewrite E in A |- *. exact (hits_inner_ok (re_src r) m a b A Hh).
Qed.
Lemma phone_answers h : alone T mC mD h ua GDeviceType = Ok (VN ty) /\ alone T mC mD h ua GBrand = Ok (VB brand) /\ alone T mC mD h ua GModel = Ok (VB model).
Proof.
  pose proof PM as P0. unfold phone_miss in P0. cbv zeta in P0.
  set (t := numbered (dr_re T)) in P0. set (ps := numbered (pages 400 (dr_buf T))) in P0.
  destruct (forallb (class_silent T _ _) _) eqn:CS in P0; [|discriminate P0]. rewrite forallb_forall in CS.
  unfold phone_entry in PE. destruct (nth_error (dr_idx T) 3) as [ir|] eqn:E3; [|discriminate P0].
  destruct (table_miss _ _ _ ir) eqn:TM in P0; [|discriminate P0]. destruct (nth_error ir stop) as [x|] eqn:Nx; [|discriminate P0]. rename P0 into MM.
  apply andb_prop in PE as [H Hm]. apply andb_prop in H as [H Hr]. apply andb_prop in H as [H Hb2]. apply andb_prop in H as [H Hb1].
  apply andb_prop in H as [H Hb0]. apply andb_prop in H as [H Hm64]. apply andb_prop in H as [HR HSI].
  destruct (slice64 (dr_buf T) (dt_brand64 x)) as [s0|] eqn:Sb; [|discriminate Hb1]. apply beqs_eq in Hb1 as ->. apply beqs_eq in Hb2.
  destruct (nth_error (dr_re T) (Z.to_nat (dt_matchRI x))) as [r|] eqn:Nr; [|discriminate Hr]. rewrite forallb_forall in Hr.
  destruct (nth_error (models T x) stop') as [m|] eqn:Nm; [|discriminate Hm].
  apply andb_prop in Hm as [Hm Hty]. apply andb_prop in Hm as [Hm Htr]. apply andb_prop in Hm as [Hm Hmod]. apply andb_prop in Hm as [HmR Hmr].
  destruct (nth_error (dr_re T) (Z.to_nat (mt_matchRI m))) as [rm|] eqn:Nrm; [|discriminate Hmr].
  destruct (slice64 (dr_buf T) (mt_model64 m)) as [s1|] eqn:Smo; [|discriminate Hmod]. apply andb_prop in Hmod as [Hmo Hdol]. apply beqs_eq in Hmo as ->. apply beqs_eq in Htr.
  destruct (slice64 (dr_buf T) (mt_type64 m)) as [s2|] eqn:Sty; [|discriminate Hty]. apply existsb_exists in Hty as ([s3 ty'] & Ity & Ety). cbn [fst snd] in Ety.
  apply andb_prop in Ety as [Ety1 Ety2]. apply beqs_eq in Ety1 as ->. apply N.eqb_eq in Ety2 as ->.
  assert (MISS : forall ri e, fam_miss (fam_of items) (quick_at t ps ri e) = true -> ~ applies (dr_re T) (dr_buf T) ri e ua)
    by (intros ri e; exact (quick_at_ok items 400 _ _ _ _ ua FF C3 HA HG)).
  assert (IFs : In (fam_of items) (map fam_of l)) by (apply in_map; exact HI).
  assert (DI : device_is T mD ua 2 3 2 x).
  { exists [(128, 0%nat, 128); (256, 1%nat, 256); (16, 2%nat, 16); (512, 5%nat, 1); (64, 6%nat, 64); (32, 7%nat, 32)]%N, [(1%N, 4, 1%N)], ir. split; [reflexivity|]. split.
    - apply Forall_forall. intros [[bt k] d] I _. cbn [fst snd].
      assert (K : In k [0; 1; 2; 5; 6; 7]) by (cbn in I |- *; repeat (destruct I as [I|I]; [injection I as <- <- <-; tauto|]); destruct I).
      specialize (CS k K). unfold class_silent in CS. destruct (nth_error (dr_idx T) k) as [ir'|]; [|discriminate CS]. exists ir'. split; [reflexivity|].
      intros y Iy. rewrite forallb_forall in CS. specialize (CS y Iy). cbv zeta in CS. rewrite forallb_forall in CS. apply MISS. exact (CS _ IFs).
    - split; [exact O|]. split; [exact E3|]. pose proof Nx as Nk. apply nth_error_split in Nk as (l1 & l2 & E2 & L1). exists l1, l2. split; [exact E2|]. split.
      + destruct H1 as (a & mm & b & Im & E). apply (hit_applies_inner (dt_matchRI x) (dt_match64 x) r mm ltac:(clear - HR; lia) Nr (Hr mm Im)). eauto.
      + intros y Iy. apply In_nth_error in Iy as [j Nj]. assert (Lj : j < length l1) by (apply nth_error_Some; rewrite Nj; discriminate).
        apply MISS. refine (table_miss_ok _ _ ir 0%N TM (fam_of items) (N.of_nat stop) j y (in_map (fun F => (F, N.of_nat stop)) _ _ IFs) _ _); [|clear - Lj L1; lia].
        rewrite E2, nth_error_app1 by exact Lj. exact Nj. }
  assert (FM : first (model_applies T ua) (models T x) m).
  { pose proof Nm as Nk. apply nth_error_split in Nk as (l1 & l2 & E2 & L1). exists l1, l2. split; [exact E2|]. split.
    + apply (hit_applies_inner (mt_matchRI m) (mt_match64 m) rm mid ltac:(clear - HmR; lia) Nrm Hmr H2).
    + intros y Iy. apply In_nth_error in Iy as [j Nj]. assert (Lj : j < length l1) by (apply nth_error_Some; rewrite Nj; discriminate).
      apply MISS. refine (table_miss_ok _ _ (models T x) 0%N MM (fam_of items) (N.of_nat stop') j y (in_map (fun F => (F, N.of_nat stop')) _ _ IFs) _ _); [|clear - Lj L1; lia].
      rewrite E2, nth_error_app1 by exact Lj. exact Nj. }
  assert (MI : forall o, model_is T ua x o -> o = Some (mt_matchRI m, m)).
  { intros o [m' SI _|m' _ _ Fm'|_ [Z0|Nn]].
    - exfalso. clear - SI HSI. lia.
    - rewrite (first_unique _ _ _ _ FM Fm'). reflexivity.
    - exfalso. clear - Z0 Hm64. lia.
    - destruct FM as (l1 & l2 & E2 & A & _). destruct (Nn m); [rewrite E2; apply in_elt|exact A]. }
  destruct (device_reports T mC mD h ua S3 L) as [RT RB]. split; [|split].
  - destruct (number_value T mC mD h ua GDeviceType ltac:(cbn; auto) (NP h GDeviceType ltac:(cbn; auto))) as [tt Ht]. rewrite Ht.
    destruct (proj1 (RT tt Ht) 2%N 3 2%N x DI) as [ri m' t' Mi TF|t' Mi _ _|Mi _].
    + apply MI in Mi. injection Mi as -> ->. destruct TF as (s & Ts & [[Ns TC]|[Es _]]); apply text_slice in Ts; rewrite Sty in Ts; injection Ts as <-.
      * destruct TC as [I'|[I' _]]; [|destruct (I' ty Ity)].
        assert (Q : forall u w z, In (u, w) type_names -> In (u, z) type_names -> w = z).
        { clear. intros u w z I J. unfold type_names in I, J. cbn [In] in I, J.
          repeat (destruct I as [I|I]; [injection I as <- <-; repeat (destruct J as [J|J]; [try discriminate J; injection J as <-; reflexivity|]); destruct J|]). destruct I. }
        rewrite (Q _ _ _ I' Ity). reflexivity.
      * exfalso. rewrite Es in Ity. clear - Ity. unfold type_names in Ity. cbn [In] in Ity. repeat (destruct Ity as [I|Ity]; [discriminate I|]). destruct Ity.
    + apply MI in Mi. discriminate Mi.
    + apply MI in Mi. discriminate Mi.
  - destruct (text_value T mC mD h ua GBrand ltac:(cbn; auto 10) (NP h GBrand ltac:(cbn; auto))) as [b Hb]. rewrite Hb.
    destruct (proj1 (RB b Hb) 2%N 3 2%N x DI) as [[Z0 _]|(_ & w & Tw & Tr)]; [exfalso; clear - Z0 Hb0; lia|].
    apply text_slice in Tw. rewrite Sb in Tw. injection Tw as <-. rewrite (trimmed_fun _ _ _ Tr (trim_trimmed brand)), Hb2. reflexivity.
  - destruct (text_value T mC mD h ua GModel ltac:(cbn; auto 10) (NP h GModel ltac:(cbn; auto))) as [b Hb]. rewrite Hb.
    destruct (proj1 (model_reports T mC mD h ua b S3 L Hb) 2%N 3 2%N x DI) as (w & MT & Tr).
    assert (w = model) as ->.
    { assert (ND : ~ In x24 model) by (intros I'; apply Bool.negb_true_iff in Hdol; rewrite <- Bool.not_true_iff_false in Hdol; apply Hdol, existsb_exists; exists x24; split; [exact I'|reflexivity]).
      destruct MT as [Mi|ri m' s Mi Rn Ts|ri m' r' ms tpl out Mi _ _ _ Ts Ex]; apply MI in Mi; try discriminate Mi.
      - injection Mi as -> ->. exfalso. clear - Rn HmR. lia.
      - injection Mi as -> ->. apply text_slice in Ts. rewrite Smo in Ts. injection Ts as <-. inversion Ex as [s _|pre d rest s o _ _ _ _ E'|pre rest s o _ _ _ E'|pre d rest _ _ E']; subst; try reflexivity;
          exfalso; apply ND; rewrite ?E'; apply in_or_app; right; left; reflexivity. }
    rewrite (trimmed_fun _ _ _ Tr (trim_trimmed model)), Htr. reflexivity.
Qed.
End Phone.

(** ** The shipped tables *)
Definition ios_families : list (list item) := [ios_items (bs "iPad") (bs "OS"); ios_items (bs "iPhone") (bs "iPhone OS")].
Lemma shipped_phone_miss : phone_miss shipped ios_families 106 172 = true.
Proof. vm_cast_no_check (eq_refl true). Qed.
Lemma shipped_phone_entry : phone_entry shipped [bs "iPad"; bs "iPhone"] (bs " X)") 106 172 (bs "Apple") (bs "iPhone X") 4 = true.
Proof. vm_compute. reflexivity. Qed.
Lemma ios_fine : forallb (fun items => fixed_first items && forallb (fun it => forallb (fun x => (x <? 128)%N) (fst it)) items) ios_families = true.
Proof. vm_compute. reflexivity. Qed.
Lemma shipped_ios device system ua mC mD h : In (device, system) [(bs "iPad", bs "OS"); (bs "iPhone", bs "iPhone OS")] -> ios_ua device system ua -> short ua -> on mD 2 ->
  alone shipped mC mD h ua GDeviceType = Ok (VN 4) /\ alone shipped mC mD h ua GBrand = Ok (VB (bs "Apple")) /\ alone shipped mC mD h ua GModel = Ok (VB (bs "iPhone X")).
Proof.
  intros Id Iu L O. pose proof (ios_gen device system ua Iu) as G.
  assert (II : In (ios_items device system) ios_families) by (cbn [In] in Id; destruct Id as [E|[E|[]]]; injection E as <- <-; [left|right; left]; reflexivity).
  pose proof ios_fine as F. rewrite forallb_forall in F. specialize (F _ II). apply andb_prop in F as [FF F].
  assert (HA : ascii ua).
  { apply (gen_ascii (ios_items device system) ua G). apply Forall_forall. intros it I. rewrite forallb_forall in F. specialize (F it I).
    apply Forall_forall. intros x Ix. rewrite forallb_forall in F. specialize (F x Ix). lia. }
  assert (GR : gen (ios_items device system) (runes ua)) by (rewrite (runes_ascii_all ua HA); exact G).
  refine (phone_answers shipped dr_compiled shipped_device_sane ios_families 106 172 [bs "iPad"; bs "iPhone"] (bs " X)") (bs "Apple") (bs "iPhone X") 4 shipped_phone_miss shipped_phone_entry
    (ios_items device system) ua mC mD II FF HA GR _ _ L O (fun h' g Ig => shipped_device_no_panic mC mD h' ua g L Ig) h); destruct Iu as [n d m e Hn Hd Hm He]; unfold safari_ua.
  - exists (bs "Mozilla/5.0 ("), device. eexists. split; [|reflexivity]. cbn [In] in Id |- *. destruct Id as [E|[E|[]]]; injection E as <- _; auto.
  - exists (bs "Mozilla/5.0 (" ++ device ++ bs "; CPU " ++ system ++ bs " " ++ n ++ bs "_" ++ [d] ++ bs " like Mac OS"),
      (bs " AppleWebKit/605.1.15 (KHTML, like Gecko) Version/" ++ m ++ bs "." ++ [e] ++ bs " Mobile/15E148 Safari/604.1"). rewrite <- !app_assoc. reflexivity.
Qed.
Lemma ipad_17 : ipad_ua (bs "Mozilla/5.0 (iPad; CPU OS 17_4 like Mac OS X) AppleWebKit/605.1.15 (KHTML, like Gecko) Version/17.4 Mobile/15E148 Safari/604.1").
Proof.
  apply (IU (bs "iPad") (bs "OS") (bs "17") x34 (bs "17") x34); try (apply is_numeral_ok; reflexivity); unfold digit; vm_compute; split; discriminate.
Qed.
Lemma ipad_device ua mC mD h : ipad_ua ua -> short ua -> on mD 2 ->
  alone shipped mC mD h ua GDeviceType = Ok (VN 4) /\ alone shipped mC mD h ua GBrand = Ok (VB (bs "Apple")) /\ alone shipped mC mD h ua GModel = Ok (VB (bs "iPhone X")).
Proof. exact (shipped_ios (bs "iPad") (bs "OS") ua mC mD h (or_introl eq_refl)). Qed.
Lemma iphone_device ua mC mD h : iphone_ua ua -> short ua -> on mD 2 ->
  alone shipped mC mD h ua GDeviceType = Ok (VN 4) /\ alone shipped mC mD h ua GBrand = Ok (VB (bs "Apple")) /\ alone shipped mC mD h ua GModel = Ok (VB (bs "iPhone X")).
Proof. exact (shipped_ios (bs "iPhone") (bs "iPhone OS") ua mC mD h (or_intror (or_introl eq_refl))). Qed.
Lemma ipad_not_tablet : exists ua mC mD, ipad_ua ua /\ short ua /\ on mD 2 /\ on mD 1 /\ alone shipped mC mD 0 ua GDeviceType <> Ok (VN 8) /\ alone shipped mC mD 0 ua GModel = Ok (VB (bs "iPhone X")).
Proof.
  exists (bs "Mozilla/5.0 (iPad; CPU OS 17_4 like Mac OS X) AppleWebKit/605.1.15 (KHTML, like Gecko) Version/17.4 Mobile/15E148 Safari/604.1"), 63%N, 1023%N.
  assert (L : short (bs "Mozilla/5.0 (iPad; CPU OS 17_4 like Mac OS X) AppleWebKit/605.1.15 (KHTML, like Gecko) Version/17.4 Mobile/15E148 Safari/604.1")) by (apply short_200; reflexivity).
  assert (O : on 1023 2) by discriminate. destruct (ipad_device _ 63 1023 0 ipad_17 L O) as (Q1 & _ & Q3).
  split; [exact ipad_17|]. split; [exact L|]. split; [exact O|]. split; [discriminate|]. split; [rewrite Q1; discriminate|exact Q3].
Qed.

(** The devices of the desktop families with frozen versions. *)
From Verif Require Import Model_Base Model_CacheEntry Model_Regex Model_Ctx Model_Parse Model_Shipped Spec_Regex Spec_Getters Spec_Select Spec_Word Spec_Panic Spec_Family
  Proof_Base Proof_Pattern Proof_Word Proof_Covers Proof_Quick Proof_Index Proof_Shadow Proof_Bare Proof_Charset Proof_Agree Proof_Select Proof_Choice
  Proof_Live Proof_Tables Proof_Fine Proof_StaleShipped Proof_Reports Proof_OsInside Proof_Family Proof_Tail Proof_Desktop Proof_DesktopBrowser Proof_DesktopSystem
  Proof_DesktopShipped.
From Coq Require Import Lia ZifyBool ZifyNat ZifyN.
Open Scope nat_scope.

(** ** Frozen versions *)
Definition num_items : list item := [(digs, true)].
Lemma digit_in b : digit b -> In (bn b) digs.
Proof. intros D. apply digs_in, digit_d, D. Qed.
Lemma gen_num is w : gen is w -> forall n, numeral n -> gen (num_items ++ is) (map chr n ++ w).
Proof.
  intros G n [Nn F]. cbn [num_items app]. induction F as [|b n D F IH]; [contradiction (Nn eq_refl)|]. destruct n as [|c n].
  - cbn [map app]. apply digit_in in D. exact (G_one digs true is (bn b) w D G).
  - cbn [map app]. refine (G_more digs is (bn b) _ (digit_in b D) _). apply IH. discriminate.
Qed.
Lemma numeral_version n z : numeral n -> z <> [] -> Forall (fun b => digit b \/ b = x2e) z -> (forall y, z <> y ++ [x2e]) -> version_number (n ++ z).
Proof.
  intros [Nn F] Nz Fz E. destruct F as [|d n D F]; [contradiction (Nn eq_refl)|]. exists d, (n ++ z). split; [reflexivity|]. split; [exact D|].
  split; [destruct n; [exact Nz|discriminate]|]. split.
  - apply Forall_app. split; [|exact Fz]. revert F. apply Forall_impl. auto.
  - intros y H. destruct (exists_last Nz) as (z' & b & ->). change ((d :: n) ++ z' ++ [b] = y ++ [x2e]) in H. rewrite app_assoc in H.
    apply app_inj_tail in H as [_ ->]. exact (E z' eq_refl).
Qed.
Lemma dot_zeros k : k <> 0 -> Forall (fun b => digit b \/ b = x2e) (concat (repeat (bs ".0") k)) /\ forall y, concat (repeat (bs ".0") k) <> y ++ [x2e].
Proof.
  intros Nk. split.
  - apply Forall_concat. apply Forall_forall. intros x I. apply repeat_spec in I as ->. constructor; [right; reflexivity|constructor; [left; unfold digit; vm_compute; split; discriminate|constructor]].
  - destruct k as [|k]; [contradiction (Nk eq_refl)|]. intros y H. rewrite <- (Nat.add_1_r k), repeat_app, concat_app in H. change (concat (repeat (bs ".0") 1)) with ([x2e] ++ [x30]) in H.
    rewrite app_assoc in H. apply app_inj_tail in H as [_ H]. discriminate H.
Qed.
Lemma frozen_version n : numeral n -> version_number (frozen n).
Proof. intros Hn. destruct (dot_zeros 3 ltac:(discriminate)) as [F E]. exact (numeral_version n (bs ".0.0.0") Hn ltac:(discriminate) F E). Qed.
Lemma frozen_short_version n : numeral n -> version_number (frozen_short n).
Proof. intros Hn. destruct (dot_zeros 1 ltac:(discriminate)) as [F E]. exact (numeral_version n (bs ".0") Hn ltac:(discriminate) F E). Qed.

(** ** The families *)
Definition chrome_frozen (sys : bytes) : list item :=
  lit_items (bs "Mozilla/5.0 (" ++ sys ++ bs ") AppleWebKit/537.36 (KHTML, like Gecko) Chrome/") ++ num_items ++ lit_items (bs ".0.0.0 Safari/537.36").
Definition edge_frozen (sys : bytes) : list item :=
  lit_items (bs "Mozilla/5.0 (" ++ sys ++ bs ") AppleWebKit/537.36 (KHTML, like Gecko) Chrome/") ++ num_items ++ lit_items (bs ".0.0.0 Safari/537.36 Edg/") ++ num_items ++ lit_items (bs ".0.0.0").
Definition firefox_frozen (sys : bytes) : list item :=
  lit_items (bs "Mozilla/5.0 (" ++ sys ++ bs "; rv:") ++ num_items ++ lit_items (bs ".0) Gecko/20100101 Firefox/") ++ num_items ++ lit_items (bs ".0").
Definition frozen_families (s : bytes) : list (list item) := [chrome_frozen s; edge_frozen s; firefox_frozen s].
Lemma gen_end s : gen (lit_items s) (map chr s).
Proof. rewrite <- (app_nil_r (lit_items s)), <- (app_nil_r (map chr s)). apply gen_lit. constructor. Qed.
Lemma frozen_gen sys ua : frozen_ua sys ua -> exists items, In items (frozen_families sys) /\ gen items (map chr ua).
Proof.
  intros [n Hn|n e Hn He|r n Hr Hn].
  - exists (chrome_frozen sys). split; [left; reflexivity|]. unfold chrome_frozen, chrome_ua, frozen.
    replace (bs "Mozilla/5.0 (" ++ sys ++ bs ") AppleWebKit/537.36 (KHTML, like Gecko) Chrome/" ++ (n ++ bs ".0.0.0") ++ bs " Safari/537.36")
      with ((bs "Mozilla/5.0 (" ++ sys ++ bs ") AppleWebKit/537.36 (KHTML, like Gecko) Chrome/") ++ n ++ bs ".0.0.0 Safari/537.36") by (rewrite <- !app_assoc; reflexivity).
    rewrite map_app. apply gen_lit. rewrite map_app. apply gen_num; [apply gen_end|exact Hn].
  - exists (edge_frozen sys). split; [right; left; reflexivity|]. unfold edge_frozen, edge_ua, chrome_ua, frozen.
    replace ((bs "Mozilla/5.0 (" ++ sys ++ bs ") AppleWebKit/537.36 (KHTML, like Gecko) Chrome/" ++ (n ++ bs ".0.0.0") ++ bs " Safari/537.36") ++ bs " Edg/" ++ e ++ bs ".0.0.0")
      with ((bs "Mozilla/5.0 (" ++ sys ++ bs ") AppleWebKit/537.36 (KHTML, like Gecko) Chrome/") ++ n ++ bs ".0.0.0 Safari/537.36 Edg/" ++ e ++ bs ".0.0.0") by (rewrite <- !app_assoc; reflexivity).
    rewrite map_app. apply gen_lit. rewrite map_app. apply gen_num; [|exact Hn]. rewrite map_app. apply gen_lit. rewrite map_app. apply gen_num; [apply gen_end|exact He].
  - exists (firefox_frozen sys). split; [right; right; left; reflexivity|]. unfold firefox_frozen, firefox_ua, frozen_short.
    replace (bs "Mozilla/5.0 (" ++ sys ++ bs "; rv:" ++ (r ++ bs ".0") ++ bs ") Gecko/20100101 Firefox/" ++ n ++ bs ".0")
      with ((bs "Mozilla/5.0 (" ++ sys ++ bs "; rv:") ++ r ++ bs ".0) Gecko/20100101 Firefox/" ++ n ++ bs ".0") by (rewrite <- !app_assoc; reflexivity).
    rewrite map_app. apply gen_lit. rewrite map_app. apply gen_num; [|exact Hr]. rewrite map_app. apply gen_lit. rewrite map_app. apply gen_num; [apply gen_end|exact Hn].
Qed.

(** ** No device, no vendor, no tablet or mobile word *)
Definition class_silent (T : tables) (f : deviceTuple -> quick) (Fs : list fam) (i : nat) : bool :=
  match nth_error (dr_idx T) i with Some ir => forallb (fun x => let q := f x in forallb (fun F => fam_miss F q) Fs) ir | None => false end.
Definition devices_silent (T : tables) (l : list (list item)) : bool :=
  let t := numbered (dr_re T) in let ps := numbered (pages 400 (dr_buf T)) in
  let Fs := map fam_of l in
  forallb (class_silent T (fun x => quick_at t ps (dt_matchRI x) (dt_match64 x)) Fs) [0; 1; 2; 5; 6; 7; 3; 4].
Definition vendors_silent (T : tables) (l : list (list item)) : bool :=
  let Fs := map fam_of l in
  forallb (fun r => let q := quick_re (re_src r) in forallb (fun F => fam_miss F q) Fs) (re_tablet T :: re_mobile T :: vr_re T).

Section Device.
Variable T : tables.
Hypothesis C3 : compiled (dr_re T).
Hypothesis C4 : compiled (vr_re T).
Hypothesis C5 : compiled [re_tablet T; re_mobile T].
Hypothesis S3 : device_sane T.
Variable l : list (list item).
Hypothesis DS : devices_silent T l = true.
Hypothesis VS : vendors_silent T l = true.
Variables (items : list item) (ua : bytes).
Hypothesis HI : In items l.
Hypothesis FF : fixed_first items = true.
Hypothesis HA : ascii ua.
Hypothesis HG : gen items (runes ua).
Lemma frozen_no_device mask : no_device T mask ua.
Proof.
  unfold no_device, device_silent. rewrite Forall_forall. intros [[t k] d] I _. pose proof DS as H. unfold devices_silent in H. cbv zeta in H. rewrite forallb_forall in H.
  assert (K : In k [0; 1; 2; 5; 6; 7; 3; 4]) by (cbn in I |- *; repeat (destruct I as [I|I]; [injection I as <- <- <-; tauto|]); destruct I).
  specialize (H k K). unfold class_silent in H. cbn [fst snd]. destruct (nth_error (dr_idx T) k) as [ir|]; [|discriminate H]. exists ir. split; [reflexivity|].
  intros x Ix. rewrite forallb_forall in H. specialize (H x Ix). cbv zeta in H. rewrite forallb_forall in H.
  exact (quick_at_ok items 400 _ _ _ _ ua FF C3 HA HG (H _ (in_map fam_of l items HI))).
Qed.
Lemma frozen_miss r : In r (re_tablet T :: re_mobile T :: vr_re T) -> re_find r ua = None.
Proof.
  intros I. pose proof VS as H. unfold vendors_silent in H. cbv zeta in H. rewrite forallb_forall in H. specialize (H r I). cbv zeta in H. rewrite forallb_forall in H.
  assert (E : r = compile (re_src r)) by (destruct I as [<-|[<-|I]]; [apply C5; left; reflexivity|apply C5; right; left; reflexivity|apply C4, I]).
  rewrite E. exact (fam_re_ok items FF _ ua HG (H _ (in_map fam_of l items HI))).
Qed.
Lemma frozen_brand s : fallback_brand T ua s -> s = bs "UNK".
Proof.
  intros F. destruct F as [_| |b r s out _ _ (l1 & l2 & E & X & _)|]; try reflexivity. exfalso. apply X. cbn [snd].
  apply (frozen_miss r). right. right. assert (I : In (b, r) (fragments T)) by (rewrite E; apply in_elt).
  unfold fragments in I. apply in_flat_map in I. destruct I as (v & _ & I). apply in_map_iff in I. destruct I as (r' & E' & I). injection E' as _ <-.
  exact (range_in _ _ _ I).
Qed.
Variables (mC mD : N) (os : bytes).
Hypothesis L : short ua.
Hypothesis O : on mD 1.
Hypothesis OS : forall h, alone T mC mD h ua GOS = Ok (VB os).
Hypothesis DN : In os desktop_names.
Hypothesis NP : forall h g, In g [GDeviceType; GBrand; GModel] -> alone T mC mD h ua g <> Panic.
Lemma device_answers h : alone T mC mD h ua GDeviceType = Ok (VN 1) /\ alone T mC mD h ua GBrand = Ok (VB (bs "UNK")) /\ alone T mC mD h ua GModel = Ok (VB []).
Proof.
  destruct (device_reports T mC mD h ua S3 L) as [RT RB]. pose proof (frozen_no_device mD) as ND. split; [|split].
  - destruct (number_value T mC mD h ua GDeviceType ltac:(cbn; auto) (NP h GDeviceType ltac:(cbn; auto))) as [t Ht].
    destruct (RT t Ht) as (_ & F & _). destruct (F ND) as (os' & E & [(_ & _ & ->)|(N & _)]); [exact Ht|]. destruct N. split; [exact O|].
    specialize (E O). rewrite OS in E. injection E as <-. exact DN.
  - destruct (text_value T mC mD h ua GBrand ltac:(cbn; auto 10) (NP h GBrand ltac:(cbn; auto))) as [b Hb]. rewrite Hb.
    rewrite (frozen_brand b (proj2 (RB b Hb) ND)). reflexivity.
  - destruct (text_value T mC mD h ua GModel ltac:(cbn; auto 10) (NP h GModel ltac:(cbn; auto))) as [b Hb]. rewrite Hb.
    rewrite (proj2 (model_reports T mC mD h ua b S3 L Hb) ND). reflexivity.
Qed.
End Device.

(** ** The shipped tables *)
Definition all_frozen : list (list item) := flat_map (fun s => frozen_families (fst s)) systems.
Lemma shipped_devices_silent : devices_silent shipped all_frozen = true.
Proof. vm_cast_no_check (eq_refl true). Qed.
Lemma shipped_vendors_silent : vendors_silent shipped all_frozen = true.
Proof. vm_cast_no_check (eq_refl true). Qed.
Lemma all_frozen_fixed : forallb fixed_first all_frozen = true.
Proof. vm_compute. reflexivity. Qed.

Lemma frozen_family sys ua : frozen_ua sys ua ->
  exists items rest, In items [chrome_items sys; edge_items sys; firefox_items sys] /\ gen items (map chr ua) /\ ua = front sys ++ rest.
Proof.
  intros [n Hn|n e Hn He|r n Hr Hn].
  - exists (chrome_items sys), (bs ") AppleWebKit/537.36 (KHTML, like Gecko) Chrome/" ++ frozen n ++ bs " Safari/537.36"). split; [left; reflexivity|].
    split; [apply chrome_gen, frozen_version, Hn|]. unfold chrome_ua, front. rewrite <- app_assoc. reflexivity.
  - exists (edge_items sys), (bs ") AppleWebKit/537.36 (KHTML, like Gecko) Chrome/" ++ frozen n ++ bs " Safari/537.36" ++ bs " Edg/" ++ frozen e). split; [right; left; reflexivity|].
    split; [apply edge_gen; apply frozen_version; assumption|]. unfold edge_ua, chrome_ua, front. rewrite <- !app_assoc. reflexivity.
  - exists (firefox_items sys), (bs "; rv:" ++ frozen_short r ++ bs ") Gecko/20100101 Firefox/" ++ frozen_short n). split; [right; right; left; reflexivity|].
    split; [apply firefox_gen; apply frozen_short_version; assumption|]. unfold firefox_ua, front. rewrite <- !app_assoc. reflexivity.
Qed.
Lemma desktop_system sys name : In (sys, name) systems -> In name desktop_names.
Proof. intros I. unfold systems in I. cbn [In] in I. destruct I as [E|[E|[E|[]]]]; injection E as <- <-; unfold desktop_names; cbn [In]; auto 20. Qed.
Lemma shipped_system mC mD sys name ua : In (sys, name) systems -> frozen_ua sys ua -> short ua -> ascii ua /\ forall h, alone shipped mC mD h ua GOS = Ok (VB name).
Proof.
  intros Is Fu L. destruct (system_place _ _ Is) as (ko & ver & IP). destruct (place_facts _ _ _ _ IP) as (_ & SE & (O1 & O2 & O3) & _).
  destruct (fine_facts sys name ko ver IP) as (F1 & F2 & F3). destruct (frozen_family sys ua Fu) as (items & rest & Ii & G & E).
  assert (X : fixed_first items = true /\ ascii ua /\ In (items, N.of_nat ko) os_families).
  { destruct Ii as [<-|[<-|[<-|[]]]].
    - apply fam_fine_inv in F1 as (FF & FA & _). auto.
    - apply fam_fine_inv in F2 as (FF & FA & _). auto.
    - apply fam_fine_inv in F3 as (FF & FA & _). auto. }
  destruct X as (FF & HA & Io). split; [exact HA|].
  assert (GR : gen items (runes ua)) by (rewrite (runes_ascii_all ua HA); exact G). pose proof (short_small _ L) as Sm.
  clear Ii G Fu L. subst ua.
  refine (proj1 (system_answers shipped or_compiled shipped_os_sane shipped_no_skip os_families systems_missed items ko (front sys) rest name ver mC mD Io FF HA GR SE Sm _)).
  intros h g I. exact (shipped_os_no_panic mC mD h _ g Sm I).
Qed.
Lemma shipped_plain sys name ua mC mD : In (sys, name) systems -> frozen_ua sys ua -> short ua -> on mD 1 -> plain_desktop ua mC mD.
Proof.
  intros Is Fu L O h. destruct (shipped_system mC mD sys name ua Is Fu L) as [HA OS]. destruct (frozen_gen sys ua Fu) as (items & Ii & G).
  assert (I9 : In items all_frozen) by (apply in_flat_map; exists (sys, name); split; [exact Is|exact Ii]).
  pose proof all_frozen_fixed as FX. rewrite forallb_forall in FX. specialize (FX items I9).
  assert (GR : gen items (runes ua)) by (rewrite (runes_ascii_all ua HA); exact G).
  exact (device_answers shipped dr_compiled vr_compiled words_compiled shipped_device_sane all_frozen shipped_devices_silent shipped_vendors_silent items ua I9 FX HA GR
    mC mD name L O OS (desktop_system sys name Is) (fun h' g Ig => shipped_device_no_panic mC mD h' ua g L Ig) h).
Qed.
Definition is_numeral (n : bytes) : bool := negb (beqs n []) && forallb (fun b => (48 <=? bn b)%N && (bn b <=? 57)%N) n.
Lemma is_numeral_ok n : is_numeral n = true -> numeral n.
Proof.
  intros H. apply andb_prop in H as [H1 H2]. split; [intros ->; discriminate H1|]. apply Forall_forall. intros b I. rewrite forallb_forall in H2. specialize (H2 b I).
  unfold digit. lia.
Qed.

(** HTTP libraries: the answers. *)
From Verif Require Import Model_Base Model_CacheEntry Model_Regex Model_Ctx Model_Parse Model_Shipped Spec_Regex Spec_Getters Spec_Select Spec_Word Spec_Panic Spec_Family Spec_Library
  Proof_Base Proof_Pattern Proof_Word Proof_Covers Proof_Quick Proof_Index Proof_Shadow Proof_Bare Proof_Charset Proof_Agree Proof_Select Proof_OS Proof_Client Proof_Choice
  Proof_Live Proof_Tables Proof_Fine Proof_StaleShipped Proof_Reports Proof_OsInside Proof_Family Proof_Tail Proof_Desktop Proof_DesktopBrowser Proof_DesktopSystem Proof_DesktopShipped
  Proof_DesktopDevice Proof_Ios.
From Coq Require Import Lia ZifyBool ZifyNat ZifyN.
Open Scope nat_scope.

(** ** The entry of the libraries a family selects *)
Definition library_items (word : bytes) : list item := lit_items (word ++ bs "/") ++ ver_items.
Definition libraries_miss (T : tables) (l : list (list item * N)) : bool :=
  let f := client_quick T (numbered (cr_re T)) (numbered (pages 200 (cr_buf T))) in
  let Fs := map (fun x => (fam_of (fst x), snd x)) l in
  let Fs' := map (fun x => (fst x, many)) Fs in
  if forallb (class_miss T f Fs') [2; 5; 4; 6] then class_miss T f Fs 3 else false.
Definition library_entry (T : tables) (k : nat) (pat : re) (name : bytes) : bool :=
  match nth_error (cr_idx T) 3 with
  | Some ir =>
      match nth_error ir k with
      | Some x =>
          (0 <=? ct_matchRI x)%Z && (ct_version64 x =? 0)%N && (ct_browserVI x =? 1)%Z && negb (ct_browser64 x =? 0)%N &&
          match slice64 (cr_buf T) (ct_browser64 x) with Ok s => beqs s name | Panic => false end &&
          match nth_error (cr_re T) (Z.to_nat (ct_matchRI x)) with
          | Some r => match parse_re (re_src r) with Some (a, ng) => re_eqb a pat && (ng =? 1) | None => false end
          | None => false
          end &&
          forallb (fun j => match nth_error ir j with Some y => negb (tuple_eqb x y) | None => true end) [26; 93; 100]
      | None => false
      end
  | None => false
  end.
Definition no_systems (T : tables) (l : list (list item)) : bool :=
  let t := numbered (or_re T) in let ps := numbered (pages 200 (or_buf T)) in
  forallb (fun x => let q := quick_at t ps (ot_matchRI x) (ot_match64 x) in forallb (fun F => fam_miss F q) (map fam_of l)) (or_os T).

Section Library.
Variable T : tables.
Hypothesis CC : compiled (cr_re T).
Hypothesis CO : compiled (or_re T).
Hypothesis S1 : client_sane T.
Hypothesis S2 : os_sane T.
Variable cf : list (list item * N).
Variable osf : list (list item).
Hypothesis CM : libraries_miss T cf = true.
Hypothesis OM : no_systems T osf = true.
Hypothesis FN : forall mC mD h ua g, short ua -> (forall t idx x, client_is T mC ua t idx x -> ~ broken T idx x) -> alone T mC mD h ua g <> Panic.
Variables (items : list item) (A V B : bytes) (k : nat) (pat : re) (name : bytes) (mC mD : N).
Notation ua := (sep_ua A V B).
Hypothesis HV : version_number V.
Hypothesis L : short ua.
Hypothesis O : on mC 4.
Hypothesis I1 : In (items, N.of_nat k) cf.
Hypothesis I2 : In items osf.
Hypothesis FF : fixed_first items = true.
Hypothesis HA : ascii ua.
Hypothesis HG : gen items (map chr ua).
Hypothesis EO : library_entry T k pat name = true.
Hypothesis LA : exists u v w, map chr ua = u ++ v ++ w /\ lang pat u v w.
Hypothesis CAP : forall p t, best pat (map chr ua) p t -> group_of 1 p t = span A V.
Lemma library_gen : gen items (runes ua).
Proof. rewrite (sep_runes A V B HA). exact HG. Qed.
Lemma library_no_os : no_os T ua.
Proof.
  intros x Ix [_ Ay]. pose proof OM as H. unfold no_systems in H. cbv zeta in H. rewrite forallb_forall in H. specialize (H x Ix). cbv zeta in H. rewrite forallb_forall in H.
  exact (quick_at_ok items 200 _ _ _ _ ua FF CO HA library_gen (H _ (in_map fam_of osf items I2)) Ay).
Qed.
Lemma library_first ir x : nth_error (cr_idx T) 3 = Some ir -> nth_error ir k = Some x -> client_applies T ua x -> client_is T mC ua 4 3 x.
Proof.
  intros E Nk AP. pose proof CM as C0. unfold libraries_miss in C0. cbv zeta in C0.
  set (f := client_quick T (numbered (cr_re T)) (numbered (pages 200 (cr_buf T)))) in C0.
  set (Fs := map (fun x => (fam_of (fst x), snd x)) cf) in C0.
  destruct (forallb _ _) eqn:F1 in C0; [|discriminate C0]. rewrite forallb_forall in F1.
  assert (IF : In (fam_of items, N.of_nat k) Fs) by (apply (in_map (fun x => (fam_of (fst x), snd x)) cf (items, N.of_nat k)); exact I1).
  assert (NA : forall y, fam_miss (fam_of items) (f y) = true -> ~ client_applies T ua y) by (intros y; exact (quick_at_ok items 200 _ _ _ _ ua FF CC HA library_gen)).
  exists [(8%N, 2); (2%N, 5); (16%N, 4); (32%N, 6)], [(1%N, 1)], ir. split; [reflexivity|].
  assert (SI : forall i t, In i [2; 5; 4; 6] -> client_silent T mC ua (t, i)).
  { intros i t Ii _. apply F1 in Ii. cbn [snd]. pose proof Ii as Ij. unfold class_miss in Ij. destruct (nth_error (cr_idx T) i) as [ir'|] eqn:E'; [|discriminate Ij]. exists ir'. split; [reflexivity|].
    intros y Iy. apply In_nth_error in Iy as [j Nj]. apply NA.
    assert (Lm : (N.of_nat j < many)%N).
    { destruct (N.ltb_spec (N.of_nat (length ir')) many) as [Lm|]; [|discriminate Ij]. assert (j < length ir') by (apply nth_error_Some; rewrite Nj; discriminate). clear - Lm H; lia. }
    refine (proj1 (class_miss_ok T f _ i ir' (fam_of items) many j y Ii E' _ Nj Lm)).
    apply (in_map (fun x : fam * N => (fst x, many)) Fs (fam_of items, N.of_nat k)). exact IF. }
  split; [repeat constructor; apply SI; cbn; tauto|]. split; [exact O|]. split; [exact E|].
  apply nth_error_split in Nk as (l1 & l2 & E2 & L1). exists l1, l2. split; [exact E2|]. split; [exact AP|].
  intros y Iy. apply In_nth_error in Iy as [j Nj]. apply NA.
  assert (Lj : j < length l1) by (apply nth_error_Some; rewrite Nj; discriminate).
  refine (proj1 (class_miss_ok T f Fs 3 ir (fam_of items) (N.of_nat k) j y C0 E IF _ _)); [|clear - Lj L1; lia].
  rewrite E2, nth_error_app1 by exact Lj. exact Nj.
Qed.
Lemma library_answers : (forall h, alone T mC mD h ua GClientType = Ok (VN 4)) /\ alone T mC mD 0 ua GBrowser = Ok (VB name) /\
  (forall h, alone T mC mD h ua GBrowserVersionString = Ok (VB V)) /\
  (forall h, alone T mC mD h ua GOS = Ok (VB (bs "UNK"))) /\ (forall h, alone T mC mD h ua GOSVersionString = Ok (VB [])).
Proof.
  pose proof (short_small _ L) as Sm. pose proof EO as H. unfold library_entry in H. destruct (nth_error (cr_idx T) 3) as [ir|] eqn:E1; [|discriminate H].
  destruct (nth_error ir k) as [x|] eqn:E2; [|discriminate H].
  apply andb_prop in H as [H H7]. apply andb_prop in H as [H H6]. apply andb_prop in H as [H H5]. apply andb_prop in H as [H H4]. apply andb_prop in H as [H H3].
  apply andb_prop in H as [H1 H2].
  destruct (slice64 (cr_buf T) (ct_browser64 x)) as [s|] eqn:Sl; [|discriminate H5]. apply beqs_eq in H5 as ->.
  destruct (nth_error (cr_re T) (Z.to_nat (ct_matchRI x))) as [r|] eqn:Nr; [|discriminate H6].
  destruct (parse_re (re_src r)) as [[a ng]|] eqn:P; [|discriminate H6]. apply andb_prop in H6 as [H6 H8]. apply re_eqb_eq in H6 as ->. apply Nat.eqb_eq in H8 as ->.
  assert (R0 : (0 <= ct_matchRI x)%Z) by (clear - H1; lia). assert (V0 : ct_version64 x = 0%N) by (clear - H2; lia).
  assert (VI : ct_browserVI x = 1%Z) by (clear - H3; lia). assert (B0 : ct_browser64 x <> 0%N) by (clear - H4; lia).
  assert (Tx : text (cr_buf T) (ct_browser64 x) name) by (apply text_slice; exact Sl).
  pose proof (CC r (nth_error_In _ _ Nr)) as Er.
  assert (AP : client_applies T ua x).
  { destruct LA as (u & v & w & Eu & Lu). apply (applies_lang T x r (re_src r) pat ua u v w R0 Nr Er P); [rewrite (sep_runes A V B HA); exact Eu|exact Lu]. }
  pose proof (library_first ir x E1 E2 AP) as Cx.
  assert (NP : forall h g, alone T mC mD h ua g <> Panic).
  { intros h g. apply (FN mC mD h ua g L). intros t idx y Cy. destruct (client_is_unique _ _ _ _ _ _ _ _ _ Cx Cy) as (_ & <- & <-).
    intros (ir' & j & E' & I & Nj). rewrite E1 in E'. injection E' as <-. rewrite forallb_forall in H7.
    assert (Ij : In j [26; 93; 100]). { unfold broken_places in I. cbn [In] in I. repeat (destruct I as [I|I]; [inversion I; subst; cbn [In]; auto|]). destruct I. }
    specialize (H7 j Ij). rewrite Nj, tuple_eqb_refl in H7. discriminate H7. }
  assert (HT : forall h, alone T mC mD h ua GClientType = Ok (VN 4)).
  { intros h. destruct (number_value T mC mD h ua GClientType ltac:(cbn; auto) (NP h GClientType)) as [t Ht].
    destruct (priority T mC mD h ua t S1 Sm Ht) as (_ & Q & _). destruct (Q 4%N 3 x Cx) as [-> _]. exact Ht. }
  split; [exact HT|]. split; [|split; [|split]].
  - destruct (priority T mC mD 0 ua 4 S1 Sm (HT 0%N)) as (_ & Q & _). destruct (Q 4%N 3 x Cx) as (_ & Q1 & _). exact (Q1 name Tx B0).
  - intros h. destruct (text_value T mC mD h ua GBrowserVersionString ltac:(cbn; auto 10) (NP h GBrowserVersionString)) as [s Hs]. rewrite Hs.
    destruct (browser_version T mC mD h ua S1 Sm s Hs) as [[NC _]|(ty & idx & x' & frag & Cx' & Fr & Vf)]; [destruct (client_is_some _ _ _ _ _ _ Cx NC)|].
    destruct (client_is_unique _ _ _ _ _ _ _ _ _ Cx Cx') as (_ & _ & <-).
    assert (G : forall m, re_find r ua = Some m -> exists p t, m = groups 1 p t /\ group_of 1 p t = span A V).
    { intros m F. rewrite Er in F. apply (compile_best (re_src r) pat 1 ua m P) in F as (p & t & Bt & ->). exists p, t. split; [reflexivity|]. apply CAP.
      rewrite sep_runes in Bt by exact HA. exact Bt. }
    assert (frag = V) as ->.
    { inversion Fr as [Lr|s' Lr Vn|Lr _ Vi|r' m s' _ _ _ Nr' F Cp|r' m _ _ _ Nr' F Ab]; subst frag.
      - exfalso. clear - R0 Lr. lia.
      - contradiction.
      - rewrite VI in Vi. discriminate Vi.
      - rewrite Nr in Nr'. injection Nr' as <-. destruct (G m F) as (p & t & -> & Sp). rewrite VI in Cp. exact (span_captured A V B p t s' Sp Cp).
      - rewrite Nr in Nr'. injection Nr' as <-. destruct (G m F) as (p & t & -> & Sp). rewrite VI in Ab. destruct (span_present A V p t Sp Ab). }
    rewrite (version_self V HV s Vf). reflexivity.
  - intros h. destruct (text_value T mC mD h ua GOS ltac:(cbn; auto 10) (NP h GOS)) as [s Hs]. rewrite Hs.
    rewrite (proj1 (proj1 (os_reports T mC mD h ua S2 Sm) s Hs) library_no_os). reflexivity.
  - intros h. destruct (text_value T mC mD h ua GOSVersionString ltac:(cbn; auto 10) (NP h GOSVersionString)) as [s Hs]. rewrite Hs.
    rewrite (proj1 (proj2 (os_reports T mC mD h ua S2 Sm) s Hs) library_no_os). reflexivity.
Qed.
End Library.

(** ** The three libraries *)
Definition low (s : bytes) : list (list (N * N)) := map (fun b => if (bn b =? 115)%N then both 115 ++ [(383, 383)]%N else if ((97 <=? bn b) && (bn b <=? 122))%N%bool then both (bn b) else [(bn b, bn b)]%N) s.
Definition word_q (s : bytes) : re := match low s with c :: cs => chain c cs | [] => Eps end.
Definition option_re (q : re) : re := Cat start_re (Cat q (Alt (Cat (Cls false slash) (Grp 1 re_body)) Eps)).
Definition curl_q : re := fold_left (fun a c => Cat a (Cls false c)) (low (bs "curl")) (Alt (word_q (bs "lib")) Eps).
(** Word, name, place and the pattern before the version. *)
Definition library_places : list (bytes * bytes * nat * re) :=
  [(bs "curl", bs "curl", 27, curl_q); (bs "Wget", bs "Wget", 24, word_q (bs "wget")); (bs "python-requests", bs "Python Requests", 28, word_q (bs "python-requests"))].
Lemma entries_found : forallb (fun p => library_entry shipped (snd (fst p)) (option_re (snd p)) (snd (fst (fst p)))) library_places = true.
Proof. vm_compute. reflexivity. Qed.
Definition library_families : list (list item * N) := map (fun p => (library_items (fst (fst (fst p))), N.of_nat (snd (fst p)))) library_places.
Lemma libraries_missed : libraries_miss shipped library_families = true.
Proof. vm_cast_no_check (eq_refl true). Qed.
Lemma systems_silent : no_systems shipped (map fst library_families) = true.
Proof. vm_cast_no_check (eq_refl true). Qed.
Lemma libraries_fine : forallb (fun p => fam_fine (snd p) (fun l => length l - 3) (library_items (fst (fst (fst p))))) library_places = true.
Proof. vm_compute. reflexivity. Qed.

Lemma library_sep word v : library_ua word v = sep_ua word v [].
Proof. unfold library_ua, sep_ua. rewrite app_nil_r. reflexivity. Qed.
Lemma library_items_gen word v : version_number v -> gen (library_items word) (map chr (library_ua word v)).
Proof.
  intros Hv. unfold library_items, library_ua. rewrite app_assoc, (map_app chr (word ++ bs "/")). apply gen_lit.
  rewrite <- (app_nil_r ver_items), <- (app_nil_r (map chr v)). apply gen_ver; [exact Hv|constructor].
Qed.
Lemma skip_library word : skipn (length (library_items word) - 3) (library_items word) = lit_items [x2f] ++ ver_items ++ lit_items [].
Proof.
  assert (E : library_items word = lit_items word ++ lit_items [x2f] ++ ver_items ++ lit_items []) by (unfold library_items; rewrite lit_app, <- !app_assoc; reflexivity).
  rewrite E at 2. apply skip_exact. rewrite E, !app_length. cbn. lia.
Qed.
Lemma start_bol w : lang start_re [] [] w.
Proof.
  assert (E : exists r, start_re = Alt Bol r) by (eexists; vm_compute; reflexivity). destruct E as (r & ->). apply L_left. constructor.
Qed.
Lemma option_lang q word w : lang q [] (map chr word) w -> lang (option_re q) [] (map chr word) w.
Proof.
  intros H. apply (L_cat start_re _ [] [] (map chr word) w); [apply start_bol|]. rewrite <- (app_nil_r (map chr word)).
  apply (L_cat q _ [] (map chr word) [] w); [exact H|]. apply L_right. constructor.
Qed.
Lemma curl_lang w : lang curl_q [] (map chr (bs "curl")) w.
Proof.
  unfold curl_q. apply (chain_from (low (bs "curl")) (Alt (word_q (bs "lib")) Eps) [] [] (bs "curl") w); [|repeat constructor].
  intros w'. apply L_right. constructor.
Qed.
Lemma places_lang word name k q w : In (word, name, k, q) library_places -> lang q [] (map chr word) w.
Proof.
  intros I. cbn [library_places In] in I. destruct I as [E|[E|[E|[]]]]; injection E as <- <- <- <-; [apply curl_lang| |]; apply chain_lang; try reflexivity; repeat constructor.
Qed.
Lemma shipped_library word name v mC mD : In (word, name) libraries -> version_number v -> short (library_ua word v) -> on mC 4 ->
  (forall h, alone shipped mC mD h (library_ua word v) GClientType = Ok (VN 4)) /\ alone shipped mC mD 0 (library_ua word v) GBrowser = Ok (VB name) /\
  (forall h, alone shipped mC mD h (library_ua word v) GBrowserVersionString = Ok (VB v)) /\
  (forall h, alone shipped mC mD h (library_ua word v) GOS = Ok (VB (bs "UNK"))) /\ (forall h, alone shipped mC mD h (library_ua word v) GOSVersionString = Ok (VB [])).
Proof.
  intros I Hv L O.
  assert (IP : exists k q, In (word, name, k, q) library_places).
  { cbn [libraries In] in I. destruct I as [E|[E|[E|[]]]]; injection E as <- <-; do 2 eexists; [left|right; left|right; right; left]; reflexivity. }
  destruct IP as (k & q & IP).
  pose proof entries_found as EF. rewrite forallb_forall in EF. specialize (EF _ IP). cbn [fst snd] in EF.
  pose proof libraries_fine as LF. rewrite forallb_forall in LF. specialize (LF _ IP). cbn [fst snd] in LF. apply fam_fine_inv in LF as (FF & FA & FG).
  pose proof (library_items_gen word v Hv) as G. pose proof (FA _ G) as HA.
  assert (I1 : In (library_items word, N.of_nat k) library_families) by exact (in_map (fun p : bytes * bytes * nat * re => (library_items (fst (fst (fst p))), N.of_nat (snd (fst p)))) _ _ IP).
  pose proof (in_map fst _ _ I1) as I2. cbn [fst] in I2.
  pose proof (places_lang word name k q (map chr (bs "/" ++ v)) IP) as PL. clear I IP. rewrite library_sep in *.
  refine (library_answers shipped cr_compiled or_compiled shipped_client_sane shipped_os_sane library_families (map fst library_families) libraries_missed systems_silent shipped_never_panics
    (library_items word) word v [] k (option_re q) name mC mD Hv L O I1 I2 FF HA G EF _ _).
  - exists [], (map chr word), (map chr (bs "/" ++ v)). split; [|apply option_lang; exact PL]. cbn [app]. rewrite <- map_app, <- library_sep. reflexivity.
  - intros p t Bt. refine (cap_option (library_items word) FF word v [] Hv _ G q false slash _ p t Bt eq_refl FG (skip_library word)). exact I.
Qed.

(** ** Devices *)
Definition release_items (word : bytes) : list item := lit_items (word ++ bs "/") ++ num_items ++ lit_items (bs ".") ++ num_items ++ lit_items (bs ".") ++ dig_item.
Lemma release_gen word v : patch_release v -> gen (release_items word) (map chr (library_ua word v)).
Proof.
  intros [n m d Hn Hm Hd]. unfold release_items, library_ua. rewrite (app_assoc word), (map_app chr (word ++ bs "/")). apply gen_lit.
  rewrite (map_app chr n). apply gen_num; [|exact Hn]. rewrite (map_app chr (bs ".")). apply gen_lit. rewrite (map_app chr m). apply gen_num; [|exact Hm].
  rewrite (map_app chr (bs ".")). apply gen_lit. rewrite <- (app_nil_r dig_item), <- (app_nil_r (map chr [d])). apply gen_dig; [constructor|exact Hd].
Qed.
Lemma release_version v : patch_release v -> version_number v.
Proof.
  intros [n m d [Nn Fn] [_ Fm] Hd]. destruct n as [|b n]; [destruct (Nn eq_refl)|]. inversion Fn as [|? ? Fb Fr]; subst.
  exists b, (n ++ bs "." ++ m ++ bs "." ++ [d]). split; [reflexivity|]. split; [exact Fb|]. split; [destruct n; discriminate|]. split.
  - assert (W : forall s, Forall digit s -> Forall (fun b => digit b \/ b = x2e) s) by (intros s F; eapply Forall_impl; [|exact F]; auto).
    apply Forall_app. split; [exact (W _ Fr)|]. constructor; [right; reflexivity|]. apply Forall_app. split; [exact (W _ Fm)|]. constructor; [right; reflexivity|]. constructor; [left; exact Hd|constructor].
  - intros y E. change (b :: n ++ bs "." ++ m ++ bs "." ++ [d]) with ((b :: n) ++ bs "." ++ m ++ bs "." ++ [d]) in E. rewrite !app_assoc in E.
    apply app_inj_tail in E as [_ ->]. unfold digit in Hd. vm_compute in Hd. destruct Hd as [Hd _]. apply Hd. reflexivity.
Qed.

Section Unknown.
Variable T : tables.
Hypothesis C3 : compiled (dr_re T).
Hypothesis C4 : compiled (vr_re T).
Hypothesis C5 : compiled [re_tablet T; re_mobile T].
Hypothesis S3 : device_sane T.
Variable l : list (list item).
Hypothesis DS : devices_silent T l = true.
Hypothesis VS : vendors_silent T l = true.
Variables (items : list item) (ua : bytes).
Hypothesis HI : In items l.
Hypothesis FF : fixed_first items = true.
Hypothesis HA : ascii ua.
Hypothesis HG : gen items (runes ua).
Variables (mC mD : N) (os : bytes).
Hypothesis L : short ua.
Hypothesis OS : forall h, alone T mC mD h ua GOS = Ok (VB os).
Hypothesis DN : ~ In os desktop_names.
Hypothesis NP : forall h g, In g [GDeviceType; GBrand; GModel] -> alone T mC mD h ua g <> Panic.
Lemma unknown_answers h : alone T mC mD h ua GDeviceType = Ok (VN 0) /\ alone T mC mD h ua GBrand = Ok (VB (bs "UNK")) /\ alone T mC mD h ua GModel = Ok (VB []).
Proof.
  destruct (device_reports T mC mD h ua S3 L) as [RT RB]. pose proof (frozen_no_device T C3 l DS items ua HI FF HA HG mD) as ND.
  pose proof (frozen_miss T C4 C5 l VS items ua HI FF HG) as FM. split; [|split].
  - destruct (number_value T mC mD h ua GDeviceType ltac:(cbn; auto) (NP h GDeviceType ltac:(cbn; auto))) as [t Ht].
    destruct (RT t Ht) as (_ & F & _). destruct (F ND) as (os' & E & [(O & I & _)|(_ & [(X & _)|[(_ & X & _)|(_ & _ & ->)]])]).
    + specialize (E O). rewrite OS in E. injection E as <-. destruct (DN I).
    + destruct (X (FM (re_tablet T) (or_introl eq_refl))).
    + destruct (X (FM (re_mobile T) (or_intror (or_introl eq_refl)))).
    + exact Ht.
  - destruct (text_value T mC mD h ua GBrand ltac:(cbn; auto 10) (NP h GBrand ltac:(cbn; auto))) as [b Hb]. rewrite Hb.
    rewrite (frozen_brand T C4 C5 l VS items ua HI FF HG b (proj2 (RB b Hb) ND)). reflexivity.
  - destruct (text_value T mC mD h ua GModel ltac:(cbn; auto 10) (NP h GModel ltac:(cbn; auto))) as [b Hb]. rewrite Hb.
    rewrite (proj2 (model_reports T mC mD h ua b S3 L Hb) ND). reflexivity.
Qed.
End Unknown.

(** A phone of the mobile class none of whose models applies. *)
Definition bare_entry (T : tables) (mid : bytes) (stop : nat) (brand : bytes) : bool :=
  match nth_error (dr_idx T) 3 with
  | Some ir =>
      match nth_error ir stop with
      | Some x =>
          (0 <=? dt_matchRI x)%Z && (dt_modelSI x =? -1)%Z && negb (dt_models64 x =? 0)%N && negb (dt_brand64 x =? 0)%N &&
          match slice64 (dr_buf T) (dt_brand64 x) with Ok s => beqs s brand | Panic => false end && beqs (trim brand x20) brand &&
          match nth_error (dr_re T) (Z.to_nat (dt_matchRI x)) with Some r => hits_inner (re_src r) mid | None => false end
      | None => false
      end
  | None => false
  end.
Section Bare.
Variable T : tables.
Hypothesis C3 : compiled (dr_re T).
Hypothesis S3 : device_sane T.
Variables (l : list (list item)) (stop stop' : nat) (mid brand : bytes).
Hypothesis PM : phone_miss T l stop stop' = true.
Hypothesis PE : bare_entry T mid stop brand = true.
Hypothesis LM : forall ir x, nth_error (dr_idx T) 3 = Some ir -> nth_error ir stop = Some x -> length (models T x) <= stop'.
Variables (items : list item) (ua : bytes) (mC mD : N).
Hypothesis HI : In items l.
Hypothesis FF : fixed_first items = true.
Hypothesis HA : ascii ua.
Hypothesis HG : gen items (runes ua).
Hypothesis H1 : exists a b, ua = a ++ mid ++ b.
Hypothesis L : short ua.
Hypothesis O : on mD 2.
Hypothesis NP : forall h g, In g [GDeviceType; GBrand; GModel] -> alone T mC mD h ua g <> Panic.
Lemma bare_answers h : alone T mC mD h ua GDeviceType = Ok (VN 2) /\ alone T mC mD h ua GBrand = Ok (VB brand) /\ alone T mC mD h ua GModel = Ok (VB []).
Proof.
  pose proof PM as P0. unfold phone_miss in P0. cbv zeta in P0.
  set (t := numbered (dr_re T)) in P0. set (ps := numbered (pages 400 (dr_buf T))) in P0.
  destruct (forallb (class_silent T _ _) _) eqn:CS in P0; [|discriminate P0]. rewrite forallb_forall in CS.
  unfold bare_entry in PE. destruct (nth_error (dr_idx T) 3) as [ir|] eqn:E3; [|discriminate P0].
  destruct (table_miss _ _ _ ir) eqn:TM in P0; [|discriminate P0]. destruct (nth_error ir stop) as [x|] eqn:Nx; [|discriminate P0]. rename P0 into MM.
  pose proof (LM ir x eq_refl Nx) as LX.
  apply andb_prop in PE as [H Hr]. apply andb_prop in H as [H Hb2]. apply andb_prop in H as [H Hb1].
  apply andb_prop in H as [H Hb0]. apply andb_prop in H as [H Hm64]. apply andb_prop in H as [HR HSI].
  destruct (slice64 (dr_buf T) (dt_brand64 x)) as [s0|] eqn:Sb; [|discriminate Hb1]. apply beqs_eq in Hb1 as ->. apply beqs_eq in Hb2.
  destruct (nth_error (dr_re T) (Z.to_nat (dt_matchRI x))) as [r|] eqn:Nr; [|discriminate Hr].
  assert (MISS : forall ri e, fam_miss (fam_of items) (quick_at t ps ri e) = true -> ~ applies (dr_re T) (dr_buf T) ri e ua)
    by (intros ri e; exact (quick_at_ok items 400 _ _ _ _ ua FF C3 HA HG)).
  assert (IFs : In (fam_of items) (map fam_of l)) by (apply in_map; exact HI).
  assert (DI : device_is T mD ua 2 3 2 x).
  { exists [(128, 0%nat, 128); (256, 1%nat, 256); (16, 2%nat, 16); (512, 5%nat, 1); (64, 6%nat, 64); (32, 7%nat, 32)]%N, [(1%N, 4, 1%N)], ir. split; [reflexivity|]. split.
    - apply Forall_forall. intros [[bt k] d] I _. cbn [fst snd].
      assert (K : In k [0; 1; 2; 5; 6; 7]) by (cbn in I |- *; repeat (destruct I as [I|I]; [injection I as <- <- <-; tauto|]); destruct I).
      specialize (CS k K). unfold class_silent in CS. destruct (nth_error (dr_idx T) k) as [ir'|]; [|discriminate CS]. exists ir'. split; [reflexivity|].
      intros y Iy. rewrite forallb_forall in CS. specialize (CS y Iy). cbv zeta in CS. rewrite forallb_forall in CS. apply MISS. exact (CS _ IFs).
    - split; [exact O|]. split; [exact E3|]. pose proof Nx as Nk. apply nth_error_split in Nk as (l1 & l2 & E2 & L1). exists l1, l2. split; [exact E2|]. split.
      + apply (hit_applies_inner T C3 ua HA (dt_matchRI x) (dt_match64 x) r mid ltac:(clear - HR; lia) Nr Hr H1).
      + intros y Iy. apply In_nth_error in Iy as [j Nj]. assert (Lj : j < length l1) by (apply nth_error_Some; rewrite Nj; discriminate).
        apply MISS. refine (table_miss_ok _ _ ir 0%N TM (fam_of items) (N.of_nat stop) j y (in_map (fun F => (F, N.of_nat stop)) _ _ IFs) _ _); [|clear - Lj L1; lia].
        rewrite E2, nth_error_app1 by exact Lj. exact Nj. }
  assert (NM : none (model_applies T ua) (models T x)).
  { intros y Iy. apply In_nth_error in Iy as [j Nj]. assert (Lj : j < length (models T x)) by (apply nth_error_Some; rewrite Nj; discriminate).
    apply MISS. refine (table_miss_ok _ _ (models T x) 0%N MM (fam_of items) (N.of_nat stop') j y (in_map (fun F => (F, N.of_nat stop')) _ _ IFs) Nj _). clear - Lj LX. lia. }
  assert (MI : forall o, model_is T ua x o -> o = None).
  { intros o [m' SI _|m' _ _ (l1 & l2 & E2 & A & _)|_ _].
    - exfalso. clear - SI HSI. lia.
    - destruct (NM m'); [rewrite E2; apply in_elt|exact A].
    - reflexivity. }
  destruct (device_reports T mC mD h ua S3 L) as [RT RB]. split; [|split].
  - destruct (number_value T mC mD h ua GDeviceType ltac:(cbn; auto) (NP h GDeviceType ltac:(cbn; auto))) as [tt Ht]. rewrite Ht.
    destruct (proj1 (RT tt Ht) 2%N 3 2%N x DI) as [ri m' t' Mi _|t' Mi Z0 _|Mi _].
    + apply MI in Mi. discriminate Mi.
    + exfalso. clear - Z0 Hm64. lia.
    + reflexivity.
  - destruct (text_value T mC mD h ua GBrand ltac:(cbn; auto 10) (NP h GBrand ltac:(cbn; auto))) as [b Hb]. rewrite Hb.
    destruct (proj1 (RB b Hb) 2%N 3 2%N x DI) as [[Z0 _]|(_ & w & Tw & Tr)]; [exfalso; clear - Z0 Hb0; lia|].
    apply text_slice in Tw. rewrite Sb in Tw. injection Tw as <-. rewrite (trimmed_fun _ _ _ Tr (trim_trimmed brand)), Hb2. reflexivity.
  - destruct (text_value T mC mD h ua GModel ltac:(cbn; auto 10) (NP h GModel ltac:(cbn; auto))) as [b Hb]. rewrite Hb.
    destruct (proj1 (model_reports T mC mD h ua b S3 L Hb) 2%N 3 2%N x DI) as (w & MT & Tr).
    destruct MT as [Mi|ri m' s Mi _ _|ri m' r' ms tpl out Mi _ _ _ _ _]; [|apply MI in Mi; discriminate Mi|apply MI in Mi; discriminate Mi].
    rewrite (trimmed_fun _ _ _ Tr (trim_trimmed [])). reflexivity.
Qed.
End Bare.

(** The shipped tables. *)
Definition quiet_families : list (list item) := [release_items (bs "curl"); release_items (bs "Wget")].
Lemma quiet_devices : devices_silent shipped quiet_families = true.
Proof. vm_cast_no_check (eq_refl true). Qed.
Lemma quiet_vendors : vendors_silent shipped quiet_families = true.
Proof. vm_cast_no_check (eq_refl true). Qed.
Definition requests_family : list item := release_items (bs "python-requests").
Lemma requests_miss : phone_miss shipped [requests_family] 250 500 = true.
Proof. vm_cast_no_check (eq_refl true). Qed.
Lemma requests_entry : bare_entry shipped (bs "requests") 250 (bs "CUBOT") = true.
Proof. vm_compute. reflexivity. Qed.
Definition few_models (T : tables) (stop stop' : nat) : bool :=
  match nth_error (dr_idx T) 3 with Some ir => match nth_error ir stop with Some x => length (models T x) <=? stop' | None => true end | None => true end.
Lemma requests_models : few_models shipped 250 500 = true.
Proof. vm_compute. reflexivity. Qed.
Lemma few_models_ok T stop stop' ir x : few_models T stop stop' = true -> nth_error (dr_idx T) 3 = Some ir -> nth_error ir stop = Some x -> length (models T x) <= stop'.
Proof. unfold few_models. intros H E N. rewrite E, N in H. apply Nat.leb_le. exact H. Qed.
Lemma release_fine : forallb (fun items => fixed_first items && forallb (fun it => forallb (fun x => (x <? 128)%N) (fst it)) items) (requests_family :: quiet_families) = true.
Proof. vm_compute. reflexivity. Qed.
Lemma release_facts word v : In (release_items word) (requests_family :: quiet_families) -> patch_release v ->
  fixed_first (release_items word) = true /\ ascii (library_ua word v) /\ gen (release_items word) (runes (library_ua word v)).
Proof.
  intros II Hv. pose proof (release_gen word v Hv) as G. pose proof release_fine as F. rewrite forallb_forall in F. specialize (F _ II). apply andb_prop in F as [FF F].
  assert (HA : ascii (library_ua word v)).
  { apply (gen_ascii (release_items word) _ G). apply Forall_forall. intros it I. rewrite forallb_forall in F. specialize (F it I).
    apply Forall_forall. intros x Ix. rewrite forallb_forall in F. specialize (F x Ix). lia. }
  split; [exact FF|]. split; [exact HA|]. rewrite (runes_ascii_all _ HA). exact G.
Qed.
Lemma requests_phone v mC mD h : patch_release v -> short (library_ua (bs "python-requests") v) -> on mD 2 ->
  alone shipped mC mD h (library_ua (bs "python-requests") v) GDeviceType = Ok (VN 2) /\
  alone shipped mC mD h (library_ua (bs "python-requests") v) GBrand = Ok (VB (bs "CUBOT")) /\
  alone shipped mC mD h (library_ua (bs "python-requests") v) GModel = Ok (VB []).
Proof.
  intros Hv L O. destruct (release_facts (bs "python-requests") v (or_introl eq_refl) Hv) as (FF & HA & GR).
  refine (bare_answers shipped dr_compiled shipped_device_sane [requests_family] 250 500 (bs "requests") (bs "CUBOT") requests_miss requests_entry
    (fun ir x => few_models_ok shipped 250 500 ir x requests_models) requests_family (library_ua (bs "python-requests") v) mC mD (or_introl eq_refl) FF HA GR _ L O
    (fun h' g Ig => shipped_device_no_panic mC mD h' _ g L Ig) h).
  exists (bs "python-"), (bs "/" ++ v). reflexivity.
Qed.
Lemma quiet_device word v mC mD h : In word [bs "curl"; bs "Wget"] -> patch_release v -> short (library_ua word v) -> on mC 4 ->
  alone shipped mC mD h (library_ua word v) GDeviceType = Ok (VN 0) /\ alone shipped mC mD h (library_ua word v) GBrand = Ok (VB (bs "UNK")) /\
  alone shipped mC mD h (library_ua word v) GModel = Ok (VB []).
Proof.
  intros I Hv L O.
  assert (X : (exists name, In (word, name) libraries) /\ In (release_items word) quiet_families).
  { cbn [In] in I. destruct I as [<-|[<-|[]]]; (split; [eexists; cbn [libraries In]|cbn [quiet_families In]]); eauto. }
  destruct X as [[name Il] II]. destruct (release_facts word v (or_intror II) Hv) as (FF & HA & GR).
  destruct (shipped_library word name v mC mD Il (release_version v Hv) L O) as (_ & _ & _ & OS & _).
  refine (unknown_answers shipped dr_compiled vr_compiled words_compiled shipped_device_sane quiet_families quiet_devices quiet_vendors (release_items word) (library_ua word v) II FF HA GR
    mC mD (bs "UNK") L OS _ (fun h' g Ig => shipped_device_no_panic mC mD h' _ g L Ig) h).
  unfold desktop_names. cbn [In]. intros D. repeat (destruct D as [D|D]; [discriminate D|]). destruct D.
Qed.
Lemma requests_release : patch_release (bs "2.31.0").
Proof. apply (PR (bs "2") (bs "31") x30); try (apply is_numeral_ok; reflexivity); unfold digit; vm_compute; split; discriminate. Qed.
Lemma library_is_phone : exists v mC mD, patch_release v /\ short (library_ua (bs "python-requests") v) /\ on mC 4 /\ on mD 2 /\
  alone shipped mC mD 0 (library_ua (bs "python-requests") v) GClientType = Ok (VN 4) /\
  alone shipped mC mD 0 (library_ua (bs "python-requests") v) GDeviceType = Ok (VN 2) /\
  alone shipped mC mD 0 (library_ua (bs "python-requests") v) GBrand = Ok (VB (bs "CUBOT")).
Proof.
  exists (bs "2.31.0"), 63%N, 1023%N. assert (L : short (library_ua (bs "python-requests") (bs "2.31.0"))) by (apply short_200; reflexivity).
  assert (O1 : on 63 4) by discriminate. assert (O2 : on 1023 2) by discriminate.
  destruct (requests_phone (bs "2.31.0") 63 1023 0 requests_release L O2) as (Q1 & Q2 & _).
  destruct (shipped_library (bs "python-requests") (bs "Python Requests") (bs "2.31.0") 63 1023 (or_intror (or_intror (or_introl eq_refl))) (release_version _ requests_release) L O1) as (Q3 & _).
  split; [exact requests_release|]. split; [exact L|]. split; [exact O1|]. split; [exact O2|]. split; [exact (Q3 0%N)|]. split; [exact Q1|exact Q2].
Qed.

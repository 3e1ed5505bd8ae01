(** Chrome, Firefox and Edge on an iPhone. *)
From Verif Require Import Model_Base Model_CacheEntry Model_Regex Model_Ctx Model_Parse Model_Shipped Spec_Regex Spec_Getters Spec_Select Spec_Word Spec_Panic Spec_Family Spec_Iphone Spec_IphoneOther
  Proof_Base Proof_Pattern Proof_Word Proof_Covers Proof_Quick Proof_Index Proof_Shadow Proof_Bare Proof_Charset Proof_Agree Proof_Select Proof_OS Proof_Client Proof_Choice
  Proof_Live Proof_Tables Proof_Fine Proof_StaleShipped Proof_Reports Proof_OsInside Proof_Family Proof_Tail Proof_Desktop Proof_DesktopBrowser Proof_DesktopSystem Proof_DesktopShipped
  Proof_DesktopDevice Proof_Phone Proof_Library Proof_Iphone.
From Coq Require Import Lia ZifyBool ZifyNat ZifyN.
Open Scope nat_scope.

Definition other_lead : bytes := bs " like Mac OS X) AppleWebKit/605.1.15 (KHTML, like Gecko) ".
Definition other_items (word rest : bytes) (rel kind : list item) : list item :=
  lit_items iphone_start ++ rel ++ lit_items (other_lead ++ word) ++ lit_items [x2f] ++ kind ++ lit_items rest.
Definition full_families : list (list item) := map (fun m => m ++ [([95], false); (95 :: digs, true)]%N) majors.
(** The versions that do not start with 19. *)
Definition kinds : list (list item) :=
  [[([48; 50; 51; 52; 53; 54; 55; 56; 57], false); (46 :: digs, true)]; [([49], false); ([46; 48; 49; 50; 51; 52; 53; 54; 55; 56], false)];
   [([49], false); ([46; 48; 49; 50; 51; 52; 53; 54; 55; 56], false); (46 :: digs, true)]]%N.
Definition other_clients : list (list item * N) :=
  flat_map (fun f => [(other_items (bs "CriOS") (bs " Mobile/15E148 Safari/604.1") f ver_items, 488); (other_items (bs "FxiOS") (bs " Mobile/15E148 Safari/605.1.15") f ver_items, 362);
    (other_items (bs "Version/17.0 EdgiOS") (bs " Mobile/15E148 Safari/604.1") f ver_items, 292)])%N full_families.
Definition other_systems : list (list item * N) :=
  flat_map (fun x => flat_map (fun f => map (fun k => (other_items (fst (fst x)) (snd (fst x)) f k, 255%N)) kinds) full_families) iphone_browsers.
Definition crios_re : re := option_re (word_q (bs "crios")).
Definition fxios_re : re := Cat start_re (Cat (Cat (word_q (bs "fxios")) (Cls false slash)) (Grp 1 re_body)).
Definition edgios_re : re := Cat start_re (Cat (Cat (word_q (bs "edgios")) (Cls false space_slash)) (Grp 1 re_body)).
Lemma crios_entry : entry_ok shipped 488 crios_re (bs "Chrome Mobile iOS") = true.
Proof. vm_compute. reflexivity. Qed.
Lemma fxios_entry : entry_ok shipped 362 fxios_re (bs "Firefox Mobile iOS") = true.
Proof. vm_compute. reflexivity. Qed.
Lemma edgios_entry : entry_ok shipped 292 edgios_re (bs "Microsoft Edge") = true.
Proof. vm_compute. reflexivity. Qed.
Lemma other_clients_missed : clients_miss shipped other_clients = true.
Proof. vm_cast_no_check (eq_refl true). Qed.
Lemma other_systems_missed : systems_miss shipped other_systems = true.
Proof. vm_cast_no_check (eq_refl true). Qed.
Definition sys_fine (l : list item) (n : nat) : bool := fixed_first l && forallb (fun it => negb (snd it)) (firstn 13 l) && (13 <=? length l) &&
  (go (fam_of l) (Cat ios_q (Cls false ios_sep)) (full 13) =? N.lor (only 35) (only (35 + (n + 13))))%N.
Lemma systems_fine : forallb (fun x => forallb (fun f => forallb (fun k => sys_fine (other_items (fst (fst x)) (snd (fst x)) f k) (length f)) kinds) full_families) iphone_browsers = true.
Proof. vm_compute. reflexivity. Qed.
Lemma clients_fine : forallb (fun f =>
  fam_fine (word_q (bs "crios")) (fun l => length l - (3 + length (bs " Mobile/15E148 Safari/604.1"))) (other_items (bs "CriOS") (bs " Mobile/15E148 Safari/604.1") f ver_items) &&
  fam_fine (Cat (word_q (bs "fxios")) (Cls false slash)) (fun l => length l - (2 + length (bs " Mobile/15E148 Safari/605.1.15"))) (other_items (bs "FxiOS") (bs " Mobile/15E148 Safari/605.1.15") f ver_items) &&
  fam_fine (Cat (word_q (bs "edgios")) (Cls false space_slash)) (fun l => length l - (2 + length (bs " Mobile/15E148 Safari/604.1"))) (other_items (bs "Version/17.0 EdgiOS") (bs " Mobile/15E148 Safari/604.1") f ver_items))
  full_families = true.
Proof. vm_compute. reflexivity. Qed.

(** ** Families and user agents *)
Lemma full_facts ns : full_release ns -> srun (map chr (joined x5f ns)) /\ closed (map chr (joined x5f ns)) /\ (exists d r, joined x5f ns = d :: r /\ digit d) /\ Forall numeral ns /\
  exists rel, In rel full_families /\ (forall is w, gen is w -> gen (rel ++ is) (map chr (joined x5f ns) ++ w)) /\
    forall is x, gen (rel ++ is) x -> exists v w, x = v ++ w /\ srun v /\ gen is w.
Proof.
  intros [HR L2]. destruct (ios_facts ns HR) as (F1 & F2 & F3 & F4 & _). split; [exact F1|]. split; [exact F2|]. split; [exact F3|]. split; [exact F4|].
  destruct HR as (n & r & -> & Hn & L & N9 & Hr). destruct (major_gen n Hn L N9) as (m & Im & Gm).
  exists (m ++ [([95], false); (95 :: digs, true)]%N). split; [exact (in_map (fun m => m ++ [([95], false); (95 :: digs, true)]%N) majors m Im)|]. split.
  - destruct (rest_gen r Hr) as (mi & Imi & Gmi). intros is w G. cbn [joined]. rewrite map_app, <- !app_assoc. apply Gm.
    destruct Imi as [<-|[<-|[]]]; [|apply Gmi; exact G]. exfalso.
    destruct r as [|q r]; [cbn in L2; lia|]. specialize (Gmi [] [] G_nil). cbn in Gmi. inversion Gmi.
  - apply rel_inv. rewrite forallb_app. apply andb_true_intro. split; [|reflexivity].
    assert (M : forallb (fun m => forallb (fun it : item => forallb is_s (fst it)) m) majors = true) by (vm_compute; reflexivity). rewrite forallb_forall in M. exact (M m Im).
Qed.
Lemma kind_facts v : version_number v -> not_19 v -> exists k, In k kinds /\ (forall is w, gen is w -> gen (k ++ is) (map chr v ++ w)) /\
  forall is x, gen (k ++ is) x -> exists y w, x = y ++ w /\ srun y /\ gen is w.
Proof.
  intros (d & r & -> & D & Nn & F & _) N9.
  assert (KI : forall k, In k kinds -> forall is x, gen (k ++ is) x -> exists y w, x = y ++ w /\ srun y /\ gen is w).
  { intros k Ik. apply rel_inv. assert (M : forallb (fun m => forallb (fun it : item => forallb is_s (fst it)) m) kinds = true) by (vm_compute; reflexivity). rewrite forallb_forall in M. exact (M k Ik). }
  destruct (N.eq_dec (bn d) 49) as [E|E].
  - destruct r as [|e r]; [contradiction (Nn eq_refl)|]. inversion F as [|? ? Fe Fr]; subst.
    assert (Ie : In (bn e) [46; 48; 49; 50; 51; 52; 53; 54; 55; 56]%N).
    { destruct (N.eq_dec (bn e) 57) as [E9|E9].
      - exfalso. apply (N9 r). cbn [app bs]. change (bs "19") with [x31; x39]. cbn [app]. f_equal; [|f_equal].
        + apply (Proof_Base.bn_inj d x31). rewrite E. reflexivity.
        + apply (Proof_Base.bn_inj e x39). rewrite E9. reflexivity.
      - destruct Fe as [De| ->]; [|left; reflexivity]. unfold digit in De. cbn [In]. lia. }
    destruct r as [|f r].
    + eexists. split; [right; left; reflexivity|]. split; [|apply KI; right; left; reflexivity]. intros is w G. cbn [map app]. constructor; [left; symmetry; exact E|]. constructor; [exact Ie|exact G].
    + eexists. split; [right; right; left; reflexivity|]. split; [|apply KI; right; right; left; reflexivity]. intros is w G. cbn [map app]. constructor; [left; symmetry; exact E|]. constructor; [exact Ie|].
      apply (gen_run is (map chr (f :: r))); [exact (chr_run (f :: r) Fr)|apply chr_ones|discriminate|exact G].
  - eexists. split; [left; reflexivity|]. split; [|apply KI; left; reflexivity]. intros is w G. cbn [map app]. constructor; [unfold digit in D; cbn [In]; lia|].
    apply gen_run; [exact (chr_run r F)|apply chr_ones| |exact G]. destruct r; [contradiction (Nn eq_refl)|discriminate].
Qed.
Section Other.
Variables (word rest : bytes).
Lemma other_gen rel kind a v : (forall is w, gen is w -> gen (rel ++ is) (map chr a ++ w)) -> (forall is w, gen is w -> gen (kind ++ is) (map chr v ++ w)) ->
  gen (other_items word rest rel kind) (map chr (iphone_other word rest a v)).
Proof.
  intros Hr Hv. unfold other_items, iphone_other. change (bs "Mozilla/5.0 (iPhone; CPU iPhone OS ") with iphone_start. fold other_lead.
  rewrite map_app. apply gen_lit. rewrite map_app. apply Hr. rewrite (app_assoc other_lead word), map_app. apply gen_lit. change (map chr (x2f :: v ++ rest)) with (map chr [x2f] ++ map chr (v ++ rest)).
  apply gen_lit. rewrite (map_app chr v rest). apply Hv. rewrite <- (app_nil_r (lit_items _)), <- (app_nil_r (map chr _)). apply gen_lit. constructor.
Qed.
Definition other_front (a : bytes) : bytes := iphone_start ++ a ++ other_lead ++ word.
Lemma other_sep a v : iphone_other word rest a v = sep_ua (other_front a) v rest.
Proof. unfold iphone_other, sep_ua, other_front, other_lead, iphone_start. rewrite <- !app_assoc. reflexivity. Qed.
Lemma other_rel a v : iphone_other word rest a v = (iphone_words ++ [x20]) ++ a ++ ((other_lead ++ word) ++ x2f :: v ++ rest).
Proof. unfold iphone_other, other_lead, iphone_words. rewrite <- !app_assoc. reflexivity. Qed.
Lemma other_skip rel : skipn (length (other_items word rest rel ver_items) - (2 + length rest)) (other_items word rest rel ver_items) = ver_items ++ lit_items rest.
Proof.
  unfold other_items. rewrite !app_assoc. rewrite <- (app_assoc _ ver_items). apply skip_exact. rewrite !app_length, !lit_length. change (length [x2f]) with 1. change (length ver_items) with 2. lia.
Qed.
Lemma other_skip3 rel : skipn (length (other_items word rest rel ver_items) - (3 + length rest)) (other_items word rest rel ver_items) = lit_items [x2f] ++ ver_items ++ lit_items rest.
Proof.
  unfold other_items. set (X := lit_items [x2f] ++ ver_items ++ lit_items rest). rewrite !app_assoc. apply skip_exact. unfold X. rewrite !app_length, !lit_length. change (length [x2f]) with 1. change (length ver_items) with 2. lia.
Qed.
Lemma other_next rel kind : exists is, skipn (35 + (length rel + 13)) (other_items word rest rel kind) = ([88%N], false) :: is.
Proof.
  unfold other_items. change 35 with (length (lit_items iphone_start)). rewrite skipn_app. rewrite (skipn_all2 (lit_items iphone_start)) by lia. cbn [app].
  replace (length (lit_items iphone_start) + (length rel + 13) - length (lit_items iphone_start)) with (length rel + 13) by lia.
  rewrite skipn_app. rewrite (skipn_all2 rel) by lia. cbn [app]. replace (length rel + 13 - length rel) with 13 by lia. eexists. reflexivity.
Qed.
End Other.

(** ** The release *)
Lemma ios_lang d w : digit d -> lang ios_re (map chr (bs "Mozilla/5.0 (")) ((((map chr (bs "iPhone") ++ map chr (bs "; CPU iPhone")) ++ map chr (bs " OS")) ++ map chr [x20]) ++ [chr d]) w.
Proof.
  intros D. apply L_cat.
  - apply L_cat; [|constructor; reflexivity]. apply L_right, L_right, L_left.
    apply (chain_from (low (bs " os")) (Cat (word_q (bs "iphone")) any_plus)); [|repeat constructor]. intros w'. apply L_cat; [|apply any_lang; repeat constructor; discriminate].
    apply chain_lang; [reflexivity|repeat constructor].
  - constructor. apply (L_cat _ _ _ [chr d] []); [|constructor]. apply (L_cat _ _ _ [chr d] []); [|constructor]. constructor. exact (digit_d d D).
Qed.
Section Answers.
Variables (word rest name : bytes) (ns : list bytes) (v : bytes) (mC mD : N).
Notation a := (joined x5f ns).
Notation ua := (iphone_other word rest a v).
Hypothesis IB : In (word, rest, name) iphone_browsers.
Hypothesis Ha : full_release ns.
Hypothesis Hv : version_number v.
Hypothesis H9 : not_19 v.
Hypothesis L : short ua.
Hypothesis HA : ascii ua.
Hypothesis NP : forall h g, alone shipped mC mD h ua g <> Panic.
Definition placed (rel kind : list item) : Prop := In (other_items word rest rel kind, N.of_nat 255) other_systems /\ fixed_first (other_items word rest rel kind) = true /\
  forallb (fun it => negb (snd it)) (firstn 13 (other_items word rest rel kind)) = true /\ 13 <= length (other_items word rest rel kind) /\
  go (fam_of (other_items word rest rel kind)) (Cat ios_q (Cls false ios_sep)) (full 13) = N.lor (only 35) (only (35 + (length rel + 13))).
Lemma other_in rel kind : In rel full_families -> In kind kinds -> In (other_items word rest rel kind, 255%N) other_systems.
Proof.
  intros Ir Ik. unfold other_systems. apply in_flat_map. exists (word, rest, name). split; [exact IB|]. apply in_flat_map. exists rel. split; [exact Ir|]. exact (in_map (fun k => (other_items word rest rel k, 255%N)) kinds kind Ik).
Qed.
Lemma other_fine rel kind : In rel full_families -> In kind kinds -> sys_fine (other_items word rest rel kind) (length rel) = true.
Proof.
  intros Ir Ik. pose proof (proj1 (forallb_forall _ _) systems_fine (word, rest, name) IB) as PF. exact (proj1 (forallb_forall _ _) (proj1 (forallb_forall _ _) PF rel Ir) kind Ik).
Qed.
Lemma sys_fine_inv l n : sys_fine l n = true -> fixed_first l = true /\ forallb (fun it => negb (snd it)) (firstn 13 l) = true /\ 13 <= length l /\
  go (fam_of l) (Cat ios_q (Cls false ios_sep)) (full 13) = N.lor (only 35) (only (35 + (n + 13))).
Proof.
  unfold sys_fine. intros PF. apply andb_prop in PF as [PF PG]. apply andb_prop in PF as [PF PL]. apply andb_prop in PF as [FF FX]. apply N.eqb_eq in PG. apply Nat.leb_le in PL.
  split; [exact FF|]. split; [exact FX|]. split; [exact PL|exact PG].
Qed.
Lemma other_placed rel kind : In rel full_families -> In kind kinds -> placed rel kind.
Proof. intros Ir Ik. split; [exact (other_in rel kind Ir Ik)|]. exact (sys_fine_inv _ _ (other_fine rel kind Ir Ik)). Qed.
Lemma other_group rel kind d r p t : srun (map chr a) -> closed (map chr a) -> a = d :: r -> digit d -> In rel full_families -> In kind kinds ->
  (forall is x, gen (rel ++ is) x -> exists v w, x = v ++ w /\ srun v /\ gen is w) -> (forall is x, gen (kind ++ is) x -> exists y w, x = y ++ w /\ srun y /\ gen is w) ->
  gen (other_items word rest rel kind) (map chr ua) -> best ios_re (map chr ua) p t -> group_of 1 p t = at_release iphone_words a x20.
Proof.
  intros Ra Ca Ed Dd Ir Ik Ginv Kinv G Bt. destruct (other_placed rel kind Ir Ik) as (_ & FF & FX & PL & PG).
  set (tl := r ++ (other_lead ++ word) ++ x2f :: v ++ rest).
  assert (HU : ua = (iphone_start ++ [d]) ++ tl) by (unfold tl, iphone_other, other_lead, iphone_start; rewrite Ed; rewrite <- !app_assoc; reflexivity).
  clear HA L NP. revert G Bt HU. rewrite other_rel. intros G Bt HU.
      refine (cap_early (other_items word rest rel kind) FF iphone_words a ((other_lead ++ word) ++ x2f :: v ++ rest) x20 eq_refl Ra Ca _ _ G 13 ios_q false ios_sep _ 35 p t
        (map chr (bs "Mozilla/5.0 (")) ((((map chr (bs "iPhone") ++ map chr (bs "; CPU iPhone")) ++ map chr (bs " OS")) ++ map chr [x20]) ++ [chr d]) (map chr tl) _ _ (ios_lang d _ Dd) FX PL Bt (proj1 ios_ends) (proj2 ios_ends) ios_class PG _ _).
      - exists d, r. split; [exact Ed|exact (digit_d d Dd)].
      - reflexivity.
      - rewrite HU. rewrite map_app. unfold iphone_start. rewrite map_app. cbn [map app]. reflexivity.
      - cbn. lia.
      - intros j Hj. apply has_lor in Hj as [Hj|Hj]; apply only_is in Hj as ->; [left; reflexivity|right]. destruct (other_next word rest rel kind) as (is & En). exists [88%N], false, is. split; [exact En|]. intros y [<-|[]]. reflexivity.
      - intros pre y Gy Ey. change (skipn 35 (other_items word rest rel kind)) with (rel ++ lit_items (other_lead ++ word) ++ lit_items [x2f] ++ kind ++ lit_items rest) in Gy.
        apply Ginv in Gy as (v1 & w1 & -> & R1 & Gy). apply gen_lit_inv in Gy as (w2 & -> & Gy). apply gen_lit_inv in Gy as (w3 & -> & Gy). apply Kinv in Gy as (q & w4 & -> & R2 & Gy).
        rewrite <- (app_nil_r (lit_items rest)) in Gy. apply gen_lit_inv in Gy as (w5 & -> & Gy). inversion Gy; subst w5. rewrite app_nil_r in *.
        exists v1. split; [|exact R1]. f_equal.
        assert (Q1 : ((map chr iphone_words ++ map chr [x20] ++ map chr a ++ map chr (other_lead ++ word)) ++ chr x2f :: map chr v) ++ map chr rest =
          ((pre ++ v1 ++ map chr (other_lead ++ word)) ++ chr x2f :: q) ++ map chr rest).
        { transitivity (map chr ((iphone_words ++ [x20]) ++ a ++ (other_lead ++ word) ++ x2f :: v ++ rest)).
          - rewrite !map_app. cbn [map]. rewrite !map_app. rewrite <- !app_assoc. cbn [app]. reflexivity.
          - rewrite Ey. rewrite <- !app_assoc. cbn [map app]. reflexivity. }
        apply app_inv_tail in Q1. apply last_srun in Q1 as [Q1 _]; [|reflexivity|reflexivity| |exact R2].
        + rewrite (map_app chr (other_lead ++ word)). cbn [map]. rewrite (map_app chr v rest), Q1. reflexivity.
        + pose proof (version_run v Hv) as RV. clear - RV. unfold run in RV. eapply Forall_impl; [|exact RV]. intros z Hz. unfold is_s. apply Bool.orb_true_iff. left. exact Hz.
Qed.
Lemma other_system : (forall h, alone shipped mC mD h ua GOS = Ok (VB (bs "iOS"))) /\ forall h, alone shipped mC mD h ua GOSVersionString = Ok (VB (joined x2e ns)).
Proof.
  destruct (full_facts ns Ha) as (Ra & Ca & (d & r & Ed & Dd) & Fn & rel & Ir & Gr & Ginv). destruct (kind_facts v Hv H9) as (kind & Ik & Gk & Kinv).
  pose proof (other_gen word rest rel kind a v Gr Gk) as G.
  destruct (other_placed rel kind Ir Ik) as (I2 & FF & FX & PL & PG).
  pose proof ios_found as AF. rewrite forallb_forall in AF. specialize (AF d (digit_byte d Dd)).
  set (tl := r ++ (other_lead ++ word) ++ x2f :: v ++ rest).
  assert (HU : ua = (iphone_start ++ [d]) ++ tl) by (unfold tl, iphone_other, other_lead, iphone_start; rewrite Ed; rewrite <- !app_assoc; reflexivity).
  pose proof (short_small _ L) as Sm.
  assert (GO : forall h, alone shipped mC mD h ua GOS = Ok (VB (bs "iOS"))).
  { revert HA G NP Sm. rewrite HU. intros HA' G' NP' Sm'.
    refine (proj1 (system_answers shipped or_compiled shipped_os_sane shipped_no_skip other_systems other_systems_missed (other_items word rest rel kind) 255 (iphone_start ++ [d]) tl (bs "iOS") None mC mD I2 FF HA' _ AF Sm' (fun h g _ => NP' h g))).
    rewrite (runes_ascii_all _ HA'). exact G'. }
  split; [exact GO|]. intros h.
  assert (OI : exists x, nth_error (or_os shipped) 255 = Some x /\ os_is shipped ua x).
  { revert HA G NP. rewrite HU. intros HA' G' NP'.
    refine (system_first shipped or_compiled shipped_no_skip other_systems other_systems_missed (other_items word rest rel kind) 255 (iphone_start ++ [d]) tl (bs "iOS") None mC mD I2 FF HA' _ AF (fun h g _ => NP' h g)).
    rewrite (runes_ascii_all _ HA'). exact G'. }
  destruct OI as (x & Nx & OI).
  assert (GD : exists s, alone shipped mC mD h ua GOSVersionString = Ok (VB s) /\ dotted a s).
  { refine (group_dotted shipped or_compiled shipped_os_sane ua a 255 x ios_re 0 mC mD Nx OI ios_group HA _ Sm (fun h => NP h GOSVersionString) h).
    intros p t Bt.
    assert (GA : group_of 1 p t = at_release iphone_words a x20).
    { exact (other_group rel kind d r p t Ra Ca Ed Dd Ir Ik Ginv Kinv G Bt). }
    split; [intros s; exact (release_captured _ _ _ _ 0 p t s GA)|exact (release_present _ _ _ 0 p t GA)]. }
  destruct GD as (s & Es & Ds). rewrite Es, (dotted_map _ _ Ds), (joined_map ns Fn). reflexivity.
Qed.
End Answers.

(** ** The browsers *)
Definition browser_says (ua v name : bytes) (mC mD : N) : Prop := (forall h, alone shipped mC mD h ua GClientType = Ok (VN 1)) /\ alone shipped mC mD 0 ua GBrowser = Ok (VB name) /\
  (forall h, alone shipped mC mD h ua GBrowserVersionString = Ok (VB v)) /\ ascii ua /\ forall h g, alone shipped mC mD h ua g <> Panic.
Section Browser.
Variable T : tables.
Hypothesis CC : compiled (cr_re T).
Hypothesis S1 : client_sane T.
Variable cf : list (list item * N).
Hypothesis CM : clients_miss T cf = true.
Hypothesis FN : forall mC mD h ua g, short ua -> (forall t idx x, client_is T mC ua t idx x -> ~ broken T idx x) -> alone T mC mD h ua g <> Panic.
Variables (items : list item) (A V B : bytes) (k : nat) (pat : re) (name : bytes) (mC mD : N).
Notation ua := (sep_ua A V B).
Hypothesis HV : version_number V.
Hypothesis L : short ua.
Hypothesis O : on mC 1.
Hypothesis I1 : In (items, N.of_nat k) cf.
Hypothesis FF : fixed_first items = true.
Hypothesis HA : ascii ua.
Hypothesis HG : gen items (map chr ua).
Hypothesis EO : entry_ok T k pat name = true.
Hypothesis LA : exists u v w, map chr ua = u ++ v ++ w /\ lang pat u v w.
Hypothesis CAP : forall p t, best pat (map chr ua) p t -> group_of 1 p t = span A V.
Lemma browser_part : ((forall h, alone T mC mD h ua GClientType = Ok (VN 1)) /\ alone T mC mD 0 ua GBrowser = Ok (VB name) /\ (forall h, alone T mC mD h ua GBrowserVersionString = Ok (VB V))) /\
  forall h g, alone T mC mD h ua g <> Panic.
Proof.
  destruct (desktop_client T CC cf CM FN items A V B k pat name mC mD L O I1 FF HA HG EO LA CAP) as (x & Ex & Cx & Cf & NP). split; [|exact NP].
  refine (browser_answers T CC S1 A V B HV (short_small _ L) mC mD k pat name EO CAP HA _ NP).
  intros y ir' F1 F2. unfold entry_of in Ex. rewrite F1, F2 in Ex. injection Ex as ->. exact Cx.
Qed.
End Browser.
Lemma clients_facts rel : In rel full_families ->
  In (other_items (bs "CriOS") (bs " Mobile/15E148 Safari/604.1") rel ver_items, 488%N) other_clients /\ In (other_items (bs "FxiOS") (bs " Mobile/15E148 Safari/605.1.15") rel ver_items, 362%N) other_clients /\
  In (other_items (bs "Version/17.0 EdgiOS") (bs " Mobile/15E148 Safari/604.1") rel ver_items, 292%N) other_clients.
Proof.
  intros I. unfold other_clients. repeat split; apply in_flat_map; exists rel; (split; [exact I|]); [left; reflexivity|right; left; reflexivity|right; right; left; reflexivity].
Qed.
Section Three.
Variables (ns : list bytes) (v : bytes) (mC mD : N).
Notation a := (joined x5f ns).
Hypothesis Ha : full_release ns.
Hypothesis Hv : version_number v.
Hypothesis O : on mC 1.
Lemma crios_says : short (iphone_other (bs "CriOS") (bs " Mobile/15E148 Safari/604.1") a v) ->
  browser_says (iphone_other (bs "CriOS") (bs " Mobile/15E148 Safari/604.1") a v) v (bs "Chrome Mobile iOS") mC mD.
Proof.
  intros L. destruct (full_facts ns Ha) as (Ra & Ca & _ & Fn & rel & Ir & Gr & _). pose proof (other_gen (bs "CriOS") (bs " Mobile/15E148 Safari/604.1") rel ver_items a v Gr (fun is w => gen_ver v is w Hv)) as G.
  pose proof (proj1 (forallb_forall _ _) clients_fine rel Ir) as PF. apply andb_prop in PF as [PF _]. apply andb_prop in PF as [PF _]. apply fam_fine_inv in PF as (FF & FA & FG). pose proof (FA _ G) as HA.
  destruct (clients_facts rel Ir) as (I1 & _). unfold browser_says. rewrite other_sep in *.
  destruct (browser_part shipped cr_compiled shipped_client_sane other_clients other_clients_missed shipped_never_panics (other_items (bs "CriOS") (bs " Mobile/15E148 Safari/604.1") rel ver_items)
    (other_front (bs "CriOS") a) v (bs " Mobile/15E148 Safari/604.1") 488 crios_re (bs "Chrome Mobile iOS") mC mD Hv L O I1 FF HA G crios_entry) as ((Q1 & Q2 & Q3) & Q4).
  - exists (map chr (iphone_start ++ a ++ bs " like Mac OS X) AppleWebKit/605.1.15 (KHTML, like Gecko)")), ([chr x20] ++ map chr (bs "CriOS") ++ []), (map chr (x2f :: v ++ bs " Mobile/15E148 Safari/604.1")). split.
    + rewrite app_nil_r. change ([chr x20] ++ map chr (bs "CriOS")) with (map chr (bs " CriOS")). rewrite <- !map_app. f_equal. unfold sep_ua, other_front, other_lead. rewrite <- !app_assoc. reflexivity.
    + apply L_cat; [apply start_space|]. apply L_cat; [apply chain_lang; [reflexivity|repeat constructor]|]. apply L_right. constructor.
  - intros p t Bt. refine (cap_option _ FF (other_front (bs "CriOS") a) v (bs " Mobile/15E148 Safari/604.1") Hv _ G (word_q (bs "crios")) false slash _ p t Bt eq_refl FG (other_skip3 (bs "CriOS") (bs " Mobile/15E148 Safari/604.1") rel)). reflexivity.
  - split; [exact Q1|]. split; [exact Q2|]. split; [exact Q3|]. split; [exact HA|exact Q4].
Qed.
Lemma fxios_says : short (iphone_other (bs "FxiOS") (bs " Mobile/15E148 Safari/605.1.15") a v) ->
  browser_says (iphone_other (bs "FxiOS") (bs " Mobile/15E148 Safari/605.1.15") a v) v (bs "Firefox Mobile iOS") mC mD.
Proof.
  intros L. destruct (full_facts ns Ha) as (Ra & Ca & _ & Fn & rel & Ir & Gr & _). pose proof (other_gen (bs "FxiOS") (bs " Mobile/15E148 Safari/605.1.15") rel ver_items a v Gr (fun is w => gen_ver v is w Hv)) as G.
  pose proof (proj1 (forallb_forall _ _) clients_fine rel Ir) as PF. apply andb_prop in PF as [PF _]. apply andb_prop in PF as [_ PF]. apply fam_fine_inv in PF as (FF & FA & FG). pose proof (FA _ G) as HA.
  destruct (clients_facts rel Ir) as (_ & I1 & _). unfold browser_says. rewrite other_sep in *.
  destruct (browser_part shipped cr_compiled shipped_client_sane other_clients other_clients_missed shipped_never_panics (other_items (bs "FxiOS") (bs " Mobile/15E148 Safari/605.1.15") rel ver_items)
    (other_front (bs "FxiOS") a) v (bs " Mobile/15E148 Safari/605.1.15") 362 fxios_re (bs "Firefox Mobile iOS") mC mD Hv L O I1 FF HA G fxios_entry) as ((Q1 & Q2 & Q3) & Q4).
  - exists (map chr (iphone_start ++ a ++ bs " like Mac OS X) AppleWebKit/605.1.15 (KHTML, like Gecko)")), ([chr x20] ++ (map chr (bs "FxiOS") ++ [chr x2f]) ++ map chr v), (map chr (bs " Mobile/15E148 Safari/605.1.15")). split.
    + change ([chr x20] ++ (map chr (bs "FxiOS") ++ [chr x2f]) ++ map chr v) with (map chr (bs " FxiOS/") ++ map chr v). rewrite <- !map_app. f_equal. unfold sep_ua, other_front, other_lead. rewrite <- !app_assoc. reflexivity.
    + apply L_cat; [apply start_space|]. apply L_cat; [|constructor; apply version_body; exact Hv]. apply L_cat; [apply chain_lang; [reflexivity|repeat constructor]|constructor; reflexivity].
  - intros p t Bt. refine (cap_plain _ FF (other_front (bs "FxiOS") a) v (bs " Mobile/15E148 Safari/605.1.15") Hv _ G (word_q (bs "fxios")) slash _ p t Bt slash_class FG (other_skip (bs "FxiOS") (bs " Mobile/15E148 Safari/605.1.15") rel)). reflexivity.
  - split; [exact Q1|]. split; [exact Q2|]. split; [exact Q3|]. split; [exact HA|exact Q4].
Qed.
Lemma edgios_says : short (iphone_other (bs "Version/17.0 EdgiOS") (bs " Mobile/15E148 Safari/604.1") a v) ->
  browser_says (iphone_other (bs "Version/17.0 EdgiOS") (bs " Mobile/15E148 Safari/604.1") a v) v (bs "Microsoft Edge") mC mD.
Proof.
  intros L. destruct (full_facts ns Ha) as (Ra & Ca & _ & Fn & rel & Ir & Gr & _). pose proof (other_gen (bs "Version/17.0 EdgiOS") (bs " Mobile/15E148 Safari/604.1") rel ver_items a v Gr (fun is w => gen_ver v is w Hv)) as G.
  pose proof (proj1 (forallb_forall _ _) clients_fine rel Ir) as PF. apply andb_prop in PF as [_ PF]. apply fam_fine_inv in PF as (FF & FA & FG). pose proof (FA _ G) as HA.
  destruct (clients_facts rel Ir) as (_ & _ & I1). unfold browser_says. rewrite other_sep in *.
  destruct (browser_part shipped cr_compiled shipped_client_sane other_clients other_clients_missed shipped_never_panics (other_items (bs "Version/17.0 EdgiOS") (bs " Mobile/15E148 Safari/604.1") rel ver_items)
    (other_front (bs "Version/17.0 EdgiOS") a) v (bs " Mobile/15E148 Safari/604.1") 292 edgios_re (bs "Microsoft Edge") mC mD Hv L O I1 FF HA G edgios_entry) as ((Q1 & Q2 & Q3) & Q4).
  - exists (map chr (iphone_start ++ a ++ bs " like Mac OS X) AppleWebKit/605.1.15 (KHTML, like Gecko) Version/17.0")), ([chr x20] ++ (map chr (bs "EdgiOS") ++ [chr x2f]) ++ map chr v), (map chr (bs " Mobile/15E148 Safari/604.1")). split.
    + change ([chr x20] ++ (map chr (bs "EdgiOS") ++ [chr x2f]) ++ map chr v) with (map chr (bs " EdgiOS/") ++ map chr v). rewrite <- !map_app. f_equal. unfold sep_ua, other_front, other_lead. rewrite <- !app_assoc. reflexivity.
    + apply L_cat; [apply start_space|]. apply L_cat; [|constructor; apply version_body; exact Hv]. apply L_cat; [apply chain_lang; [reflexivity|repeat constructor]|constructor; reflexivity].
  - intros p t Bt. refine (cap_plain _ FF (other_front (bs "Version/17.0 EdgiOS") a) v (bs " Mobile/15E148 Safari/604.1") Hv _ G (word_q (bs "edgios")) space_slash _ p t Bt space_slash_e FG (other_skip (bs "Version/17.0 EdgiOS") (bs " Mobile/15E148 Safari/604.1") rel)). reflexivity.
  - split; [exact Q1|]. split; [exact Q2|]. split; [exact Q3|]. split; [exact HA|exact Q4].
Qed.
Lemma any_says word rest name : In (word, rest, name) iphone_browsers -> short (iphone_other word rest a v) -> browser_says (iphone_other word rest a v) v name mC mD.
Proof.
  intros IB. unfold iphone_browsers in IB. cbn [In] in IB. destruct IB as [E|[E|[E|[]]]]; injection E as E1 E2 E3; rewrite <- E1, <- E2, <- E3; [exact crios_says|exact fxios_says|exact edgios_says].
Qed.
End Three.
Lemma other_browser word rest name ns v mC mD : In (word, rest, name) iphone_browsers -> full_release ns -> version_number v -> short (iphone_other word rest (joined x5f ns) v) -> on mC 1 ->
  (forall h, alone shipped mC mD h (iphone_other word rest (joined x5f ns) v) GClientType = Ok (VN 1)) /\ alone shipped mC mD 0 (iphone_other word rest (joined x5f ns) v) GBrowser = Ok (VB name) /\
  (forall h, alone shipped mC mD h (iphone_other word rest (joined x5f ns) v) GBrowserVersionString = Ok (VB v)).
Proof. intros IB Ha Hv L O. destruct (any_says ns v mC mD Ha Hv O word rest name IB L) as (Q1 & Q2 & Q3 & _). exact (conj Q1 (conj Q2 Q3)). Qed.
Lemma other_release word rest name ns v mC mD : In (word, rest, name) iphone_browsers -> full_release ns -> version_number v -> not_19 v -> short (iphone_other word rest (joined x5f ns) v) -> on mC 1 ->
  (forall h, alone shipped mC mD h (iphone_other word rest (joined x5f ns) v) GOS = Ok (VB (bs "iOS"))) /\
  forall h, alone shipped mC mD h (iphone_other word rest (joined x5f ns) v) GOSVersionString = Ok (VB (joined x2e ns)).
Proof.
  intros IB Ha Hv H9 L O. destruct (any_says ns v mC mD Ha Hv O word rest name IB L) as (_ & _ & _ & HA & NP). exact (other_system word rest name ns v mC mD IB Ha Hv H9 L HA NP).
Qed.
(** Firefox 19 on iOS 12.4. *)
Definition fx19 : bytes := iphone_other (bs "FxiOS") (bs " Mobile/15E148 Safari/605.1.15") (joined x5f [bs "12"; bs "4"]) (bs "19.2").
Lemma rel_124 : full_release [bs "12"; bs "4"].
Proof.
  split; [|repeat constructor]. exists (bs "12"), [bs "4"]. split; [reflexivity|]. split; [exact (is_numeral_ok (bs "12") eq_refl)|]. split; [repeat constructor|]. split; [discriminate|].
  constructor; [exact (is_numeral_ok (bs "4") eq_refl)|constructor].
Qed.
Lemma fx19_answer : alone shipped 63 1023 0 fx19 GOSVersionString = Ok (VB (bs "26.$1")).
Proof. exact (bytes_case shipped 63 1023 0 fx19 GOSVersionString (bs "26.$1") ltac:(vm_compute; reflexivity)). Qed.
Lemma other_wrong : exists word rest name ns v, In (word, rest, name) iphone_browsers /\ full_release ns /\ version_number v /\ short (iphone_other word rest (joined x5f ns) v) /\
  joined x2e ns = bs "12.4" /\ alone shipped 63 1023 0 (iphone_other word rest (joined x5f ns) v) GOSVersionString = Ok (VB (bs "26.$1")).
Proof.
  exists (bs "FxiOS"), (bs " Mobile/15E148 Safari/605.1.15"), (bs "Firefox Mobile iOS"), [bs "12"; bs "4"], (bs "19.2").
  split; [right; left; reflexivity|]. split; [exact rel_124|]. split; [exact (is_version_ok (bs "19.2") eq_refl)|]. split; [exact (short_200 fx19 eq_refl)|]. split; [reflexivity|exact fx19_answer].
Qed.

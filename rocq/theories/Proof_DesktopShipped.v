(** The answers for the desktop families in the shipped tables. *)
From Verif Require Import Model_Base Model_CacheEntry Model_Regex Model_Ctx Model_Parse Model_Shipped Spec_Regex Spec_Getters Spec_Select Spec_Word Spec_Panic Spec_Family
  Proof_Base Proof_Pattern Proof_Word Proof_Covers Proof_Quick Proof_Index Proof_Shadow Proof_Bare Proof_Charset Proof_Agree Proof_Select Proof_Client Proof_Choice
  Proof_Live Proof_Tables Proof_Fine Proof_StaleShipped Proof_Reports Proof_OsInside Proof_Family Proof_Tail Proof_Desktop Proof_DesktopBrowser Proof_DesktopSystem.
From Coq Require Import Lia ZifyBool ZifyNat ZifyN.
Open Scope nat_scope.

Definition os_families : list (list item * N) := map (fun x => (fst x, snd (snd x))) families.
Lemma systems_missed : systems_miss shipped os_families = true.
Proof. vm_cast_no_check (eq_refl true). Qed.
Definition places_of : list (bytes * bytes * nat * option bytes) :=
  [(bs "Windows NT 10.0; Win64; x64", bs "Windows", 212, Some (bs "10")); (bs "Macintosh; Intel Mac OS X 10_15_7", bs "Mac", 277, None);
   (bs "X11; Linux x86_64", bs "GNU/Linux", 328, Some [])].
Lemma systems_found : forallb (fun q => system_entry shipped (snd (fst q)) (front (fst (fst (fst q)))) (snd (fst (fst q))) (snd q)) places_of = true.
Proof. vm_compute. reflexivity. Qed.

Section Desktop.
Variable T : tables.
Hypothesis CC : compiled (cr_re T).
Hypothesis CO : compiled (or_re T).
Hypothesis S1 : client_sane T.
Hypothesis S2 : os_sane T.
Hypothesis NS : forall ua x, ~ skipped T ua x.
Variables cf osf : list (list item * N).
Hypothesis CM : clients_miss T cf = true.
Hypothesis OM : systems_miss T osf = true.
Hypothesis FN : forall mC mD h ua g, short ua -> (forall t idx x, client_is T mC ua t idx x -> ~ broken T idx x) -> alone T mC mD h ua g <> Panic.
Variables (items : list item) (A V B start rest : bytes) (k ko : nat) (pat : re) (name sysname : bytes) (ver : option bytes) (mC mD : N).
Notation ua := (sep_ua A V B).
Hypothesis HV : version_number V.
Hypothesis HU : ua = start ++ rest.
Hypothesis L : short ua.
Hypothesis O : on mC 1.
Hypothesis I1 : In (items, N.of_nat k) cf.
Hypothesis I2 : In (items, N.of_nat ko) osf.
Hypothesis FF : fixed_first items = true.
Hypothesis HA : ascii ua.
Hypothesis HG : gen items (map chr ua).
Hypothesis EO : entry_ok T k pat name = true.
Hypothesis SE : system_entry T ko start sysname ver = true.
Hypothesis LA : exists u v w, map chr ua = u ++ v ++ w /\ lang pat u v w.
Hypothesis CAP : forall p t, best pat (map chr ua) p t -> group_of 1 p t = span A V.
Lemma desktop_client : exists x, entry_of T k = Some x /\ client_is T mC ua 1 1 x /\ (forall f, client_fragment T ua x f -> f = V) /\
  forall h g, alone T mC mD h ua g <> Panic.
Proof.
  pose proof (sep_runes A V B HA) as RA. assert (GR : gen items (runes ua)) by (rewrite RA; exact HG).
  destruct (entry_ok_inv T k pat name CC EO) as (ir & x & r & src & E1 & E2 & R0 & V0 & VI & B0 & Tx & Nr & Er & P & NB).
  assert (AP : client_applies T ua x).
  { destruct LA as (u & v & w & Eu & Lu). apply (applies_lang T x r src pat ua u v w R0 Nr Er P); [rewrite RA; exact Eu|exact Lu]. }
  pose proof (client_first T CC cf CM items (N.of_nat k) k ua mC ir x I1 FF HA GR E1 E2 eq_refl AP O) as Cx.
  exists x. split; [unfold entry_of; rewrite E1; exact E2|]. split; [exact Cx|]. split.
  - intros f. exact (browser_fragment T CC A V B k pat name EO CAP HA x ir f E1 E2).
  - intros h g. apply (FN mC mD h ua g L). intros t idx y Cy. destruct (client_is_unique _ _ _ _ _ _ _ _ _ Cx Cy) as (_ & <- & <-). exact NB.
Qed.
Lemma desktop_answers : (forall h, alone T mC mD h ua GClientType = Ok (VN 1)) /\ alone T mC mD 0 ua GBrowser = Ok (VB name) /\
  (forall h, alone T mC mD h ua GBrowserVersionString = Ok (VB V)) /\ (forall h, alone T mC mD h ua GOS = Ok (VB sysname)) /\
  (forall v, ver = Some v -> forall h, alone T mC mD h ua GOSVersionString = Ok (VB v)) /\
  exists x, entry_of T k = Some x /\ client_is T mC ua 1 1 x /\ (forall f, client_fragment T ua x f -> f = V) /\ forall h g, alone T mC mD h ua g <> Panic.
Proof.
  pose proof (short_small _ L) as Sm. pose proof (sep_runes A V B HA) as RA.
  assert (GR : gen items (runes ua)) by (rewrite RA; exact HG).
  destruct desktop_client as (x & Ex & Cx & Cf & NP).
  destruct (browser_answers T CC S1 A V B HV Sm mC mD k pat name EO CAP HA) as (Q1 & Q2 & Q3); [|exact NP|].
  { intros y ir' F1 F2. unfold entry_of in Ex. rewrite F1, F2 in Ex. injection Ex as ->. exact Cx. }
  split; [exact Q1|]. split; [exact Q2|]. split; [exact Q3|].
  assert (X : (forall h, alone T mC mD h ua GOS = Ok (VB sysname)) /\ forall v, ver = Some v -> forall h, alone T mC mD h ua GOSVersionString = Ok (VB v)).
  2: { destruct X as [X1 X2]. split; [exact X1|]. split; [exact X2|]. exists x. auto. }
  clear Cx Cf. revert NP HA GR Sm. rewrite HU. intros NP HA' GR Sm. exact (system_answers T CO S2 NS osf OM items ko start rest sysname ver mC mD I2 FF HA' GR SE Sm (fun h g _ => NP h g)).
Qed.
End Desktop.

Lemma shipped_never_panics mC mD h ua g : short ua -> (forall t idx x, client_is shipped mC ua t idx x -> ~ broken shipped idx x) -> alone shipped mC mD h ua g <> Panic.
Proof. intros L NB. apply alone_fine; [exact L|]. apply (proj2 (shipped_detects mC mD ua L)). exact NB. Qed.

Definition desktop (k : nat) (ua V name sysname : bytes) (mC mD : N) (ver : option bytes) : Prop :=
  (forall h, alone shipped mC mD h ua GClientType = Ok (VN 1)) /\ alone shipped mC mD 0 ua GBrowser = Ok (VB name) /\
  (forall h, alone shipped mC mD h ua GBrowserVersionString = Ok (VB V)) /\ (forall h, alone shipped mC mD h ua GOS = Ok (VB sysname)) /\
  (forall v, ver = Some v -> forall h, alone shipped mC mD h ua GOSVersionString = Ok (VB v)) /\
  exists x, entry_of shipped k = Some x /\ client_is shipped mC ua 1 1 x /\ (forall f, client_fragment shipped ua x f -> f = V) /\ forall h g, alone shipped mC mD h ua g <> Panic.
Lemma place_facts sys name ko ver : In (sys, name, ko, ver) places_of ->
  In (sys, name) systems /\ system_entry shipped ko (front sys) name ver = true /\
  (In (chrome_items sys, N.of_nat ko) os_families /\ In (edge_items sys, N.of_nat ko) os_families /\ In (firefox_items sys, N.of_nat ko) os_families) /\
  (In (chrome_items sys, N.of_nat 494) client_families /\ In (edge_items sys, N.of_nat 294) client_families /\ In (firefox_items sys, N.of_nat 364) client_families).
Proof.
  intros I. pose proof systems_found as SF. rewrite forallb_forall in SF. specialize (SF _ I). cbn [fst snd] in SF. split; [|split; [exact SF|]].
  - cbn [places_of In] in I. unfold systems. cbn [In]. destruct I as [E|[E|[E|[]]]]; injection E as <- <- <- <-; auto.
  - clear SF. change (N.of_nat 494) with 494%N. change (N.of_nat 294) with 294%N. change (N.of_nat 364) with 364%N.
    unfold os_families, client_families, families, systems. cbn [combine flat_map map fst snd app]. cbn [places_of In] in I.
    destruct I as [E|[E|[E|[]]]]; injection E as <- <- <- <-;
      [change (N.of_nat 212) with 212%N|change (N.of_nat 277) with 277%N|change (N.of_nat 328) with 328%N]; cbn [In]; repeat split; tauto.
Qed.

Section Shipped.
Variables (mC mD : N) (sys name : bytes) (ko : nat) (ver : option bytes).
Hypothesis IP : In (sys, name, ko, ver) places_of.
Hypothesis O : on mC 1.
Lemma fine_facts : fam_fine chrome_q (fun l => length l - 17) (chrome_items sys) = true /\ fam_fine edge_full (fun l => length l - 2) (edge_items sys) = true /\
  fam_fine firefox_q (fun l => length l - 3) (firefox_items sys) = true.
Proof.
  destruct (place_facts _ _ _ _ IP) as (I & _). pose proof all_fine as AF. rewrite forallb_forall in AF. specialize (AF _ I). cbn [fst] in AF.
  apply andb_prop in AF as [AF H3]. apply andb_prop in AF as [H1 H2]. auto.
Qed.
Lemma chrome_desktop v : version_number v -> short (chrome_ua sys v) -> desktop 494 (chrome_ua sys v) v (bs "Chrome") name mC mD ver.
Proof.
  intros Hv L. destruct (place_facts _ _ _ _ IP) as (_ & SE & (O1 & _ & _) & (K1 & _ & _)). destruct fine_facts as (FC & _ & _).
  apply fam_fine_inv in FC as (FF & FA & FG). pose proof (chrome_gen sys v Hv) as G. pose proof (FA _ G) as HA. rewrite chrome_sep in *.
  unfold desktop.
  refine (desktop_answers shipped cr_compiled or_compiled shipped_client_sane shipped_os_sane shipped_no_skip client_families os_families clients_missed systems_missed shipped_never_panics
    (chrome_items sys) (chrome_front sys) v chrome_back (front sys) (bs ") AppleWebKit/537.36 (KHTML, like Gecko) Chrome" ++ x2f :: v ++ chrome_back) 494 ko chrome_re (bs "Chrome") name ver mC mD
    Hv _ L O K1 O1 FF HA G (proj1 entries_ok) SE _ _).
  - unfold sep_ua, chrome_front. rewrite <- !app_assoc. reflexivity.
  - exists (map chr (front sys ++ bs ") AppleWebKit/537.36 (KHTML, like Gecko)")), (chr x20 :: map chr (bs "Chrome") ++ []), (map chr (x2f :: v ++ chrome_back)). split; [|apply chrome_lang].
    rewrite app_nil_r. change (chr x20 :: map chr (bs "Chrome")) with (map chr (bs " Chrome")). rewrite <- !map_app. f_equal. unfold sep_ua, chrome_front. rewrite <- !app_assoc. reflexivity.
  - intros p t Bt. refine (cap_option (chrome_items sys) FF (chrome_front sys) v chrome_back Hv _ G chrome_q false slash _ p t Bt eq_refl FG (skip_chrome sys)). apply stops_space.
Qed.
Lemma edge_desktop c v : version_number c -> version_number v -> short (edge_ua sys c v) -> desktop 294 (edge_ua sys c v) v (bs "Microsoft Edge") name mC mD ver.
Proof.
  intros Hc Hv L. destruct (place_facts _ _ _ _ IP) as (_ & SE & (_ & O1 & _) & (_ & K1 & _)). destruct fine_facts as (_ & FC & _).
  apply fam_fine_inv in FC as (FF & FA & FG). pose proof (edge_gen sys c v Hc Hv) as G. pose proof (FA _ G) as HA. rewrite edge_sep in *.
  unfold desktop.
  refine (desktop_answers shipped cr_compiled or_compiled shipped_client_sane shipped_os_sane shipped_no_skip client_families os_families clients_missed systems_missed shipped_never_panics
    (edge_items sys) (edge_front sys c) v [] (front sys) (bs ") AppleWebKit/537.36 (KHTML, like Gecko) Chrome/" ++ c ++ bs " Safari/537.36" ++ bs " Edg" ++ x2f :: v ++ []) 294 ko edge_re (bs "Microsoft Edge") name ver mC mD
    Hv _ L O K1 O1 FF HA G (proj2 (proj2 entries_ok)) SE _ _).
  - unfold sep_ua, edge_front, chrome_ua, front. rewrite <- !app_assoc. reflexivity.
  - exists (map chr (chrome_ua sys c)), (chr x20 :: (map chr (bs "Edg") ++ [chr x2f]) ++ map chr v), []. split; [|apply edge_lang; exact Hv].
    change (chr x20 :: (map chr (bs "Edg") ++ [chr x2f]) ++ map chr v) with (map chr (bs " Edg/") ++ map chr v). rewrite app_nil_r, <- !map_app. f_equal. unfold sep_ua, edge_front. rewrite app_nil_r, <- !app_assoc. reflexivity.
  - intros p t Bt. refine (cap_plain (edge_items sys) FF (edge_front sys c) v [] Hv _ G edge_q space_slash _ p t Bt space_slash_e FG (skip_edge sys)). exact I.
Qed.
Lemma firefox_desktop r v : version_number r -> version_number v -> short (firefox_ua sys r v) -> desktop 364 (firefox_ua sys r v) v (bs "Firefox") name mC mD ver.
Proof.
  intros Hc Hv L. destruct (place_facts _ _ _ _ IP) as (_ & SE & (_ & _ & O1) & (_ & _ & K1)). destruct fine_facts as (_ & _ & FC).
  apply fam_fine_inv in FC as (FF & FA & FG). pose proof (firefox_gen sys r v Hc Hv) as G. pose proof (FA _ G) as HA. rewrite firefox_sep in *.
  unfold desktop.
  refine (desktop_answers shipped cr_compiled or_compiled shipped_client_sane shipped_os_sane shipped_no_skip client_families os_families clients_missed systems_missed shipped_never_panics
    (firefox_items sys) (firefox_front sys r) v [] (front sys) (bs "; rv:" ++ r ++ bs ") Gecko/20100101 Firefox" ++ x2f :: v ++ []) 364 ko firefox_re (bs "Firefox") name ver mC mD
    Hv _ L O K1 O1 FF HA G (proj1 (proj2 entries_ok)) SE _ _).
  - unfold sep_ua, firefox_front. rewrite <- !app_assoc. reflexivity.
  - exists (map chr (front sys ++ bs "; rv:" ++ r ++ bs ") Gecko/20100101")), (chr x20 :: map chr (bs "Firefox") ++ []), (map chr (x2f :: v ++ [])). split; [|apply firefox_lang].
    rewrite app_nil_r. change (chr x20 :: map chr (bs "Firefox")) with (map chr (bs " Firefox")). rewrite <- !map_app. f_equal. unfold sep_ua, firefox_front. rewrite <- !app_assoc. reflexivity.
  - intros p t Bt. refine (cap_option (firefox_items sys) FF (firefox_front sys r) v [] Hv _ G firefox_q false space_slash _ p t Bt eq_refl FG (skip_firefox sys)). exact I.
Qed.
End Shipped.

(** ** The claims *)
Definition place_of sys name := exists ko ver, In (sys, name, ko, ver) places_of.
Lemma system_place sys name : In (sys, name) systems -> place_of sys name.
Proof.
  intros I. unfold systems in I. cbn [In] in I. destruct I as [E|[E|[E|[]]]]; injection E as <- <-.
  - exists 212, (Some (bs "10")). left. reflexivity.
  - exists 277, None. right. left. reflexivity.
  - exists 328, (Some []). right. right. left. reflexivity.
Qed.
Lemma release_place sys v : In (sys, v) releases -> exists name ko, In (sys, name, ko, Some v) places_of.
Proof.
  intros I. unfold releases in I. cbn [In] in I. destruct I as [E|[E|[]]]; injection E as <- <-.
  - exists (bs "Windows"), 212. left. reflexivity.
  - exists (bs "GNU/Linux"), 328. right. right. left. reflexivity.
Qed.
Lemma shipped_chrome sys name v mC mD : In (sys, name) systems -> version_number v -> short (chrome_ua sys v) -> on mC 1 -> recognised (chrome_ua sys v) (bs "Chrome") v name mC mD.
Proof.
  intros I Hv L O. destruct (system_place _ _ I) as (ko & ver & IP). destruct (chrome_desktop mC mD sys name ko ver IP O v Hv L) as (Q1 & Q2 & Q3 & Q4 & _).
  unfold recognised. auto.
Qed.
Lemma shipped_edge sys name c v mC mD : In (sys, name) systems -> version_number c -> version_number v -> short (edge_ua sys c v) -> on mC 1 ->
  recognised (edge_ua sys c v) (bs "Microsoft Edge") v name mC mD.
Proof.
  intros I Hc Hv L O. destruct (system_place _ _ I) as (ko & ver & IP). destruct (edge_desktop mC mD sys name ko ver IP O c v Hc Hv L) as (Q1 & Q2 & Q3 & Q4 & _).
  unfold recognised. auto.
Qed.
Lemma shipped_firefox sys name r v mC mD : In (sys, name) systems -> version_number r -> version_number v -> short (firefox_ua sys r v) -> on mC 1 ->
  recognised (firefox_ua sys r v) (bs "Firefox") v name mC mD.
Proof.
  intros I Hc Hv L O. destruct (system_place _ _ I) as (ko & ver & IP). destruct (firefox_desktop mC mD sys name ko ver IP O r v Hc Hv L) as (Q1 & Q2 & Q3 & Q4 & _).
  unfold recognised. auto.
Qed.
Lemma shipped_release sys o c v mC mD h ua : In (sys, o) releases -> version_number c -> version_number v -> short ua -> on mC 1 ->
  In ua [chrome_ua sys v; edge_ua sys c v; firefox_ua sys c v] -> alone shipped mC mD h ua GOSVersionString = Ok (VB o).
Proof.
  intros I Hc Hv L O J. destruct (release_place _ _ I) as (name & ko & IP). cbn [In] in J. destruct J as [<-|[<-|[<-|[]]]].
  - destruct (chrome_desktop mC mD sys name ko (Some o) IP O v Hv L) as (_ & _ & _ & _ & Q & _). exact (Q o eq_refl h).
  - destruct (edge_desktop mC mD sys name ko (Some o) IP O c v Hc Hv L) as (_ & _ & _ & _ & Q & _). exact (Q o eq_refl h).
  - destruct (firefox_desktop mC mD sys name ko (Some o) IP O c v Hc Hv L) as (_ & _ & _ & _ & Q & _). exact (Q o eq_refl h).
Qed.

Definition is_version (v : bytes) : bool :=
  match v with
  | d :: (_ :: _) as r => (48 <=? bn d)%N && (bn d <=? 57)%N && forallb (fun b => (48 <=? bn b)%N && (bn b <=? 57)%N || Byte.eqb b x2e) (tl v) && negb (Byte.eqb (last v x00) x2e)
  | _ => false
  end.
Lemma is_version_ok v : is_version v = true -> version_number v.
Proof.
  destruct v as [|d [|e r]]; try discriminate. cbn [is_version tl]. intros H. apply andb_prop in H as [H H4]. apply andb_prop in H as [H H3]. apply andb_prop in H as [H1 H2].
  exists d, (e :: r). split; [reflexivity|]. split; [unfold digit; lia|]. split; [discriminate|]. split.
  - apply Forall_forall. intros b Ib. rewrite forallb_forall in H3. specialize (H3 b Ib). apply Bool.orb_prop in H3 as [H3|H3]; [left; unfold digit; lia|right; apply Byte.byte_dec_bl; exact H3].
  - intros y E. rewrite E, last_last in H4. discriminate H4.
Qed.
Lemma short_200 (ua : bytes) : (length ua <? 200) = true -> short ua.
Proof. intros H. unfold short. apply Nat.ltb_lt in H. lia. Qed.

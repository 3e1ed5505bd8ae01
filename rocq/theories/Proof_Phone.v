(** Chrome on Android phones. *)
From Verif Require Import Model_Base Model_CacheEntry Model_Regex Model_Ctx Model_Parse Model_Shipped Spec_Regex Spec_Getters Spec_Select Spec_Word Spec_Panic Spec_Family Spec_Phone
  Proof_Base Proof_Pattern Proof_Word Proof_Covers Proof_Quick Proof_Index Proof_Shadow Proof_Bare Proof_Charset Proof_Agree Proof_Select Proof_OS Proof_Client Proof_Choice
  Proof_Live Proof_Tables Proof_Fine Proof_StaleShipped Proof_Reports Proof_OsInside Proof_Family Proof_Tail Proof_Desktop Proof_DesktopBrowser Proof_DesktopSystem Proof_DesktopShipped.
From Coq Require Import Lia ZifyBool ZifyNat ZifyN.
Open Scope nat_scope.

(** ** How a match of a pattern can end *)
Fixpoint empty_ok (a : re) : bool :=
  match a with Cls _ _ => false | Cat a b => empty_ok a && empty_ok b | Alt a b => empty_ok a || empty_ok b | Grp _ a => empty_ok a | _ => true end.
(** Every match ends outside digits and dots, if it is not empty. *)
Fixpoint ends_out (a : re) : bool :=
  match a with
  | Cls neg rs => negb (existsb (cls_mem neg rs) (46%N :: digs))
  | Cat a b => ends_out b && (if empty_ok b then ends_out a else true)
  | Alt a b => ends_out a && ends_out b
  | Star _ a | Grp _ a => ends_out a
  | _ => true
  end.
Definition out_end (v : Spec_Regex.text) : Prop := v = [] \/ exists u x, v = u ++ [x] /\ is_e (fst x) = false.
Lemma empty_ok_ok a u v w : lang a u v w -> v = [] -> empty_ok a = true.
Proof.
  induction 1; intros E; cbn [empty_ok]; try reflexivity; try discriminate E; auto.
  - apply app_eq_nil in E as [-> ->]. rewrite IHlang1, IHlang2; reflexivity.
  - rewrite IHlang; auto.
  - rewrite IHlang by exact E. apply Bool.orb_true_r.
Qed.
Lemma out_app u v : out_end v -> (v = [] -> out_end u) -> out_end (u ++ v).
Proof.
  intros [->|(y & x & -> & H)] Hu; [rewrite app_nil_r; auto|]. right. exists (u ++ y), x. rewrite app_assoc. auto.
Qed.
Lemma ends_out_ok a u v w : lang a u v w -> ends_out a = true -> out_end v.
Proof.
  induction 1; cbn [ends_out]; intros E; try (left; reflexivity); auto.
  - right. exists [], (x, wd). split; [reflexivity|]. cbn [fst]. apply Bool.not_true_iff_false. intros Q. apply Bool.negb_true_iff in E.
    rewrite <- Bool.not_true_iff_false in E. apply E. apply existsb_exists. exists x. split; [apply e_in; exact Q|assumption].
  - apply andb_prop in E as [E1 E2]. apply out_app; [auto|]. intros ->. rewrite (empty_ok_ok _ _ _ _ H0 eq_refl) in E2. auto.
  - apply andb_prop in E as [E1 E2]. auto.
  - apply andb_prop in E as [E1 E2]. auto.
  - apply out_app; [auto|]. auto.
Qed.

(** ** A version group with at least one character: [\d+[.\d]*] *)
Definition re_rel : re := Cat (Cat re_d (Star true re_d)) (Star true re_e).
Lemma rel_run p t v w : parses re_rel p t v w -> run v /\ exists x wd v', v = (x, wd) :: v' /\ is_d x = true.
Proof.
  intros P. apply cat_parse in P as (t1 & t2 & v1 & v2 & -> & -> & P1 & P2).
  apply cat_parse in P1 as (t3 & t4 & v3 & v4 & -> & -> & P3 & P4). apply cls_parse in P3 as (x & wd & -> & -> & C3).
  apply star_all in P4. apply star_all in P2. split.
  - apply Forall_app. split; [|exact P2]. constructor; [apply d_e; exact C3|]. eapply Forall_impl; [|exact P4]. intros r Hr. apply d_e. exact Hr.
  - exists x, wd. eexists. split; [reflexivity|exact C3].
Qed.
Lemma rel_more p t v x wd w : parses re_rel p t v ((x, wd) :: w) -> is_e x = true -> exists t', parses re_rel p t' (v ++ [(x, wd)]) w /\ prefers re_rel t' t.
Proof.
  intros P C. apply cat_parse in P as (t1 & t2 & v1 & v2 & -> & -> & P1 & P2).
  destruct (star_more _ _ _ _ _ x wd w P2 C) as (t' & P' & F). exists (TCat t1 t'). split.
  - rewrite <- app_assoc. apply P_cat; [rewrite <- app_assoc; exact P1|exact P'].
  - apply F_cat2. exact F.
Qed.
Lemma rel_top p t v w V B : top re_rel p t v w -> v ++ w = V ++ B -> run V -> stops B -> v = V.
Proof.
  intros [P F] E R S. assert (Sw : stops w).
  { destruct w as [|[x wd] w]; [exact I|]. cbn [stops fst]. destruct (is_e x) eqn:X; [|reflexivity]. exfalso.
    destruct (rel_more p t v x wd w P X) as (t' & P' & Q). destruct (F t' (v ++ [(x, wd)]) w) as [->|Q'].
    - rewrite <- app_assoc. reflexivity.
    - exact P'.
    - exact (prefers_irrefl _ _ Q).
    - exact (prefers_asym _ _ _ Q Q'). }
  exact (proj1 (run_unique v V w B E (proj1 (rel_run _ _ _ _ P)) R Sw S)).
Qed.

(** ** Chains of classes *)
Lemma chain_parse cs : forall a p t v w, parses (fold_left (fun a c => Cat a (Cls false c)) cs a) p t v w ->
  exists t1 v1 s, v = v1 ++ s /\ parses a p t1 v1 (s ++ w) /\ Forall2 (fun c x => cls_mem false c (fst x) = true) cs s /\ forall n, group_of n p t = group_of n p t1.
Proof.
  induction cs as [|c cs IH]; intros a p t v w P; cbn [fold_left] in P.
  - exists t, v, []. rewrite app_nil_r. auto.
  - destruct (IH _ _ _ _ _ P) as (t1 & v1 & s & -> & P1 & F & G). apply cat_parse in P1 as (t2 & t3 & v2 & v3 & -> & -> & P2 & P3).
    apply cls_parse in P3 as (x & wd & -> & -> & C). exists t2, v2, ((x, wd) :: s). split; [rewrite <- app_assoc; reflexivity|]. split; [exact P2|].
    split; [constructor; [exact C|exact F]|]. intros n. rewrite G. cbn [group_of]. reflexivity.
Qed.

(** ** What is captured *)
Section Capture.
Variable items : list item.
Hypothesis FF : fixed_first items = true.
Variables (A V B : bytes).
Lemma start_parts R (HG : gen items (map chr (sep_ua A V B))) p t : best (Cat start_re R) (map chr (sep_ua A V B)) p t ->
  exists pre v w t0 tr, map chr (sep_ua A V B) = pre ++ v ++ w /\ t = TCat t0 tr /\ (p + size t0)%Z = width pre /\ parses R (width pre) tr v w /\
    exists i, has (f_words (fam_of items)) i /\ here items i pre (v ++ w).
Proof.
  intros Bt. apply best_top in Bt as (u & v & w & E & Ep & Tp). apply top_cat in Tp as (t0 & t1 & v0 & v1 & -> & -> & P0 & [P1 _]).
  pose proof (parses_size _ _ _ _ _ P0) as S0. rewrite <- !app_assoc in *.
  pose proof (chr_ones (sep_ua A V B)) as O. destruct (proper_ones _ _ _ E O) as (Pu & O1 & Ou).
  destruct (proper_ones _ _ _ eq_refl O1) as (Pv0 & O2 & Ov0).
  assert (L0 : lang start_re u v0 (v1 ++ w)) by (exact (parses_lang _ _ _ _ _ P0 u Pu Pv0 Ep)).
  assert (As : at_start (u ++ v0)) by (apply lang_start; intros w'; exists u, v0; split; [reflexivity|]; exact (lang_start_any _ _ _ _ L0)).
  apply start_ends in As. destruct (place_word items FF (u ++ v0) (v1 ++ w)) as (i & Hi & Bi).
  { rewrite <- app_assoc. rewrite <- E. exact HG. } { exact As. }
  assert (W : width (u ++ v0) = (p + width v0)%Z) by (rewrite width_app; lia).
  exists (u ++ v0), v1, w, t0, t1. split; [rewrite <- !app_assoc; exact E|]. split; [reflexivity|]. split; [lia|]. split; [rewrite W; exact P1|].
  exists i. auto.
Qed.
Hypothesis HV : version_number V.
Hypothesis HG : gen items (map chr (sep_ua A V B)).
(** The version stands between a slash and a fixed text which begins with something else. *)
Lemma cap_mid Q rs c cs k p t : best (Cat start_re (fold_left (fun a c => Cat a (Cls false c)) (c :: cs) (Cat Q (Alt (Cat (Cls false rs) (Grp 1 re_body)) Eps)))) (map chr (sep_ua A V B)) p t ->
  (forall x, cls_mem false c x = true -> is_e x = false /\ x <> bn x2f) -> stops (map chr B) ->
  go (fam_of items) Q (f_words (fam_of items)) = only k -> skipn k items = lit_items [x2f] ++ ver_items ++ lit_items B ->
  group_of 1 p t = span A V.
Proof.
  intros Bt HC HB K Sk. apply (start_parts _ HG) in Bt as (pre & v & w & t0 & tr & E & -> & Sz & P & i & Hi & Bi).
  apply chain_parse in P as (t1 & v1 & s & -> & P & F & G). inversion F as [|? y ? s' Cy _]; subst.
  apply cat_parse in P as (tq & tt & vq & vt & -> & -> & Pq & Pt).
  pose proof (parses_size _ _ _ _ _ Pq) as Sq. rewrite <- !app_assoc in *.
  pose proof (chr_ones (sep_ua A V B)) as O. destruct (proper_ones _ _ _ E O) as (Pu & O1 & Ou). destruct (proper_ones _ _ _ eq_refl O1) as (Pvq & O2 & Ovq).
  assert (Lq : lang Q pre vq (vt ++ (y :: s') ++ w)) by (apply (parses_lang _ _ _ _ _ Pq pre Pu Pvq); reflexivity).
  destruct (go_ok items FF Q pre vq (vt ++ (y :: s') ++ w) Lq _ i Hi Bi) as (j & Hj & (_ & _ & Gj)). rewrite K in Hj. apply only_is in Hj as ->.
  rewrite Sk in Gj. apply gen_lit_inv in Gj as (w1 & E1 & Gj). apply ver_inv in Gj as (d & z & r & w2 & E2 & D & Z & R & Gj).
  rewrite <- (app_nil_r (lit_items B)) in Gj. apply gen_lit_inv in Gj as (w3 & -> & Gj). inversion Gj; subst w3. rewrite app_nil_r in E2. subst w1.
  destruct (HC _ Cy) as [Ye Yn].
  assert (Rv : run ((d, 1) :: (z, 1) :: r)) by (constructor; [apply d_e; exact D|]; constructor; [exact Z|exact R]).
  assert (Q1 : ((pre ++ vq) ++ chr x2f :: (d, 1) :: (z, 1) :: r) ++ map chr B = (map chr A ++ chr x2f :: map chr V) ++ map chr B).
  { rewrite <- sep_split, E, E1. rewrite <- !app_assoc. reflexivity. }
  apply app_inv_tail in Q1. apply last_run in Q1 as [Q1 Q2]; [|reflexivity|reflexivity|exact Rv|exact (version_run V HV)].
  apply app_inj_tail in Q2 as [Q2 _].
  cbn [group_of]. rewrite Sz, G. cbn [group_of]. rewrite <- Sq.
  inversion Pt as [| | | | |? ? ? t' ? ? Pl|? ? ? t' ? ? Pr| | |]; subst.
  - apply cat_parse in Pl as (ta & tb & va & vb & -> & -> & Pa & Pb). apply cls_parse in Pa as (x & wd & -> & -> & _).
    inversion Pb as [| | | | | | | | |? ? ? t'' ? ? Pg]; subst. cbn [app map] in E1. injection E1 as -> -> E1.
    pose proof (body_run _ _ _ _ Pg) as Rb. pose proof (parses_size _ _ _ _ _ Pg) as Sg.
    assert (vb = (d, 1) :: (z, 1) :: r) as -> by exact (proj1 (run_unique vb ((d, 1) :: (z, 1) :: r) (y :: s' ++ w) (map chr B) E1 Rb Rv Ye HB)).
    cbn [group_of size Nat.eqb]. unfold span. rewrite Q1, chr_width in Sg.
    assert (W : (width pre + width vq)%Z = Z.of_nat (length A)) by (rewrite <- width_app, Q2, chr_width; reflexivity).
    f_equal. f_equal; lia.
  - inversion Pr; subst. cbn [app map] in E1. injection E1 as E1 _. exfalso. apply Yn. rewrite E1. reflexivity.
Qed.
End Capture.

Section Release.
Variable items : list item.
Hypothesis FF : fixed_first items = true.
Variables (A V B : bytes) (sep : byte).
Notation ua := ((A ++ [sep]) ++ V ++ B).
Hypothesis HS : is_e (bn sep) = false.
Hypothesis RV : run (map chr V).
Hypothesis HB : stops (map chr B).
Hypothesis HG : gen items (map chr ua).
Hypothesis HA : ascii ua.
Definition at_release : option (Z * Z) := Some (Z.of_nat (length (A ++ [sep])), Z.of_nat (length (A ++ [sep]) + length V)).
(** [Q] ends before the release, or where no digit follows. *)
Lemma cap_release Q S k p t : best (Cat Q (Grp 1 re_rel)) (map chr ua) p t -> ends_out Q = true -> empty_ok Q = false ->
  go (fam_of items) Q (f_whole (fam_of items)) = S ->
  (forall j, has S j -> j = k \/ exists cs b is, skipn j items = (cs, b) :: is /\ forall x, In x cs -> is_d x = false) ->
  (forall pre x, gen (skipn k items) x -> map chr ua = pre ++ x -> exists v, x = v ++ map chr B /\ run v) ->
  group_of 1 p t = at_release.
Proof.
  intros Bt EO EM K SK Sk. apply best_top in Bt as (u & v & w & E & Ep & Tp). apply top_cat in Tp as (tq & tt & vq & vt & -> & -> & Pq & Tp).
  pose proof (parses_size _ _ _ _ _ Pq) as Sq. rewrite <- (app_assoc vq vt w) in E. pose proof (chr_ones ua) as O. rewrite E in O.
  destruct (proper_ones _ _ _ eq_refl O) as (Pu & O1 & Ou). destruct (proper_ones _ _ _ eq_refl O1) as (Pvq & O2 & Ovq).
  assert (Lq : lang Q u vq (vt ++ w)) by (apply (parses_lang _ _ _ _ _ Pq u Pu Pvq Ep)).
  destruct (place_any items FF u (vq ++ vt ++ w)) as (i & Hi & Bi); [rewrite <- E; exact HG|].
  destruct (go_ok items FF Q u vq (vt ++ w) Lq _ i Hi Bi) as (j & Hj & (_ & _ & Gj)). rewrite K in Hj.
  apply top_grp in Tp as (t1 & -> & Tp). destruct (rel_run _ _ _ _ (proj1 Tp)) as (Rt & x & wd & v' & Ev & Dx).
  destruct (SK j Hj) as [->|(cs & b & is & Es & Nd)].
  2: { exfalso. rewrite Es, Ev in Gj. inversion Gj as [|? ? ? ? ? Ix _|? ? ? ? Ix _]; subst; rewrite (Nd _ Ix) in Dx; discriminate Dx. }
  destruct (Sk (u ++ vq) _ Gj) as (V' & E' & R'); [rewrite E, <- app_assoc; reflexivity|].
  destruct (ends_out_ok Q _ _ _ Lq EO) as [Z|(y & c & -> & Cc)].
  { exfalso. pose proof (empty_ok_ok _ _ _ _ Lq Z) as X. rewrite EM in X. discriminate X. }
  assert (Q1 : ((u ++ y) ++ c :: V') ++ map chr B = (map chr A ++ chr sep :: map chr V) ++ map chr B).
  { transitivity (map chr ua).
    - rewrite E, E', <- !app_assoc. reflexivity.
    - rewrite !map_app, <- !app_assoc. reflexivity. }
  apply app_inv_tail in Q1. apply last_run in Q1 as [Q1 Q2]; [|exact Cc|exact HS|exact R'|exact RV]. subst V'.
  pose proof (rel_top _ _ _ _ (map chr V) (map chr B) Tp E' RV HB) as Evt.
  pose proof (parses_size _ _ _ _ _ (proj1 Tp)) as St. rewrite Evt, chr_width in St.
  assert (W : (p + size tq)%Z = Z.of_nat (length (A ++ [sep]))).
  { rewrite <- Sq, Ep, <- width_app. rewrite app_assoc, Q2. change [chr sep] with (map chr [sep]). rewrite <- map_app, chr_width. reflexivity. }
  cbn [group_of Nat.eqb]. unfold at_release. rewrite W. f_equal. f_equal. lia.
Qed.
Lemma release_captured n p t s : group_of 1 p t = at_release -> captured (groups (S n) p t) 1 ua s -> s = V.
Proof.
  clear - A V B sep. intros G (a & b & E & _ & Lo & Hi). unfold groups in Lo, Hi. cbn [seq flat_map] in Lo, Hi. rewrite G in Lo, Hi. unfold at_release in Lo, Hi.
  change (2 * Z.to_nat 1) with 2 in Lo, Hi. cbn [nth_error app Nat.add] in Lo, Hi. injection Lo as Lo. injection Hi as Hi.
  assert (L1 : length a = length (A ++ [sep])) by lia. assert (L2 : length s = length V) by lia.
  destruct (app_inv_length _ _ _ _ E (eq_sym L1)) as [_ E']. symmetry in E'. exact (proj1 (app_inv_length _ _ _ _ E' L2)).
Qed.
Lemma release_present n p t : group_of 1 p t = at_release -> ~ absent (groups (S n) p t) 1.
Proof.
  clear - A V B sep. intros G [_ H]. unfold groups in H. cbn [seq flat_map] in H. rewrite G in H. unfold at_release in H. change (2 * Z.to_nat 1) with 2 in H.
  destruct (H _ _ eq_refl eq_refl); lia.
Qed.
End Release.

(** ** The version of a system by its group *)
Definition system_group (T : tables) (k : nat) (pat : re) (n : nat) : bool :=
  match nth_error (or_os T) k with
  | Some x =>
      (0 <=? ot_matchRI x)%Z && (ot_version64 x =? 0)%N && (ot_versions64 x =? 0)%N && (ot_versionSI x =? 1)%Z &&
      match nth_error (or_re T) (Z.to_nat (ot_matchRI x)) with
      | Some r => match parse_re (re_src r) with Some (a, ng) => re_eqb a pat && (ng =? S n) | None => false end
      | None => false
      end
  | None => false
  end.
Section Version.
Variable T : tables.
Hypothesis CO : compiled (or_re T).
Hypothesis S2 : os_sane T.
Variables (ua V : bytes) (k : nat) (x : osTuple) (pat : re) (n : nat) (mC mD : N).
Hypothesis Nx : nth_error (or_os T) k = Some x.
Hypothesis OI : os_is T ua x.
Hypothesis SG : system_group T k pat n = true.
Hypothesis HA : ascii ua.
Hypothesis CAP : forall p t, best pat (map chr ua) p t -> (forall s, captured (groups (S n) p t) 1 ua s -> s = V) /\ ~ absent (groups (S n) p t) 1.
Hypothesis NU : ~ In x5f V.
Hypothesis Sm : Spec_Select.small ua.
Hypothesis NP : forall h, alone T mC mD h ua GOSVersionString <> Panic.
Lemma group_version h : alone T mC mD h ua GOSVersionString = Ok (VB V).
Proof.
  destruct (text_value T mC mD h ua GOSVersionString ltac:(cbn; auto 10) (NP h)) as [s Hs]. rewrite Hs.
  destruct (proj2 (proj2 (os_reports T mC mD h ua S2 Sm) s Hs) x OI) as (f & Vf & D).
  unfold system_group in SG. rewrite Nx in SG. destruct (nth_error (or_re T) (Z.to_nat (ot_matchRI x))) as [r|] eqn:Nr; [|rewrite Bool.andb_false_r in SG; discriminate SG].
  destruct (parse_re (re_src r)) as [[a ng]|] eqn:P; [|rewrite Bool.andb_false_r in SG; discriminate SG].
  apply andb_prop in SG as [H H4]. apply andb_prop in H as [H H3]. apply andb_prop in H as [H H2]. apply andb_prop in H as [H0 H1]. apply andb_prop in H4 as [H4 H5].
  apply re_eqb_eq in H4 as ->. apply Nat.eqb_eq in H5 as ->. apply N.eqb_eq in H1, H2. apply Z.eqb_eq in H3.
  assert (f = V) as ->.
  { destruct Vf as [s' Vn _|_ L|m s' _ (_ & r' & Nr' & F) _ Eg|m v s' _ _ Vn|m v mv s' _ _ Vn|m v mv s' _ _ Vn]; try (exfalso; auto; fail).
    - exfalso. clear - H0 L. lia.
    - rewrite Nr in Nr'. injection Nr' as <-. rewrite (CO r (nth_error_In _ _ Nr)) in F. apply (compile_best (re_src r) pat (S n) ua m P) in F as (p & t & Bt & ->).
      rewrite (runes_ascii_all ua HA) in Bt. destruct (CAP p t Bt) as [C1 C2]. unfold entry_group in Eg. rewrite H3 in Eg. destruct Eg as [[_ Eg]|[[Eg|Eg] _]].
      + exact (C1 _ Eg).
      + discriminate Eg.
      + contradiction. }
  rewrite (dotted_same V s D NU). reflexivity.
Qed.
End Version.

(** ** The families *)
Definition phone_tail : bytes := bs "; K) AppleWebKit/537.36 (KHTML, like Gecko) Chrome".
Definition phone_back : bytes := bs " Mobile Safari/537.36".
Definition phone_items (rel : list item) : list item :=
  lit_items (bs "Mozilla/5.0 (Linux; Android ") ++ rel ++ lit_items phone_tail ++ lit_items [x2f] ++ ver_items ++ lit_items phone_back.
Definition one_digit : list item := [(digs, false)].
Definition rel_families : list (list item) := [one_digit; ver_items].
Definition phone_clients : list (list item * N) := map (fun r => (phone_items r, 489%N)) rel_families.
Definition phone_systems : list (list item * N) := map (fun r => (phone_items r, 136%N)) rel_families.
Definition mobile_classes : list (list (N * N)) := [[(32, 32)]%N; both 109; both 111; both 98; both 105; both 108; both 101].
Definition mobile_re : re := Cat start_re (fold_left (fun a c => Cat a (Cls false c)) mobile_classes (Cat chrome_q (Alt (Cat (Cls false slash) (Grp 1 re_body)) Eps))).
Definition android_q : re := match parse_re (bs "(?i)(?:(?:Orca-)?Android|Adr|AOSP)[ /]?(?:[a-z]+ )?") with Some (a, _) => a | None => Eps end.
Definition android_re : re := Cat android_q (Grp 1 re_rel).
Lemma mobile_entry : entry_ok shipped 489 mobile_re (bs "Chrome Mobile") = true.
Proof. vm_compute. reflexivity. Qed.
Lemma android_group : system_group shipped 136 android_re 0 = true.
Proof. vm_compute. reflexivity. Qed.
Definition digit_bytes : list byte := [x30; x31; x32; x33; x34; x35; x36; x37; x38; x39].
Lemma android_found : forallb (fun d => system_entry shipped 136 (bs "Mozilla/5.0 (Linux; Android " ++ [d]) (bs "Android") None) digit_bytes = true.
Proof. vm_compute. reflexivity. Qed.
Lemma phone_clients_missed : clients_miss shipped phone_clients = true.
Proof. vm_cast_no_check (eq_refl true). Qed.
Lemma phone_systems_missed : systems_miss shipped phone_systems = true.
Proof. vm_cast_no_check (eq_refl true). Qed.
Lemma phone_fine : forallb (fun r => fam_fine chrome_q (fun l => length l - (1 + 2 + length phone_back)) (phone_items r) &&
  (go (fam_of (phone_items r)) android_q (f_whole (fam_of (phone_items r))) =? N.lor (only 27) (only 28))%N) rel_families = true.
Proof. vm_compute. reflexivity. Qed.
Lemma android_ends : ends_out android_q = true /\ empty_ok android_q = false.
Proof. split; vm_compute; reflexivity. Qed.

Lemma digit_byte d : digit d -> In d digit_bytes.
Proof. intros [H1 H2]. destruct d; vm_compute in H1, H2; try (exfalso; apply H1; reflexivity); try (exfalso; apply H2; reflexivity); cbn; auto 12. Qed.
Lemma release_facts a : release_number a -> run (map chr a) /\ (exists d r, a = d :: r /\ digit d) /\ ~ In x5f a /\
  exists rel, In rel rel_families /\ (forall is w, gen is w -> gen (rel ++ is) (map chr a ++ w)) /\
    forall is x, gen (rel ++ is) x -> exists v w, x = v ++ w /\ run v /\ gen is w.
Proof.
  intros R. assert (X : run (map chr a) /\ (exists d r, a = d :: r /\ digit d) /\
    exists rel, In rel rel_families /\ (forall is w, gen is w -> gen (rel ++ is) (map chr a ++ w)) /\ forall is x, gen (rel ++ is) x -> exists v w, x = v ++ w /\ run v /\ gen is w).
  2: { destruct X as (X1 & X2 & X3). split; [exact X1|]. split; [exact X2|]. split; [|exact X3]. intros I. apply (in_map chr) in I. unfold run in X1. rewrite Forall_forall in X1.
       specialize (X1 _ I). discriminate X1. }
  destruct R as [d D|v Hv].
  - split; [constructor; [apply d_e, digit_d; exact D|constructor]|]. split; [exists d, []; auto|]. exists one_digit. split; [left; reflexivity|]. split.
    + intros is w G. exact (G_one digs false is (bn d) w (proj2 (digs_in _) (digit_d d D)) G).
    + intros is x G. cbn [one_digit app] in G. inversion G as [|? ? ? y s I G'|]; subst. exists [(y, 1)], s. split; [reflexivity|].
      split; [constructor; [apply d_e, digs_in; exact I|constructor]|exact G'].
  - split; [exact (version_run v Hv)|]. split; [destruct Hv as (d & r & -> & D & _); exists d, r; auto|]. exists ver_items. split; [right; left; reflexivity|]. split.
    + intros is w G. exact (gen_ver v is w Hv G).
    + intros is x G. apply ver_inv in G as (y & z & r & w & -> & Y & Z & R & G). exists ((y, 1) :: (z, 1) :: r), w. split; [reflexivity|]. split; [|exact G].
      constructor; [apply d_e; exact Y|]. constructor; [exact Z|exact R].
Qed.
Definition phone_front (a : bytes) : bytes := bs "Mozilla/5.0 (Linux; Android " ++ a ++ phone_tail.
Lemma phone_sep a v : android_ua a v = sep_ua (phone_front a) v phone_back.
Proof. unfold android_ua, sep_ua, phone_front, phone_tail. rewrite <- !app_assoc. reflexivity. Qed.
Lemma phone_rel a v : android_ua a v = (bs "Mozilla/5.0 (Linux; Android" ++ [x20]) ++ a ++ (phone_tail ++ x2f :: v ++ phone_back).
Proof. unfold android_ua, phone_tail. rewrite <- !app_assoc. reflexivity. Qed.
Lemma phone_gen rel a v : (forall is w, gen is w -> gen (rel ++ is) (map chr a ++ w)) -> version_number v -> gen (phone_items rel) (map chr (android_ua a v)).
Proof.
  intros Hr Hv. unfold phone_items. rewrite phone_rel. change (bs "Mozilla/5.0 (Linux; Android" ++ [x20]) with (bs "Mozilla/5.0 (Linux; Android ").
  rewrite map_app. apply gen_lit. rewrite map_app. apply Hr. rewrite map_app. apply gen_lit. change (map chr (x2f :: v ++ phone_back)) with (map chr [x2f] ++ map chr (v ++ phone_back)). apply gen_lit. rewrite (map_app chr v phone_back). apply gen_ver; [exact Hv|].
  rewrite <- (app_nil_r (lit_items _)), <- (app_nil_r (map chr _)). apply gen_lit. constructor.
Qed.
Lemma phone_skip rel : skipn (length (phone_items rel) - (1 + 2 + length phone_back)) (phone_items rel) = lit_items [x2f] ++ ver_items ++ lit_items phone_back.
Proof.
  unfold phone_items. rewrite !app_assoc. rewrite <- (app_assoc _ ver_items). rewrite <- (app_assoc _ (lit_items [x2f])). apply skip_exact. rewrite !app_length, !lit_length. change (length [x2f]) with 1. change (length ver_items) with 2. lia.
Qed.
Lemma mobile_lang V a w : version_number V -> lang mobile_re a (chr x20 :: ((map chr (bs "Chrome") ++ chr x2f :: map chr V) ++ map chr (bs " Mobile"))) w.
Proof.
  intros Hv. apply (L_cat _ _ a [chr x20] ((map chr (bs "Chrome") ++ chr x2f :: map chr V) ++ map chr (bs " Mobile")) w); [apply start_space|].
  apply chain_from; [|repeat constructor]. intros w'. apply L_cat; [apply chain_lang; [reflexivity|repeat constructor]|]. apply L_left.
  apply (L_cat _ _ _ [chr x2f] (map chr V) w'); [constructor; reflexivity|]. constructor. apply version_body. exact Hv.
Qed.
Lemma mobile_class x : cls_mem false [(32, 32)]%N x = true -> is_e x = false /\ x <> bn x2f.
Proof.
  intros C. assert (x = 32%N) as ->. { unfold cls_mem in C. cbn [existsb fst snd] in C. destruct (in_rng 32 32 x) eqn:E; [|discriminate C]. unfold in_rng in E. lia. }
  split; [reflexivity|discriminate].
Qed.

Section Answers.
Variables (a v : bytes) (mC mD : N).
Hypothesis Ha : release_number a.
Hypothesis Hv : version_number v.
Hypothesis L : short (android_ua a v).
Hypothesis O : on mC 1.
Lemma phone_answers : (forall h, alone shipped mC mD h (android_ua a v) GClientType = Ok (VN 1)) /\ alone shipped mC mD 0 (android_ua a v) GBrowser = Ok (VB (bs "Chrome Mobile")) /\
  (forall h, alone shipped mC mD h (android_ua a v) GBrowserVersionString = Ok (VB v)) /\ (forall h, alone shipped mC mD h (android_ua a v) GOS = Ok (VB (bs "Android"))) /\
  forall h, alone shipped mC mD h (android_ua a v) GOSVersionString = Ok (VB a).
Proof.
  destruct (release_facts a Ha) as (Ra & (d & r & Ed & Dd) & Nu & rel & Ir & Gr & Ginv).
  pose proof phone_fine as PF. rewrite forallb_forall in PF. specialize (PF rel Ir). apply andb_prop in PF as [PF PG]. apply N.eqb_eq in PG.
  apply fam_fine_inv in PF as (FF & FA & FG). pose proof (phone_gen rel a v Gr Hv) as G. pose proof (FA _ G) as HA.
  assert (I1 : In (phone_items rel, N.of_nat 489) phone_clients) by (exact (in_map (fun r => (phone_items r, 489%N)) rel_families rel Ir)).
  assert (I2 : In (phone_items rel, N.of_nat 136) phone_systems) by (exact (in_map (fun r => (phone_items r, 136%N)) rel_families rel Ir)).
  pose proof android_found as AF. rewrite forallb_forall in AF. specialize (AF d (digit_byte d Dd)).
  set (rest := r ++ phone_tail ++ x2f :: v ++ phone_back).
  assert (HU : android_ua a v = (bs "Mozilla/5.0 (Linux; Android " ++ [d]) ++ rest) by (unfold rest, android_ua, phone_tail; rewrite Ed; rewrite <- !app_assoc; reflexivity).
  assert (D : (forall h, alone shipped mC mD h (android_ua a v) GClientType = Ok (VN 1)) /\ alone shipped mC mD 0 (android_ua a v) GBrowser = Ok (VB (bs "Chrome Mobile")) /\
    (forall h, alone shipped mC mD h (android_ua a v) GBrowserVersionString = Ok (VB v)) /\ (forall h, alone shipped mC mD h (android_ua a v) GOS = Ok (VB (bs "Android"))) /\
    forall h g, alone shipped mC mD h (android_ua a v) g <> Panic).
  { pose proof L as L'. pose proof HA as HA'. pose proof G as G'. pose proof HU as HU'. rewrite phone_sep in *.
    destruct (desktop_answers shipped cr_compiled or_compiled shipped_client_sane shipped_os_sane shipped_no_skip phone_clients phone_systems phone_clients_missed phone_systems_missed shipped_never_panics
      (phone_items rel) (phone_front a) v phone_back (bs "Mozilla/5.0 (Linux; Android " ++ [d]) rest 489 136 mobile_re (bs "Chrome Mobile") (bs "Android") None mC mD
      Hv HU' L' O I1 I2 FF HA' G' mobile_entry AF) as (D1 & D2 & D3 & D4 & _ & x & _ & _ & _ & D5).
    - exists (map chr (bs "Mozilla/5.0 (Linux; Android " ++ a ++ bs "; K) AppleWebKit/537.36 (KHTML, like Gecko)")), (chr x20 :: ((map chr (bs "Chrome") ++ chr x2f :: map chr v) ++ map chr (bs " Mobile"))),
        (map chr (bs " Safari/537.36")). split; [|apply mobile_lang; exact Hv].
      change (chr x20 :: ((map chr (bs "Chrome") ++ chr x2f :: map chr v) ++ map chr (bs " Mobile"))) with (map chr (bs " Chrome") ++ (map chr [x2f] ++ map chr v) ++ map chr (bs " Mobile")).
      rewrite <- !map_app. f_equal. unfold sep_ua, phone_front, phone_tail, phone_back. rewrite <- !app_assoc. reflexivity.
    - intros p t Bt. refine (cap_mid (phone_items rel) FF (phone_front a) v phone_back Hv G' chrome_q slash [(32, 32)]%N (tl mobile_classes) _ p t Bt mobile_class _ FG (phone_skip rel)). reflexivity.
    - auto. }
  destruct D as (D1 & D2 & D3 & D4 & D5). split; [exact D1|]. split; [exact D2|]. split; [exact D3|]. split; [exact D4|]. intros h.
  assert (OI : exists x, nth_error (or_os shipped) 136 = Some x /\ os_is shipped (android_ua a v) x).
  { revert HA G D5. rewrite HU. intros HA' G' D5'.
    refine (system_first shipped or_compiled shipped_no_skip phone_systems phone_systems_missed (phone_items rel) 136 (bs "Mozilla/5.0 (Linux; Android " ++ [d]) rest (bs "Android") None mC mD I2 FF HA' _ AF (fun h g _ => D5' h g)).
    rewrite (runes_ascii_all _ HA'). exact G'. }
  destruct OI as (x & Nx & OI).
  refine (group_version shipped or_compiled shipped_os_sane (android_ua a v) a 136 x android_re 0 mC mD Nx OI android_group HA _ Nu (short_small _ L) (fun h => D5 h GOSVersionString) h).
  intros p t Bt. rewrite phone_rel in *.
  assert (GA : group_of 1 p t = at_release (bs "Mozilla/5.0 (Linux; Android") a x20).
  { refine (cap_release (phone_items rel) FF (bs "Mozilla/5.0 (Linux; Android") a (phone_tail ++ x2f :: v ++ phone_back) x20 eq_refl Ra _ G android_q _ 28 p t Bt (proj1 android_ends) (proj2 android_ends) PG _ _).
    - reflexivity.
    - intros j Hj. apply has_lor in Hj as [Hj|Hj]; apply only_is in Hj as ->; [right|left; reflexivity]. eexists. eexists. eexists. split; [reflexivity|]. intros y [<-|[]]. reflexivity.
    - intros pre y Gy Ey. change (skipn 28 (phone_items rel)) with (rel ++ lit_items phone_tail ++ lit_items [x2f] ++ ver_items ++ lit_items phone_back) in Gy.
      apply Ginv in Gy as (v1 & w1 & -> & R1 & Gy). apply gen_lit_inv in Gy as (w2 & -> & Gy). apply gen_lit_inv in Gy as (w3 & -> & Gy). apply ver_inv in Gy as (e & z & q & w4 & -> & Y & Z & R2 & Gy).
      rewrite <- (app_nil_r (lit_items phone_back)) in Gy. apply gen_lit_inv in Gy as (w5 & -> & Gy). inversion Gy; subst w5. rewrite app_nil_r in *.
      exists v1. split; [|exact R1]. f_equal.
      assert (Rv : run ((e, 1) :: (z, 1) :: q)) by (constructor; [apply d_e; exact Y|]; constructor; [exact Z|exact R2]).
      assert (Q1 : ((map chr (bs "Mozilla/5.0 (Linux; Android") ++ map chr [x20] ++ map chr a ++ map chr phone_tail) ++ chr x2f :: map chr v) ++ map chr phone_back =
        ((pre ++ v1 ++ map chr phone_tail) ++ chr x2f :: (e, 1) :: (z, 1) :: q) ++ map chr phone_back).
      { transitivity (map chr ((bs "Mozilla/5.0 (Linux; Android" ++ [x20]) ++ a ++ phone_tail ++ x2f :: v ++ phone_back)).
        - rewrite !map_app. cbn [map]. rewrite !map_app. rewrite <- !app_assoc. cbn [app]. reflexivity.
        - rewrite Ey. rewrite <- !app_assoc. cbn [map app]. reflexivity. }
      apply app_inv_tail in Q1. apply last_run in Q1 as [Q1 _]; [|reflexivity|reflexivity|exact (version_run v Hv)|exact Rv].
      rewrite !map_app. cbn [map]. rewrite map_app, Q1. reflexivity. }
  split; [intros s; exact (release_captured _ _ _ _ 0 p t s GA)|exact (release_present _ _ _ 0 p t GA)].
Qed.
End Answers.
Lemma phone_recognised a v mC mD : release_number a -> version_number v -> short (android_ua a v) -> on mC 1 -> recognised (android_ua a v) (bs "Chrome Mobile") v (bs "Android") mC mD.
Proof. intros Ha Hv L O. destruct (phone_answers a v mC mD Ha Hv L O) as (Q1 & Q2 & Q3 & Q4 & _). exact (conj Q1 (conj Q2 (conj Q3 Q4))). Qed.
Lemma phone_release a v mC mD h : release_number a -> version_number v -> short (android_ua a v) -> on mC 1 -> alone shipped mC mD h (android_ua a v) GOSVersionString = Ok (VB a).
Proof. intros Ha Hv L O. exact (proj2 (proj2 (proj2 (proj2 (phone_answers a v mC mD Ha Hv L O)))) h). Qed.

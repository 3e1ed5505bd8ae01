(** Chrome, Edge and Firefox on desktop systems: which entries apply to their user agents, and what the version group captures. *)
From Verif Require Import Model_Base Model_CacheEntry Model_Regex Model_Ctx Model_Parse Spec_Regex Spec_Getters Spec_Select Spec_Word Spec_Family
  Proof_Base Proof_Pattern Proof_Word Proof_Covers Proof_Quick Proof_Index Proof_Shadow Proof_Bare Proof_Charset Proof_Agree Proof_Client Proof_Choice Proof_Family Proof_Tail.
From Coq Require Import Lia ZifyBool ZifyNat ZifyN.
Open Scope nat_scope.

(** ** The families *)
Definition chr (b : byte) : N * nat := (bn b, 1).
Definition lit_items (s : bytes) : list item := map (fun b => ([bn b], false)) s.
Definition digs : list N := [48; 49; 50; 51; 52; 53; 54; 55; 56; 57]%N.
Definition ver_items : list item := [(digs, false); (46%N :: digs, true)].
Lemma gen_lit s is w : gen is w -> gen (lit_items s ++ is) (map chr s ++ w).
Proof. intros G. induction s as [|b s IH]; [exact G|]. cbn [lit_items map app]. constructor; [left; reflexivity|exact IH]. Qed.
Lemma gen_lit_inv s : forall is x, gen (lit_items s ++ is) x -> exists w, x = map chr s ++ w /\ gen is w.
Proof.
  induction s as [|b s IH]; intros is x G; [exists x; auto|]. cbn [lit_items map app] in G. inversion G as [|l b' is' y s' I G'|]; subst.
  destruct (IH is s' G') as (w & -> & Gw). destruct I as [<-|[]]. exists w. auto.
Qed.
Lemma is_d_iff x : is_d x = true <-> (48 <= x <= 57)%N.
Proof.
  unfold is_d, cls_mem. cbn [existsb fst snd]. destruct (in_rng 48 57 x) eqn:E; cbn; unfold in_rng in E; split; try lia; discriminate.
Qed.
Lemma is_e_iff x : is_e x = true <-> x = 46%N \/ is_d x = true.
Proof.
  rewrite is_d_iff. unfold is_e, cls_mem. cbn [existsb fst snd]. destruct (in_rng 48 57 x) eqn:E, (in_rng 46 46 x) eqn:F; cbn; unfold in_rng in E, F; split; try lia; discriminate.
Qed.
Lemma digs_in x : In x digs <-> is_d x = true.
Proof.
  rewrite is_d_iff. unfold digs. cbn [In]. lia.
Qed.
Lemma e_in x : In x (46%N :: digs) <-> is_e x = true.
Proof.
  rewrite is_e_iff, <- digs_in. cbn [In]. intuition.
Qed.
Lemma gen_run is : forall v, run v -> Forall (fun r => snd r = 1) v -> v <> [] -> forall w, gen is w -> gen ((46%N :: digs, true) :: is) (v ++ w).
Proof.
  induction v as [|[x wd] v IH]; intros R W N w G; [contradiction (N eq_refl)|]. inversion R as [|? ? Hx R']; subst. inversion W as [|? ? Hw W']; subst.
  cbn [fst snd] in *. subst wd. apply e_in in Hx. cbn [app]. destruct v as [|y v]; [apply G_one; [exact Hx|exact G]|].
  apply G_more; [exact Hx|]. apply IH; [exact R'|exact W'|discriminate|exact G].
Qed.
Lemma run_inv is : forall x, gen ((46%N :: digs, true) :: is) x -> exists z v w, x = (z, 1) :: v ++ w /\ is_e z = true /\ run v /\ gen is w.
Proof.
  intros x G. remember ((46%N :: digs, true) :: is) as it eqn:E. induction G as [|l b is' x s I G _|l is' x s I G IH]; [discriminate E| |].
  - injection E as -> -> ->. exists x, [], s. split; [reflexivity|]. split; [apply e_in; exact I|]. split; [constructor|exact G].
  - injection E as -> ->. destruct (IH eq_refl) as (z & v & w & -> & Z & R & Gw). exists x, ((z, 1) :: v), w. split; [reflexivity|]. split; [apply e_in; exact I|].
    split; [|exact Gw]. constructor; [exact Z|exact R].
Qed.
Lemma ver_inv is x : gen (ver_items ++ is) x -> exists y z v w, x = ((y, 1) :: (z, 1) :: v) ++ w /\ is_d y = true /\ is_e z = true /\ run v /\ gen is w.
Proof.
  intros G. cbn [ver_items app] in G. inversion G as [|l b is' y s I G'|]; subst. apply run_inv in G' as (z & v & w & -> & Z & R & Gw).
  exists y, z, v, w. split; [reflexivity|]. split; [apply digs_in; exact I|]. auto.
Qed.
Lemma byte_e b : digit b \/ b = x2e -> is_e (bn b) = true.
Proof.
  intros [[D1 D2]| ->]; [|reflexivity]. apply d_e, is_d_iff. auto.
Qed.
Lemma digit_d b : digit b -> is_d (bn b) = true.
Proof. intros [D1 D2]. apply is_d_iff. auto. Qed.
Lemma chr_run r : Forall (fun b => digit b \/ b = x2e) r -> run (map chr r).
Proof. intros F. apply Forall_map. eapply Forall_impl; [|exact F]. intros b Hb. exact (byte_e b Hb). Qed.
Lemma chr_ones r : Forall (fun x => snd x = 1) (map chr r).
Proof. apply Forall_map. apply Forall_forall. reflexivity. Qed.
Lemma gen_ver V is w : version_number V -> gen is w -> gen (ver_items ++ is) (map chr V ++ w).
Proof.
  intros (d & r & -> & D & N & F & _) G. cbn [map app ver_items]. apply G_one; [apply digs_in, digit_d; exact D|].
  apply gen_run; [exact (chr_run r F)|apply chr_ones| |exact G]. destruct r; [contradiction (N eq_refl)|discriminate].
Qed.
Lemma version_run V : version_number V -> run (map chr V).
Proof. intros (d & r & -> & D & N & F & _). apply (chr_run (d :: r)). constructor; [left; exact D|exact F]. Qed.
Lemma version_ascii V : version_number V -> ascii V.
Proof.
  intros (d & r & -> & D & N & F & _). constructor; [unfold digit in D; lia|]. eapply Forall_impl; [|exact F].
  intros b [B| ->]; [unfold digit in B; lia|reflexivity].
Qed.

(** ** What is captured *)
Lemma only_is k : forall j, has (only k) j -> j = k.
Proof.
  induction k as [|k IH]; intros [|j] H; cbn [only] in H; try reflexivity.
  - unfold has in H. destruct j; discriminate H.
  - discriminate (proj1 (bput_0 false (only k)) H).
  - rewrite (IH j (proj1 (bput_S false (only k) j) H)). reflexivity.
Qed.
Lemma proper_ones s u v : s = u ++ v -> Forall (fun x : N * nat => snd x = 1) s -> proper u /\ Forall (fun x => snd x = 1) v /\ Forall (fun x => snd x = 1) u.
Proof.
  intros -> F. apply Forall_app in F as [A B]. split; [|auto]. eapply Forall_impl; [|exact A]. cbn. intros x E. lia.
Qed.
Lemma ones_width v : Forall (fun x : N * nat => snd x = 1) v -> width v = Z.of_nat (length v).
Proof. induction 1 as [|[x w] v E _ IH]; [reflexivity|]. cbn [width length]. cbn in E. subst w. lia. Qed.

Section Capture.
Variable items : list item.
Hypothesis FF : fixed_first items = true.
Variables (A V B : bytes).
Hypothesis HV : version_number V.
Hypothesis HB : stops (map chr B).
Definition sep_ua : bytes := A ++ x2f :: V ++ B.
Hypothesis HA : ascii sep_ua.
Hypothesis HG : gen items (map chr sep_ua).
Lemma sep_runes : runes sep_ua = map chr sep_ua.
Proof. exact (runes_ascii_all sep_ua HA). Qed.

(** The parts of the best match: the text before the tail ends at a place where [Q] can end. *)
Lemma best_parts Q T p t : best (Cat start_re (Cat Q T)) (map chr sep_ua) p t ->
  exists pre v w t0 tq tt vq j, map chr sep_ua = pre ++ v ++ w /\ t = TCat t0 (TCat tq tt) /\ (p + size t0 + size tq)%Z = width pre /\
    top T (width pre) tt v w /\ has (go (fam_of items) Q (f_words (fam_of items))) j /\ here items j pre (v ++ w) /\
    (exists u, pre = u ++ vq) /\ exists q w', parses Q q tq vq w'.
Proof.
  intros Bt. apply best_top in Bt as (u & v & w & E & Ep & Tp). apply top_cat in Tp as (t0 & t1 & v0 & v1 & -> & -> & P0 & Tp).
  pose proof (parses_size _ _ _ _ _ P0) as S0. apply top_cat in Tp as (tq & tt & vq & vt & -> & -> & Pq & Tp).
  pose proof (parses_size _ _ _ _ _ Pq) as Sq. rewrite <- !app_assoc in *.
  pose proof (chr_ones sep_ua) as O. destruct (proper_ones _ _ _ E O) as (Pu & O1 & Ou).
  destruct (proper_ones _ _ _ eq_refl O1) as (Pv0 & O2 & Ov0). destruct (proper_ones _ _ _ eq_refl O2) as (Pvq & O3 & Ovq).
  assert (L0 : lang start_re u v0 (vq ++ vt ++ w)) by (exact (parses_lang _ _ _ _ _ P0 u Pu Pv0 Ep)).
  assert (Lq : lang Q (u ++ v0) vq (vt ++ w)).
  { apply (parses_lang _ _ _ _ _ Pq (u ++ v0)); [apply Forall_app; auto|exact Pvq|rewrite width_app; lia]. }
  assert (As : at_start (u ++ v0)) by (apply lang_start; intros w'; exists u, v0; split; [reflexivity|]; exact (lang_start_any _ _ _ _ L0)).
  apply start_ends in As. destruct (place_word items FF (u ++ v0) (vq ++ vt ++ w)) as (i & Hi & Bi).
  { rewrite <- app_assoc. rewrite <- E. exact HG. } { exact As. }
  destruct (go_ok items FF Q (u ++ v0) vq (vt ++ w) Lq _ i Hi Bi) as (j & Hj & Bj). rewrite <- app_assoc in Bj.
  exists (u ++ v0 ++ vq), vt, w, t0, tq, tt, vq, j. split; [rewrite <- !app_assoc; exact E|]. split; [reflexivity|].
  assert (W : width (u ++ v0 ++ vq) = (p + width v0 + width vq)%Z) by (rewrite !width_app; lia).
  split; [lia|]. split; [rewrite W; exact Tp|]. split; [exact Hj|]. split; [exact Bj|].
  split; [exists (u ++ v0); rewrite <- app_assoc; reflexivity|]. eauto.
Qed.
Definition span : option (Z * Z) := Some (Z.of_nat (length A + 1), Z.of_nat (length A + 1 + length V)).
Lemma chr_length s : length (map chr s) = length s. Proof. apply map_length. Qed.
Lemma chr_width s : width (map chr s) = Z.of_nat (length s).
Proof. rewrite (ones_width _ (chr_ones s)), map_length. reflexivity. Qed.
Lemma sep_split : map chr sep_ua = (map chr A ++ chr x2f :: map chr V) ++ map chr B.
Proof. unfold sep_ua. rewrite map_app. cbn [map]. rewrite map_app, <- app_assoc. reflexivity. Qed.

Lemma cap_option Q neg rs k p t : best (Cat start_re (Cat Q (Alt (Cat (Cls neg rs) (Grp 1 re_body)) Eps))) (map chr sep_ua) p t ->
  cls_mem neg rs 47 = true -> go (fam_of items) Q (f_words (fam_of items)) = only k -> skipn k items = lit_items [x2f] ++ ver_items ++ lit_items B ->
  group_of 1 p t = span.
Proof.
  intros Bt C K Sk. apply best_parts in Bt as (pre & v & w & t0 & tq & tt & vq & j & E & -> & Sz & Tp & Hj & (_ & _ & G) & _).
  rewrite K in Hj. apply only_is in Hj as ->. rewrite Sk in G. apply gen_lit_inv in G as (w1 & E1 & G). apply ver_inv in G as (y & z & r & w2 & E2 & Y & Z & R & G).
  rewrite <- (app_nil_r (lit_items B)) in G. apply gen_lit_inv in G as (w3 & -> & G). inversion G; subst w3. rewrite app_nil_r in E2.
  assert (Q1 : (pre ++ chr x2f :: (y, 1) :: (z, 1) :: r) ++ map chr B = (map chr A ++ chr x2f :: map chr V) ++ map chr B).
  { rewrite <- sep_split, E, E1, E2. rewrite <- app_assoc. reflexivity. }
  apply app_inv_tail in Q1. apply last_run in Q1 as [Q1 Q2]; [|reflexivity|reflexivity| |exact (version_run V HV)].
  2: { constructor; [apply d_e; exact Y|]. constructor; [exact Z|exact R]. }
  apply app_inj_tail in Q2 as [Q2 _].
  cbn [group_of]. rewrite Sz.
  rewrite (option_end neg rs _ tt v w (bn x2f) 1 y 1 z 1 r (map chr B) Tp); [|rewrite E1, E2; reflexivity|exact C|exact Y|exact Z|exact R|exact HB].
  unfold span. rewrite Q1, Q2, !chr_width. f_equal. f_equal; lia.
Qed.
Lemma cap_plain Q rs k p t : best (Cat start_re (Cat (Cat Q (Cls false rs)) (Grp 1 re_body))) (map chr sep_ua) p t ->
  (forall c, cls_mem false rs c = true -> is_e c = false) ->
  go (fam_of items) (Cat Q (Cls false rs)) (f_words (fam_of items)) = only k -> skipn k items = ver_items ++ lit_items B ->
  group_of 1 p t = span.
Proof.
  intros Bt C K Sk. apply best_parts in Bt as (pre & v & w & t0 & tq & tt & vq & j & E & -> & Sz & Tp & Hj & (_ & _ & G) & (u & Eu) & q & w' & Pq).
  rewrite K in Hj. apply only_is in Hj as ->. rewrite Sk in G. apply ver_inv in G as (y & z & r & w2 & E2 & Y & Z & R & G).
  rewrite <- (app_nil_r (lit_items B)) in G. apply gen_lit_inv in G as (w3 & -> & G). inversion G; subst w3. rewrite app_nil_r in E2.
  apply cat_parse in Pq as (ta & tb & va & vb & _ & -> & _ & Pb). apply cls_parse in Pb as (c & wd & _ & -> & Cc).
  assert (Rv : run ((y, 1) :: (z, 1) :: r)) by (constructor; [apply d_e; exact Y|]; constructor; [exact Z|exact R]).
  assert (Q1 : ((u ++ va) ++ (c, wd) :: (y, 1) :: (z, 1) :: r) ++ map chr B = (map chr A ++ chr x2f :: map chr V) ++ map chr B).
  { rewrite <- sep_split, E, E2, Eu. rewrite <- !app_assoc. reflexivity. }
  apply app_inv_tail in Q1. apply last_run in Q1 as [Q1 Q2]; [|exact (C c Cc)|reflexivity|exact Rv|exact (version_run V HV)].
  rewrite <- app_assoc in Q2. rewrite <- Eu in Q2.
  cbn [group_of]. rewrite Sz. rewrite (group_end _ tt v w _ (map chr B) Tp E2 Rv HB). unfold span.
  rewrite Q1, Q2, width_app, !chr_width. cbn [width chr]. f_equal. f_equal; lia.
Qed.

(** From the span to the fragment. *)
Lemma span_captured p t s : group_of 1 p t = span -> captured (groups 1 p t) 1 sep_ua s -> s = V.
Proof.
  clear FF. intros G (a & b & E & _ & Lo & Hi). unfold groups in Lo, Hi. cbn [seq flat_map] in Lo, Hi. rewrite G in Lo, Hi. unfold span in Lo, Hi.
  change (2 * Z.to_nat 1) with 2 in Lo, Hi. cbn [nth_error app Nat.add] in Lo, Hi. injection Lo as Lo. injection Hi as Hi.
  unfold sep_ua in E. replace (A ++ x2f :: V ++ B) with ((A ++ [x2f]) ++ V ++ B) in E by (rewrite <- app_assoc; reflexivity).
  assert (L1 : length a = length (A ++ [x2f])) by (rewrite app_length; cbn; lia).
  assert (L2 : length s = length V) by lia.
  destruct (app_inv_length _ _ _ _ E (eq_sym L1)) as [_ E']. symmetry in E'. exact (proj1 (app_inv_length _ _ _ _ E' L2)).
Qed.
Lemma span_present p t : group_of 1 p t = span -> ~ absent (groups 1 p t) 1.
Proof.
  clear FF. intros G [_ H]. unfold groups in H. cbn [seq flat_map] in H. rewrite G in H. unfold span in H. change (2 * Z.to_nat 1) with 2 in H.
  destruct (H _ _ eq_refl eq_refl); lia.
Qed.
Lemma version_self s : version_of_fragment V s -> s = V.
Proof.
  intros (rest & n & [[_ ->]|(q & E & _)] & E2 & N).
  - destruct HV as (d & r & Ev & D & Nn & F & Nd). destruct n as [|n]; [rewrite app_nil_r in E2; symmetry; exact E2|].
    exfalso. assert (R : repeat x2e (S n) = repeat x2e n ++ [x2e]) by exact (repeat_cons n x2e). rewrite R, app_assoc in E2.
    exact (Nd _ E2).
  - exfalso. pose proof (version_run V HV) as R. rewrite E, map_app in R. apply Forall_app in R as [_ R]. inversion R; subst. discriminate.
Qed.
End Capture.

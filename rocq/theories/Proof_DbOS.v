(** Operating systems of a built program, in terms of the database. *)
From Verif Require Import Model_Base Model_CacheEntry Model_Version Model_Ctx Model_Regex Model_Parse Model_Compiler Model_Shipped Model_Built
  Spec_Version Spec_Getters Spec_Select Spec_Compiler Spec_Database Proof_Base Proof_Select Proof_Client Proof_OS Proof_Reports
  Proof_Tables Proof_Compiler Proof_Built Proof_DbClient.
From Coq Require Import Lia ZifyBool ZifyNat ZifyN Permutation.
Open Scope nat_scope.

(** Ranges of a table that grows. *)
Lemma range_encode {A} (a b c : list A) : (N.of_nat (length (a ++ b)) < two32)%N ->
  range_of (a ++ b ++ c) (e_encode (N.of_nat (length a)) (N.of_nat (length (a ++ b)))) = b.
Proof.
  intros L. unfold range_of. pose proof (e_decode_encode (N.of_nat (length a)) (N.of_nat (length (a ++ b)))) as D.
  rewrite app_length in *. unfold e_decode in D. change 4294967296%N with two32. specialize (D ltac:(lia) L). injection D as D1 D2. rewrite D1, D2.
  rewrite Nat2N.id. rewrite skipn_app, skipn_all, Nat.sub_diag. cbn [skipn app].
  replace (N.to_nat (N.of_nat (length a + length b) - N.of_nat (length a))) with (length b) by lia.
  rewrite firstn_app, firstn_all, Nat.sub_diag, firstn_O. apply app_nil_r.
Qed.
Lemma range_grows {A} (l l' : list A) e r : prefix l l' -> slice l (e / two32)%N (e mod two32)%N = Ok r -> slice l' (e / two32)%N (e mod two32)%N = Ok r.
Proof.
  intros [t ->] H. pose proof (slice_Ok_inv _ _ _ _ H) as (L1 & L2 & _). rewrite slice_ok in H by assumption.
  rewrite slice_ok; [|exact L1|rewrite app_length; lia]. injection H as <-. f_equal. 
  rewrite skipn_app, firstn_app. rewrite skipn_length.
  replace (N.to_nat (e mod two32 - e / two32) - (length l - N.to_nat (e / two32))) with 0 by lia. rewrite firstn_O. apply app_nil_r.
Qed.
Lemma encode_slice {A} (a b : list A) : (N.of_nat (length (a ++ b)) < two32)%N ->
  let e := e_encode (N.of_nat (length a)) (N.of_nat (length (a ++ b))) in slice (a ++ b) (e / two32)%N (e mod two32)%N = Ok b.
Proof.
  intros L e. pose proof (e_decode_encode (N.of_nat (length a)) (N.of_nat (length (a ++ b)))) as D. fold e in D.
  rewrite app_length in *. unfold e_decode in D. specialize (D ltac:(lia) L). injection D as D1 D2.
  assert (R : range_of (a ++ b) e = b) by (pose proof (range_encode a b []) as R; rewrite app_nil_r in R; apply R; rewrite app_length; exact L).
  rewrite slice_ok; [f_equal; exact R|lia|rewrite app_length; lia].
Qed.
Lemma encode_nonzero lo hi : (0 < hi < two32)%N -> e_encode lo hi <> 0%N.
Proof. intros B E. unfold e_encode in E. rewrite (N.mod_small hi) in E by lia. lia. Qed.

Lemma group_ref_fun v n n' : group_ref v n -> group_ref v n' -> n = n'.
Proof.
  intros (d & -> & H) (d' & E & H'). injection E as <-. pose proof (decimal_val _ _ H). pose proof (decimal_val _ _ H'). congruence.
Qed.
Lemma matches_pattern K repl wrap b res rs ri m64 r : matches K repl b res rs ri m64 ->
  ((0 <= ri)%Z /\ nth_error (map (fun p => compile (wrap p)) res) (Z.to_nat ri) = Some r <-> pattern_for K repl wrap rs r).
Proof.
  intros [(H1 & -> & H3)|[(H1 & H2 & H3 & H4)|(H1 & H2 & -> & ->)]]; rewrite pattern_chosen.
  - split; [intros [L _]; lia|]. intros [P _]. contradiction.
  - rewrite nth_error_map, H4. cbn [option_map]. split; [intros (_ & [= <-]); auto|]. intros (_ & _ & ->). auto.
  - split; [intros [L _]; lia|]. intros (_ & P & _). congruence.
Qed.

Section Build.
Variable K : compiler.
Definition oext (o o' : otables) : Prop :=
  later (o_buf o) (o_buf o') /\ prefix (o_re o) (o_re o') /\ prefix (o_ov o) (o_ov o').
Definition ofit (o : otables) : Prop := bfit (o_buf o) /\ fits_32 (o_ov o).
Definition nofall : bytes -> option bytes := fun _ => None.
Definition ov_means (o : otables) (y : yosver) (v : osVersionTuple) : Prop :=
  matches K nofall (o_buf o) (o_re o) (yv_regex y) (ov_matchRI v) (ov_match64 v) /\
  refers (o_buf o) (yv_version y) (ov_versionSI v) (ov_version64 v).
(** Every entry of the table of versions has a source. *)
Definition ook (o : otables) : Prop := buf_ok (o_buf o) /\ Forall (fun v => exists y, ov_means o y v) (o_ov o).
Definition os_means (o : otables) (y : yos) (x : osTuple) : Prop :=
  refers (o_buf o) (yo_name y) (ot_nameSI x) (ot_name64 x) /\
  matches K (k_os K) (o_buf o) (o_re o) (yo_regex y) (ot_matchRI x) (ot_match64 x) /\
  (yo_versions y = [] /\ refers (o_buf o) (yo_version y) (ot_versionSI x) (ot_version64 x) /\ ot_versions64 x = 0%N \/
   yo_versions y <> [] /\ ot_versionSI x = (-1)%Z /\ ot_version64 x = 0%N /\ ot_versions64 x <> 0%N /\
   exists l, slice (o_ov o) (ot_versions64 x / two32)%N (ot_versions64 x mod two32)%N = Ok l /\ Forall2 (ov_means o) (yo_versions y) l).
Lemma oext_refl o : oext o o.
Proof. split; [apply later_refl|]. split; apply prefix_refl. Qed.
Lemma oext_trans a b c : oext a b -> oext b c -> oext a c.
Proof.
  intros (A1 & A2 & A3) (B1 & B2 & B3). split; [exact (later_trans _ _ _ A1 B1)|]. split; [exact (prefix_trans _ _ _ A2 B2)|exact (prefix_trans _ _ _ A3 B3)].
Qed.
Lemma fits_back {A} (a b : list A) : prefix a b -> fits_32 b -> fits_32 a.
Proof. intros P F. apply prefix_length in P. unfold fits_32 in *. lia. Qed.
Lemma ofit_back a b : oext a b -> ofit b -> ofit a.
Proof. intros (A1 & _ & A3) [F1 F2]. split; [exact (bfit_back _ _ A1 F1)|exact (fits_back _ _ A3 F2)]. Qed.
Lemma ov_means_ext o o' y v : oext o o' -> ov_means o y v -> ov_means o' y v.
Proof. intros (A1 & A2 & _) [H1 H2]. split; [exact (matches_later _ _ _ _ _ _ _ _ _ A1 A2 H1)|exact (refers_later _ _ _ _ _ A1 H2)]. Qed.
Lemma os_means_ext o o' y x : oext o o' -> os_means o y x -> os_means o' y x.
Proof.
  intros E (H1 & H2 & H3). pose proof E as (A1 & A2 & A3). split; [exact (refers_later _ _ _ _ _ A1 H1)|].
  split; [exact (matches_later _ _ _ _ _ _ _ _ _ A1 A2 H2)|]. destruct H3 as [(V & R & Z)|(V & S1 & S2 & S3 & l & Sl & F)].
  - left. split; [exact V|]. split; [exact (refers_later _ _ _ _ _ A1 R)|exact Z].
  - right. split; [exact V|]. split; [exact S1|]. split; [exact S2|]. split; [exact S3|]. exists l.
    split; [exact (range_grows _ _ _ _ A3 Sl)|]. revert F. apply Forall2_impl. intros y' v. apply ov_means_ext. exact E.
Qed.
Definition verp (y : yosver) : Prop := proper_ref (yv_version y).
Lemma ov1_spec y o : verp y ->
  let '(v, o') := compile_ov1 (k_valid K) y o in
  oext o o' /\ o_ov o' = o_ov o ++ [v] /\ (buf_ok (o_buf o) -> bfit (o_buf o') -> buf_ok (o_buf o')) /\ ov_means o' y v.
Proof.
  intros P. unfold compile_ov1. fold nofall. destruct (add_match _ _ _ _ _) as [[[ri m64] b1] re1] eqn:E1. destruct (parse_inx _ b1) as [[vi v64] b2] eqn:E2.
  destruct (add_match_spec K _ _ _ _ _ _ _ _ E1) as (L1 & P1 & M1 & K1). destruct (parse_inx_spec _ _ _ _ _ P E2) as (L2 & R2 & K2).
  split; [|split; [|split]]; cbn [o_buf o_re o_ov].
  - split; [exact (later_trans _ _ _ L1 L2)|]. split; [exact P1|apply prefix_snoc].
  - reflexivity.
  - intros Kb F. apply K2; [apply K1; [exact Kb|exact (bfit_back _ _ L2 F)]|exact F].
  - split; cbn [o_buf o_re ov_matchRI ov_match64 ov_versionSI ov_version64]; [exact (matches_later _ _ _ _ _ _ _ _ _ L2 (prefix_refl _) M1)|exact R2].
Qed.
Lemma ov_all ys : forall o, Forall verp ys ->
  let '(l, o') := compile_entries (compile_ov1 (k_valid K)) ys o in
  oext o o' /\ o_ov o' = o_ov o ++ l /\ length l = length ys /\ (ook o -> ofit o' -> ook o' /\ Forall2 (ov_means o') ys l).
Proof.
  induction ys as [|y ys IH]; intros o G; cbn [compile_entries].
  { split; [apply oext_refl|]. split; [symmetry; apply app_nil_r|]. split; [reflexivity|]. intros Ok _. split; [exact Ok|constructor]. }
  apply Forall_cons_iff in G as [Gy G]. pose proof (ov1_spec y o Gy) as S1. destruct (compile_ov1 _ y o) as [v o1]. destruct S1 as (X1 & V1 & K1 & M1).
  specialize (IH o1 G). destruct (compile_entries _ ys o1) as [l o2]. destruct IH as (X2 & V2 & Len & Ok2).
  split; [exact (oext_trans _ _ _ X1 X2)|]. split; [rewrite V2, V1, <- app_assoc; reflexivity|]. split; [cbn [length]; lia|].
  intros [Kb Fo] F. assert (O1 : ook o1).
  { split; [apply K1; [exact Kb|apply (ofit_back _ _ X2 F)]|]. rewrite V1. apply Forall_app. split.
    - revert Fo. apply Forall_impl. intros v' (y' & M'). exists y'. exact (ov_means_ext _ _ _ _ X1 M').
    - constructor; [exists y; exact M1|constructor]. }
  destruct (Ok2 O1 F) as [O2 F2]. split; [exact O2|]. constructor; [exact (ov_means_ext _ _ _ _ X2 M1)|exact F2].
Qed.
Lemma os1_spec y o : os_proper y ->
  let '(x, o') := compile_os1 (k_valid K) (k_os K) y o in oext o o' /\ (ook o -> ofit o' -> ook o' /\ os_means o' y x).
Proof.
  intros (P1 & P2 & P3). unfold compile_os1. destruct (parse_inx (yo_name y) _) as [[ni n64] b1] eqn:E1. destruct (add_match _ _ _ b1 _) as [[[ri m64] b2] re2] eqn:E2.
  destruct (parse_inx_spec _ _ _ _ _ P1 E1) as (L1 & R1 & K1). destruct (add_match_spec K _ _ _ _ _ _ _ _ E2) as (L2 & Q2 & M2 & K2).
  set (o2 := mkO b2 re2 (o_ov o)).
  assert (X2 : oext o o2). { split; [exact (later_trans _ _ _ L1 L2)|]. split; [exact Q2|apply prefix_refl]. }
  assert (O2 : ook o -> bfit b2 -> ook o2).
  { intros [Kb Fo] F. split; [apply K2; [apply K1; [exact Kb|exact (bfit_back _ _ L2 F)]|exact F]|].
    cbn [o_ov o2]. revert Fo. apply Forall_impl. intros v (y' & M'). exists y'. exact (ov_means_ext _ _ _ _ X2 M'). }
  destruct (yo_versions y) as [|v vs] eqn:V.
  - destruct (parse_inx (yo_version y) b2) as [[vi v64] b3] eqn:E3. destruct (parse_inx_spec _ _ _ _ _ P2 E3) as (L3 & R3 & K3).
    set (o3 := mkO b3 re2 (o_ov o)). assert (X3 : oext o2 o3). { split; [exact L3|]. split; apply prefix_refl. }
    split; [exact (oext_trans _ _ _ X2 X3)|]. intros Ok [F _]. cbn [o3 o_buf] in F.
    destruct (O2 Ok (bfit_back _ _ L3 F)) as [Kb Fo]. split.
    + split; [apply K3; assumption|]. cbn [o_ov o3]. revert Fo. apply Forall_impl. intros v (y' & M'). exists y'. exact (ov_means_ext _ _ _ _ X3 M').
    + unfold os_means. cbn [o_buf o_re o_ov o3 ot_nameSI ot_name64 ot_matchRI ot_match64 ot_versionSI ot_version64 ot_versions64]. split; [exact (refers_later _ _ _ _ _ (later_trans _ _ _ L2 L3) R1)|].
      split; [exact (matches_later _ _ _ _ _ _ _ _ _ L3 (prefix_refl _) M2)|]. left. auto.
  - rewrite <- V in *. pose proof (ov_all (yo_versions y) o2 P3) as S. destruct (compile_entries _ (yo_versions y) o2) as [l o3]. cbn [snd].
    destruct S as (X3 & V3 & Len & Ok3). split; [exact (oext_trans _ _ _ X2 X3)|]. intros Ok F.
    assert (O2' : ook o2). { apply O2; [exact Ok|]. apply (ofit_back _ _ X3 F). }
    destruct (Ok3 O2' F) as [O3 F3]. split; [exact O3|]. pose proof X3 as (L3 & Q3 & _). unfold os_means.
    cbn [ot_nameSI ot_name64 ot_matchRI ot_match64 ot_versionSI ot_version64 ot_versions64].
    split; [exact (refers_later _ _ _ _ _ (later_trans _ _ _ L2 L3) R1)|]. split; [exact (matches_later _ _ _ _ _ _ _ _ _ L3 Q3 M2)|].
    right. cbn [o_ov o2] in V3. destruct F as [_ F]. unfold fits_32 in F. rewrite V3 in *.
    split; [rewrite V; discriminate|]. split; [reflexivity|]. split; [reflexivity|]. split.
    + apply encode_nonzero. rewrite app_length in *. rewrite V in Len. cbn [length] in Len. lia.
    + exists l. split; [apply (encode_slice (o_ov o) l F)|exact F3].
Qed.
Lemma os_all ys : forall o, Forall os_proper ys -> ook o -> ofit (snd (compile_entries (compile_os1 (k_valid K) (k_os K)) ys o)) ->
  ook (snd (compile_entries (compile_os1 (k_valid K) (k_os K)) ys o)) /\
  Forall2 (os_means (snd (compile_entries (compile_os1 (k_valid K) (k_os K)) ys o))) ys (fst (compile_entries (compile_os1 (k_valid K) (k_os K)) ys o)).
Proof.
  apply (entries_ok (compile_os1 (k_valid K) (k_os K)) oext ofit ook os_proper os_means oext_refl oext_trans ofit_back).
  - intros y s G. pose proof (os1_spec y s G) as S. destruct (compile_os1 _ _ y s). apply S.
  - intros y s G Ok F. pose proof (os1_spec y s G) as S. destruct (compile_os1 _ _ y s). apply S; assumption.
  - intros. eapply os_means_ext; eassumption.
Qed.
End Build.

Record os_facts (K : compiler) (D : database) (T : tables) (o : otables) : Prop := {
  of_ok : ook K o;
  of_buf : or_buf T = b_buf (o_buf o);
  of_re : or_re T = map (fun p => compile (ci p)) (o_re o);
  of_ov : or_ov T = o_ov o;
  of_os : Forall2 (os_means K o) (db_os D) (or_os T)
}.
Lemma os_built K D : Forall os_proper (db_os D) -> fits_32 (or_buf (built K D)) -> fits_32 (or_ov (built K D)) ->
  exists o, os_facts K D (built K D) o.
Proof.
  intros P F1 F2. unfold built in *. cbn [or_buf or_ov] in F1, F2. unfold compile_os in *.
  pose proof (os_all K (db_os D) (mkO buf_empty [] []) P (conj buf_empty_ok (Forall_nil _))) as S.
  destruct (compile_entries (compile_os1 (k_valid K) (k_os K)) (db_os D) (mkO buf_empty [] [])) as [os o]. cbn [fst snd oo_buf oo_ov] in *.
  destruct (S (conj F1 F2)) as [Ok M]. exists o. constructor; cbn [or_buf or_re or_ov or_os oo_re oo_os oo_ov oo_buf].
  - exact Ok.
  - reflexivity.
  - apply map_map.
  - reflexivity.
  - exact M.
Qed.

Section OS.
Variables (K : compiler) (D : database) (T : tables) (o : otables).
Hypothesis OF : os_facts K D T o.
Hypothesis PR : Forall os_proper (db_os D).
Let okb : buf_ok (o_buf o) := proj1 (of_ok _ _ _ _ OF).

Lemma skipped_iff ua y x : os_means K o y x -> (db_skipped K ua y <-> skipped T ua x).
Proof.
  intros (_ & M & _). unfold db_skipped, skipped, os_text. rewrite (of_re _ _ _ _ OF). split.
  - intros (src & (r & P & <-) & H). apply (matches_pattern K (k_os K) ci _ _ _ _ _ _ M) in P as [L N]. split; [exact L|]. exists r. auto.
  - intros (L & r & N & H). exists (re_src r). split; [|exact H]. exists r. split; [|reflexivity].
    apply (matches_pattern K (k_os K) ci _ _ _ _ _ _ M). auto.
Qed.
Lemma os_hit_iff ua y x : os_means K o y x -> (os_hit K ua y <-> os_applies T ua x).
Proof.
  intros M. unfold os_hit, os_applies. rewrite (skipped_iff ua y x M). destruct M as (_ & M & _).
  rewrite (of_re _ _ _ _ OF), (of_buf _ _ _ _ OF). rewrite (matches_applies K (k_os K) ci _ _ _ _ _ ua okb M). reflexivity.
Qed.
Lemma no_os_iff ua : no_os T ua <-> db_no_os K D ua.
Proof. symmetry. apply (none_iff (os_means K o)); [exact (of_os _ _ _ _ OF)|]. intros y x _ _. apply os_hit_iff. Qed.
Lemma os_is_down ua x : os_is T ua x -> exists y, db_os_is K D ua y /\ os_means K o y x.
Proof. apply (first_backward (os_means K o)); [exact (of_os _ _ _ _ OF)|]. intros y x' _ _. apply os_hit_iff. Qed.
Lemma os_is_up ua y : db_os_is K D ua y -> exists x, os_is T ua x /\ os_means K o y x.
Proof. apply (first_forward (os_means K o)); [exact (of_os _ _ _ _ OF)|]. intros y' x _ _. apply os_hit_iff. Qed.
Lemma finds_down repl rs ri m64 ua m : matches K repl (o_buf o) (o_re o) rs ri m64 -> (finds T ri ua m <-> db_finds K repl ci rs ua m).
Proof.
  intros M. unfold finds. rewrite (of_re _ _ _ _ OF). apply (matches_finds K repl ci _ _ _ _ _ ua m M).
Qed.
Lemma os_name_down ua y x s : os_means K o y x -> os_name_is T ua x s -> db_os_name K ua y s.
Proof.
  intros (R & M & _) H. pose proof (refers_const _ _ _ _ okb R) as RC.
  destruct H as [m s out F [Ni C] At Tr|m F [Ni C] At|s out _ N64 Tx Tr|Hn N64].
  - apply (BO_group _ _ _ m (ot_nameSI x) s); [apply (finds_down _ _ _ _ _ _ M); exact F|exact (refers_group _ _ _ _ R Ni)|exact C|exact At|exact Tr].
  - apply (BO_empty _ _ _ m (ot_nameSI x)); [apply (finds_down _ _ _ _ _ _ M); exact F|exact (refers_group _ _ _ _ R Ni)|exact C|exact At].
  - rewrite (of_buf _ _ _ _ OF) in Tx. apply RC in N64. destruct R as [(E & _)|[(_ & _ & I)|((d & E & _) & _)]].
    + destruct N64. contradiction.
    + apply BO_constant; [exact N64|]. rewrite <- (text_fun _ _ _ _ Tx (interned_text _ _ _ okb I)). exact Tr.
    + destruct N64 as [_ N64]. contradiction (N64 d).
  - apply BO_none; [intros C; apply RC in C; contradiction|]. intros m n F G. apply (finds_down _ _ _ _ _ _ M) in F. destruct (Hn m F) as [E|A].
    + destruct R as [(E1 & _)|[((_ & E1) & _)|(_ & B & _)]]; [|destruct G as (d & E2 & _); contradiction (E1 d)|lia].
      destruct G as (d & E2 & _). congruence.
    + destruct R as [(E1 & _)|[((_ & E1) & _)|(G' & _)]].
      * destruct G as (d & E2 & _). congruence.
      * destruct G as (d & E2 & _). contradiction (E1 d).
      * rewrite (group_ref_fun _ _ _ G G'). exact A.
Qed.
Lemma os_version_down ua y x s : os_means K o y x -> os_hit K ua y -> os_version_is T ua x s -> db_os_version K ua y s.
Proof.
  intros (_ & M & V) [_ Hit] H. pose proof (matches_plain K (k_os K) ci _ _ _ _ _ ua M Hit) as Pl.
  assert (Sub : forall v, ot_versions64 x <> 0%N -> first (ov_applies T ua) (subversions T x) v ->
    yo_versions y <> [] /\ ot_versionSI x = (-1)%Z /\ exists w, first (ver_hit K ua) (yo_versions y) w /\ ov_means K o w v /\
      ((ov_matchRI v < 0)%Z <-> plain (yv_regex w))).
  { intros v N64 F. destruct V as [(_ & _ & Z)|(Nv & S1 & _ & _ & l & Sl & F2)]; [contradiction|]. split; [exact Nv|]. split; [exact S1|].
    rewrite <- (of_ov _ _ _ _ OF) in Sl. apply (slice_range (or_ov T) (ot_versions64 x)) in Sl. unfold subversions in F. rewrite <- Sl in F.
    assert (Hi : forall w v, ov_means K o w v -> (ver_hit K ua w <-> ov_applies T ua v)).
    { intros w v' [Mw _]. unfold ver_hit, ov_applies. rewrite (of_re _ _ _ _ OF), (of_buf _ _ _ _ OF). symmetry.
      exact (matches_applies K (nofall) ci _ _ _ _ _ ua okb Mw). }
    destruct (first_backward (ov_means K o) (ver_hit K ua) (ov_applies T ua) _ _ F2 (fun w v' _ _ => Hi w v') v F) as (w & Fw & Mw).
    exists w. split; [exact Fw|]. split; [exact Mw|]. destruct Mw as [Mw _]. apply (matches_plain K (nofall) ci _ _ _ _ _ ua Mw). destruct Fw as (_ & _ & _ & Hw & _). exact Hw. }
  assert (Np : forall m, finds T (ot_matchRI x) ua m -> ~ plain (yo_regex y)). { intros m [L _] P. apply Pl in P. lia. }
  assert (Eg : forall m s, ot_versionSI x = (-1)%Z -> entry_group m x ua s -> s = []).
  { intros m s' E [[N _]|[_ ->]]; [contradiction|reflexivity]. }
  destruct H as [s N64 Tx|N64 L|m s N64 F No Eg'|m v s N64 F Ns Fv C Tx|m v mv s N64 F Ns Fv Fm G|m v mv s N64 F Ns Fv Fm Ni A Eg'].
  - destruct V as [(V & R & Z)|(_ & _ & Z & _)]; [|contradiction]. pose proof (proj1 (refers_const _ _ _ _ okb R) N64) as C.
    rewrite (of_buf _ _ _ _ OF) in Tx. destruct R as [(E & _)|[(_ & _ & I)|(_ & _ & E)]]; [destruct C; contradiction| |contradiction].
    rewrite (text_fun _ _ _ _ Tx (interned_text _ _ _ okb I)). apply BW_constant; assumption.
  - apply Pl in L. destruct V as [(V & R & Z)|(Nv & _)]; [|apply BW_plain_list; assumption]. apply BW_plain; [exact L|exact V|].
    intros C. apply (refers_const _ _ _ _ okb R) in C. contradiction.
  - destruct V as [(V & R & Z)|(Nv & S1 & _ & S3 & l & Sl & F2)].
    + destruct Eg' as [[Ni C]|[[Ni|A] ->]].
      * apply (BW_group _ _ _ m (ot_versionSI x)); [apply (finds_down _ _ _ _ _ _ M); exact F|exact V|exact (refers_group _ _ _ _ R Ni)|exact C].
      * apply BW_empty; [exact V|]. exact (refers_none _ _ _ _ okb R Ni N64).
      * destruct (Z.eq_dec (ot_versionSI x) (-1)) as [E|Ni]; [apply BW_empty; [exact V|exact (refers_none _ _ _ _ okb R E N64)]|].
        apply (BW_absent _ _ _ m (ot_versionSI x)); [apply (finds_down _ _ _ _ _ _ M); exact F|exact V|exact (refers_group _ _ _ _ R Ni)|exact A].
    + rewrite (Eg _ _ S1 Eg'). destruct No as [No|No]; [contradiction|]. apply BW_no_version; [exact Nv|].
      rewrite <- (of_ov _ _ _ _ OF) in Sl. apply (slice_range (or_ov T) (ot_versions64 x)) in Sl. unfold subversions in No. rewrite <- Sl in No.
      apply (none_iff (ov_means K o) (ver_hit K ua) (ov_applies T ua) _ _ F2); [|exact No]. intros w v' _ _ [Mw _].
      unfold ver_hit, ov_applies. rewrite (of_re _ _ _ _ OF), (of_buf _ _ _ _ OF). symmetry. exact (matches_applies K (nofall) ci _ _ _ _ _ ua okb Mw).
  - destruct (Sub v Ns Fv) as (Nv & S1 & w & Fw & [Mw Rw] & Pw). pose proof (refers_const _ _ _ _ okb Rw) as RC. rewrite (of_buf _ _ _ _ OF) in Tx.
    destruct Rw as [(E & _ & E64)|[(Cw & _ & I)|(G & B & E64)]].
    + rewrite E64 in Tx. apply text_zero in Tx as ->. apply (BW_list_none _ _ _ w); [exact (Np m F)|exact Nv|exact Fw|auto|]. intros [X _]. contradiction.
    + rewrite (text_fun _ _ _ _ Tx (interned_text _ _ _ okb I)). apply BW_list_constant; [exact (Np m F)|exact Nv|exact Fw|exact Cw].
    + rewrite E64 in Tx. apply text_zero in Tx as ->. destruct C as [C|C]; [|lia]. apply (BW_list_none _ _ _ w); [exact (Np m F)|exact Nv|exact Fw|left; apply Pw; exact C|].
      intros X. apply RC in X. contradiction.
  - destruct (Sub v Ns Fv) as (Nv & S1 & w & Fw & [Mw Rw] & Pw). destruct G as [Ni C].
    apply (BW_list_group _ _ _ w mv (ov_versionSI v)); [exact (Np m F)|exact Nv|exact Fw|apply (finds_down _ _ _ _ _ _ Mw); exact Fm|exact (refers_group _ _ _ _ Rw Ni)|exact C].
  - destruct (Sub v Ns Fv) as (Nv & S1 & w & Fw & [Mw Rw] & Pw). rewrite (Eg _ _ S1 Eg').
    apply (BW_list_absent _ _ _ w mv (ov_versionSI v)); [exact (Np m F)|exact Nv|exact Fw|apply (finds_down _ _ _ _ _ _ Mw); exact Fm|exact (refers_group _ _ _ _ Rw Ni)|exact A].
Qed.
Lemma refers_bounds b v vi v64 : refers b v vi v64 -> (-1 <= vi < 64)%Z.
Proof. intros [(_ & -> & _)|[(_ & -> & _)|(_ & B & _)]]; lia. Qed.
Lemma built_os_sane : os_sane T.
Proof.
  split; [rewrite (of_re _ _ _ _ OF); apply Forall_forall; intros r I; apply in_map_iff in I as (p & <- & _); apply sane_compiled|]. split.
  - apply Forall_forall. intros x Ix. destruct (In_nth_error _ _ Ix) as [j Nj].
    destruct (proj1 (Forall2_nth _ _ _ (of_os _ _ _ _ OF) j) _ Nj) as (y & _ & R & _ & V). split; [exact (refers_bounds _ _ _ _ R)|].
    destruct V as [(_ & V & _)|(_ & -> & _)]; [exact (refers_bounds _ _ _ _ V)|lia].
  - rewrite (of_ov _ _ _ _ OF). generalize (proj2 (of_ok _ _ _ _ OF)). apply Forall_impl. intros v (y & _ & R). exact (refers_bounds _ _ _ _ R).
Qed.
Lemma os_answers mC mD h ua : small ua ->
  (forall s, alone T mC mD h ua GOS = Ok (VB s) ->
     (db_no_os K D ua /\ s = bs "UNK") \/ (exists y, db_os_is K D ua y /\ db_os_name K ua y s)) /\
  (forall s, alone T mC mD h ua GOSVersionString = Ok (VB s) ->
     (db_no_os K D ua /\ s = []) \/ (exists y v, db_os_is K D ua y /\ db_os_version K ua y v /\ dotted v s)).
Proof.
  intros L. split; intros s H.
  - destruct (os_name T mC mD h ua built_os_sane L s H) as [[N ->]|(x & I & Hn)]; [left; split; [apply no_os_iff; exact N|reflexivity]|].
    right. destruct (os_is_down _ _ I) as (y & Iy & M). exists y. split; [exact Iy|exact (os_name_down _ _ _ _ M Hn)].
  - destruct (os_version T mC mD h ua built_os_sane L s H) as [[N ->]|(x & v & I & Hv & Dv)]; [left; split; [apply no_os_iff; exact N|reflexivity]|].
    right. destruct (os_is_down _ _ I) as (y & Iy & M). exists y, v. split; [exact Iy|]. split; [|exact Dv].
    apply (os_version_down _ _ _ _ M); [|exact Hv]. destruct Iy as (_ & _ & _ & Hy & _). exact Hy.
Qed.
End OS.

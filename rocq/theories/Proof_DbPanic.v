(** When the library built from a database panics. *)
From Verif Require Import Model_Base Model_CacheEntry Model_Version Model_Ctx Model_Parse Model_Regex Model_Compiler Model_Shipped Model_Built
  Spec_Version Spec_Getters Spec_Select Spec_Panic Spec_Compiler Spec_Database Spec_DbPanic
  Proof_Base Proof_Local Proof_Safe Proof_Getters Proof_Regex Proof_Sets Proof_Select Proof_Client Proof_OS Proof_Device Proof_Panic Proof_PanicClient
  Proof_Compiler Proof_Built Proof_DbClient Proof_DbOS Proof_DbDevice Proof_DbVendor.
From Coq Require Import Permutation Lia ZifyBool ZifyNat ZifyN.
Open Scope nat_scope.

(** ** Operating systems: tables *)
Section OS.
Variable T : tables.
Definition ov_fits (v : osVersionTuple) : Prop :=
  fits (or_buf T) (ov_version64 v) /\ ((ov_matchRI v < 0)%Z -> fits (or_buf T) (ov_match64 v)) /\
  ((0 <= ov_matchRI v)%Z -> exists r, zindex (or_re T) (ov_matchRI v) = Ok r).
Definition os_fits (x : osTuple) : Prop :=
  fits (or_buf T) (ot_name64 x) /\ fits (or_buf T) (ot_version64 x) /\
  ((ot_matchRI x < 0)%Z -> fits (or_buf T) (ot_match64 x)) /\
  ((0 <= ot_matchRI x)%Z -> exists r, zindex (or_re T) (ot_matchRI x) = Ok r) /\
  (ot_versions64 x = 0%N \/ exists v rv, slice (or_ov T) (fst (e_decode (ot_versions64 x))) (snd (e_decode (ot_versions64 x))) = Ok (v :: rv)).
Definition os_table_fits : Prop := or_os T <> [] /\ Forall os_fits (or_os T) /\ Forall ov_fits (or_ov T).

Definition sub_bad (ua : bytes) (v : osVersionTuple) : Prop := exists mv, finds T (ov_matchRI v) ua mv /\ dangling mv (ov_versionSI v).
Definition os_bad (ua : bytes) (x : osTuple) : Prop :=
  exists m, finds T (ot_matchRI x) ua m /\
    (dangling m (ot_nameSI x) \/ dangling m (ot_versionSI x) \/
     (ot_versions64 x <> 0%N /\ exists v, first (ov_applies T ua) (subversions T x) v /\ sub_bad ua v)).

Lemma zindex_none {A} (l : list A) i : (Z.of_nat (length l) <= i)%Z -> zindex l i = Panic.
Proof.
  intros L. destruct (zindex l i) as [x|] eqn:E; [|reflexivity]. apply zindex_Ok in E as [_ E].
  assert (Z.to_nat i < length l) by (apply nth_error_Some; congruence). lia.
Qed.
Lemma zindex_some {A} (l : list A) i : (0 <= i < Z.of_nat (length l))%Z -> exists x, zindex l i = Ok x.
Proof.
  intros L. destruct (nth_error l (Z.to_nat i)) as [x|] eqn:E; [exists x; apply zindex_Ok; split; [lia|exact E]|].
  apply nth_error_None in E. lia.
Qed.
(** A group within the positions is read or missing. *)
Lemma group_cases m si : (0 <= si < 64)%Z -> (si < Z.of_nat (length m))%Z ->
  (dangling m si /\ Model_Parse.group m si = Panic) \/ (~ dangling m si /\ exists g, Model_Parse.group m si = Ok g).
Proof.
  intros B L. unfold dangling, Model_Parse.group. rewrite !wrap8_small by (rewrite ?wrap8_small; lia).
  destruct (Z_lt_le_dec (si * 2 + 1) (Z.of_nat (length m))) as [H|H].
  - right. split; [lia|]. destruct (zindex_some m (si * 2)%Z ltac:(lia)) as [lo ->]. destruct (zindex_some m (si * 2 + 1)%Z ltac:(lia)) as [hi ->].
    eexists. reflexivity.
  - left. split; [lia|]. rewrite (zindex_none m (si * 2 + 1)%Z H). destruct (zindex m (si * 2)%Z); reflexivity.
Qed.
Lemma not_dangling m si : (Z.of_nat (length m) <= si \/ si < 0)%Z -> ~ dangling m si.
Proof. unfold dangling. lia. Qed.
Lemma copy_cases m si up c : (-1 <= si < 64)%Z ->
  (dangling m si /\ snd (copy_group m si up c) = Panic) \/
  (~ dangling m si /\ exists e, copy_group m si up c = (c, Ok tt) \/ copy_group m si up c = (up e c, Ok tt)).
Proof.
  intros B. unfold copy_group. destruct (Z.ltb_spec si (Z.of_nat (length m))) as [L|L]; cbn [andb].
  2: { right. split; [apply not_dangling; lia|]. exists 0%N. left. reflexivity. }
  destruct (Z.eqb_spec si (-1)) as [E|E]; cbn [negb].
  { right. split; [apply not_dangling; lia|]. exists 0%N. left. reflexivity. }
  destruct (group_cases m si ltac:(lia) L) as [[Dg G]|[Dg [g G]]]; unfold mbind, mlift; rewrite G; [left; auto|right].
  split; [exact Dg|]. destruct (negb (fst g =? -1)%Z && negb (snd g =? -1)%Z); eexists; [right|left]; reflexivity.
  Unshelve. exact 0%N.
Qed.

Lemma vtest_ok ua v : ov_fits v -> exists b, vtest T ua v = Ok b.
Proof. intros (_ & H1 & H2). apply hit_fine; [intros L; apply H2; exact L|exact H1]. Qed.
Lemma ostest_ok ua x : os_fits x -> exists b, ostest T ua x = Ok b.
Proof.
  intros (_ & _ & H1 & H2 & _). unfold ostest. destruct (Z.leb_spec 0 (ot_matchRI x)) as [L|L].
  - destruct (H2 L) as [r ->]. eexists. reflexivity.
  - destruct (H1 L) as [s E]. unfold slice64. rewrite E. eexists. reflexivity.
Qed.

Hypothesis S : os_sane T.
Hypothesis TF : os_table_fits.

Lemma eval_ver_cases r v rv c : bit flagOSVerBufSrc c = false ->
  slice (or_ov T) (fst (e_decode r)) (snd (e_decode r)) = Ok (v :: rv) ->
  (snd (os_eval_ver T r c) = Panic /\ exists y, first (ov_applies T (c_src c)) (v :: rv) y /\ sub_bad (c_src c) y) \/
  ((exists c', os_eval_ver T r c = (c', Ok tt) /\ vgood T c') /\
   forall y, first (ov_applies T (c_src c)) (v :: rv) y -> ~ sub_bad (c_src c) y).
Proof.
  intros B E. pose proof TF as (_ & _ & Fv). unfold os_eval_ver, mbind, mlift. rewrite E. destruct (last_ok (v :: rv)) as [z ->]; [discriminate|].
  assert (Fr : Forall ov_fits (v :: rv)).
  { apply Forall_forall. intros y Iy. rewrite Forall_forall in Fv. apply Fv. exact (in_slice _ _ _ _ _ E Iy). }
  assert (Br : forall y, In y (v :: rv) -> (-1 <= ov_versionSI y < 64)%Z).
  { intros y Iy. pose proof S as (_ & _ & Sv). rewrite Forall_forall in Sv. apply Sv. exact (in_slice _ _ _ _ _ E Iy). }
  rewrite os_ver_loop_search.
  destruct (not_panic (search (vtest T (c_src c)) (v :: rv))) as [[y|] Sy].
  { apply search_ok. eapply Forall_impl; [|exact Fr]. intros y Hy. destruct (vtest_ok (c_src c) y Hy) as [b ->]. discriminate. }
  - rewrite Sy. pose proof (search_in _ _ _ Sy) as [Iy Ty]. rewrite Forall_forall in Fr. destruct (Fr y Iy) as (H1 & H2 & H3).
    assert (Fy : first (ov_applies T (c_src c)) (v :: rv) y) by (apply (search_some (vtest T (c_src c))); [apply vtest_applies|exact Sy]).
    assert (Only : ~ sub_bad (c_src c) y -> forall y', first (ov_applies T (c_src c)) (v :: rv) y' -> ~ sub_bad (c_src c) y').
    { intros N y' Fy'. rewrite (first_unique _ _ _ _ Fy' Fy). exact N. }
    specialize (Br y Iy). unfold os_ver_after. destruct ((0 <=? ov_matchRI y)%Z && negb (ov_versionSI y =? -1)%Z) eqn:C.
    + apply andb_prop in C as [C1 C2]. apply Z.leb_le in C1. destruct (H3 C1) as [re Zr]. rewrite Zr.
      assert (N1 : ov_versionSI y <> (-1)%Z) by (intros X; rewrite X in C2; discriminate).
      unfold vtest, hit in Ty. apply Z.leb_le in C1. rewrite C1, Zr in Ty. apply Z.leb_le in C1. cbn [rbind] in Ty. injection Ty as Ty.
      unfold re_match in Ty. unfold re_groups. destruct (re_find re (c_src c)) as [m|] eqn:F; [|discriminate].
      assert (Fd : finds T (ov_matchRI y) (c_src c) m) by (apply zindex_Ok in Zr as [_ Zr]; split; [exact C1|]; exists re; auto).
      assert (NB : ~ dangling m (ov_versionSI y) -> ~ sub_bad (c_src c) y).
      { intros N (mv & Fv' & Dg). rewrite (finds_fun _ _ _ _ _ Fv' Fd) in Dg. contradiction. }
      cbv zeta. destruct (Z.ltb_spec (ov_versionSI y) (Z.of_nat (length m))) as [Lm|Lm].
      2: { right. split; [|apply Only, NB, not_dangling; lia]. eexists. split; [reflexivity|]. intros X. congruence. }
      destruct (group_cases m (ov_versionSI y) ltac:(lia) Lm) as [[Dg G]|[Dg [g G]]]; rewrite G.
      { left. split; [reflexivity|]. exists y. split; [exact Fy|]. exists m. auto. }
      right. split; [|exact (Only (NB Dg))].
      destruct (negb (fst g =? -1)%Z && negb (snd g =? -1)%Z); eexists; (split; [reflexivity|]); intros X; [|congruence].
      unfold bit in *. cbn in X. congruence.
    + right. split; [eexists; split; [reflexivity|]; intros _; exact H1|]. apply Only. intros (mv & Fd & Dg).
      apply andb_false_iff in C as [C|C]; [destruct Fd as [L _]; lia|]. destruct (Z.eqb_spec (ov_versionSI y) (-1)) as [X|X]; [|discriminate].
      destruct Dg as [Dg _]. lia.
  - rewrite Sy. right. split; [eexists; split; [reflexivity|]; intros X; congruence|].
    intros y Fy. pose proof (search_none (vtest T (c_src c)) _ _ (vtest_applies T (c_src c)) Sy) as N. destruct (first_none _ _ _ Fy N).
Qed.

Lemma os_after_cases x c : In x (or_os T) -> bit flagOSVerBufSrc c = false -> ostest T (c_src c) x = Ok true ->
  (snd (os_after T x c) = Panic /\ os_bad (c_src c) x) \/
  ((exists c', os_after T x c = (c', Ok tt) /\ vgood T c') /\ ~ os_bad (c_src c) x).
Proof.
  intros Ix B Ht. pose proof TF as (_ & Fo & _). rewrite Forall_forall in Fo. destruct (Fo x Ix) as (H1 & H2 & H3 & H4 & V).
  pose proof S as (_ & So & _). rewrite Forall_forall in So. destruct (So x Ix) as [Bn Bv].
  unfold os_after. unfold ostest in Ht. destruct (Z.leb_spec 0 (ot_matchRI x)) as [L|L].
  2: { right. split; [eexists; split; [reflexivity|]; intros X; unfold bit in *; cbn in X; congruence|]. intros (m & [X _] & _). lia. }
  destruct (H4 L) as [re Zr]. rewrite Zr in Ht |- *. cbn [rbind] in Ht. injection Ht as Ht.
  apply andb_prop in Ht as [_ Ht]. unfold re_match in Ht. destruct (re_find re (c_src c)) as [m|] eqn:F; [|discriminate].
  assert (Fd : finds T (ot_matchRI x) (c_src c) m) by (apply zindex_Ok in Zr as [_ Zr]; split; [exact L|]; exists re; auto).
  rewrite os_hit_eq. unfold re_groups. rewrite F. set (c0 := up_osName (ot_name64 x) c).
  assert (E0 : c_src c0 = c_src c /\ bit flagOSVerBufSrc c0 = false) by (split; [reflexivity|exact B]). clearbody c0. destruct E0 as [E0 B0].
  unfold mbind at 1 3.
  destruct (copy_cases m (ot_nameSI x) (fun e c => set_flag flagOSBufSrc (up_osName e c)) c0 Bn) as [[D1 P1]|[D1 (e1 & E1)]].
  { left. destruct (copy_group m (ot_nameSI x) _ c0) as [c1 [[]|]]; [discriminate|]. split; [reflexivity|]. exists m. auto. }
  assert (Q1 : exists c1, copy_group m (ot_nameSI x) (fun e c => set_flag flagOSBufSrc (up_osName e c)) c0 = (c1, Ok tt) /\ c_src c1 = c_src c /\ bit flagOSVerBufSrc c1 = false).
  { destruct E1 as [E1|E1]; rewrite E1; eexists; (split; [reflexivity|]); [auto|]. split; [exact E0|].
    rewrite bit_other by discriminate. exact B0. }
  destruct Q1 as (c1 & -> & E2 & B2). unfold mbind at 1 2.
  destruct (copy_cases m (ot_versionSI x) up_osVersion c1 Bv) as [[D2 P2]|[D2 (e3 & E3)]].
  { left. destruct (copy_group m (ot_versionSI x) _ c1) as [c2 [[]|]]; [discriminate|]. split; [reflexivity|]. exists m. auto. }
  assert (Q2 : exists c2, copy_group m (ot_versionSI x) up_osVersion c1 = (c2, Ok tt) /\ c_src c2 = c_src c /\ bit flagOSVerBufSrc c2 = false).
  { destruct E3 as [E3|E3]; rewrite E3; eexists; (split; [reflexivity|]); [auto|]. split; [exact E2|exact B2]. }
  destruct Q2 as (c2 & -> & E4 & B3).
  destruct (N.eqb_spec (ot_versions64 x) 0) as [Ev|Ev]; cbn [negb].
  - right. split; [eexists; split; [reflexivity|]; intros X; congruence|]. intros (m' & Fd' & Hb). rewrite (finds_fun _ _ _ _ _ Fd' Fd) in Hb.
    destruct Hb as [Hb|[Hb|[Hb _]]]; contradiction.
  - destruct V as [V|(v & rv & V)]; [contradiction|]. pose proof (slice_range _ _ _ V) as Er. fold (subversions T x) in Er.
    destruct (eval_ver_cases (ot_versions64 x) v rv c2 B3 V) as [[P (y & Fy & By)]|[G N]]; rewrite E4, Er in *.
    + left. split; [exact P|]. exists m. split; [exact Fd|]. right. right. split; [exact Ev|]. exists y. auto.
    + right. split; [exact G|]. intros (m' & Fd' & Hb). rewrite (finds_fun _ _ _ _ _ Fd' Fd) in Hb.
      destruct Hb as [Hb|[Hb|[_ (y & Fy & By)]]]; [contradiction|contradiction|]. exact (N y Fy By).
Qed.

Lemma eval_os_cases c : bit flagOSVerBufSrc c = false ->
  (snd (eval_os T c) = Panic /\ exists x, os_is T (c_src c) x /\ os_bad (c_src c) x) \/
  ((exists c' b, eval_os T c = (c', Ok b) /\ vgood T c') /\ forall x, os_is T (c_src c) x -> ~ os_bad (c_src c) x).
Proof.
  intros B. pose proof TF as (Ne & Fo & _).
  assert (Eq : eval_os T c = match search (ostest T (c_src c)) (or_os T) with
    | Ok (Some x) => let (c', r) := os_after T x c in
        match r with
        | Ok _ => ((if negb (ot_version64 x =? 0)%N then mmod (up_osVersion (ot_version64 x)) ;; mmod (set_flag flagOSVerBufSrc) else mret tt) ;; mret true)%m c'
        | Panic => (c', Panic)
        end
    | Ok None => (c, Ok false)
    | Panic => (c, Panic)
    end).
  { unfold eval_os. unfold mbind at 1, mlift. destruct (last_ok _ Ne) as [z ->]. unfold mbind at 1, mget. unfold mbind at 1. rewrite os_loop_search.
    destruct (search (ostest T (c_src c)) (or_os T)) as [[x|]|]; [|reflexivity|reflexivity]. destruct (os_after T x c) as [c1 [[]|]]; reflexivity. }
  rewrite Eq. clear Eq.
  destruct (not_panic (search (ostest T (c_src c)) (or_os T))) as [[x|] Sx].
  { apply search_ok. eapply Forall_impl; [|exact Fo]. intros y Hy. destruct (ostest_ok (c_src c) y Hy) as [b ->]. discriminate. }
  - rewrite Sx. pose proof (search_in _ _ _ Sx) as [Ix Tx].
    assert (Fx : os_is T (c_src c) x) by (apply (search_some (ostest T (c_src c))); [apply ostest_applies|exact Sx]).
    destruct (os_after_cases x c Ix B Tx) as [[P Bx]|[(c1 & E1 & V1) N]].
    + left. destruct (os_after T x c) as [c1 [[]|]]; [discriminate|]. split; [reflexivity|]. exists x. auto.
    + right. rewrite E1. split; [|intros y Fy; rewrite (first_unique _ _ _ _ Fy Fx); exact N].
      rewrite Forall_forall in Fo. unfold mbind, mmod, mret. destruct (negb (ot_version64 x =? 0)%N); eexists; eexists; (split; [reflexivity|]); [|exact V1].
      intros _. apply (Fo x Ix).
  - rewrite Sx. right. split; [eexists; eexists; split; [reflexivity|]; intros X; congruence|].
    intros x Fx. pose proof (search_none (ostest T (c_src c)) _ _ (ostest_applies T (c_src c)) Sx) as N. destruct (first_none _ _ _ Fx N).
Qed.

Variables mC mD h : N.
Variable ua : bytes.
Hypothesis L : small ua.

Lemma os_panics g : In g os_getters -> (alone T mC mD h ua g = Panic <-> exists x, os_is T ua x /\ os_bad ua x).
Proof.
  assert (EF : (snd (os_end T mC mD h ua) = Panic /\ exists x, os_is T ua x /\ os_bad ua x) \/
     ((exists b, snd (os_end T mC mD h ua) = Ok b /\ vgood T (fst (os_end T mC mD h ua))) /\ forall x, os_is T ua x -> ~ os_bad ua x)).
  { unfold os_end. destruct (eval_os_cases (fresh_ctx mC mD h ua) eq_refl) as [H|[(c' & b & E & V) N]]; [left; exact H|right].
    rewrite E. split; [exists b; auto|exact N]. }
  assert (Core : forall g, In g [GOS; GOSVersionString] -> (alone T mC mD h ua g = Panic <-> exists x, os_is T ua x /\ os_bad ua x)).
  { clear g. intros g G. destruct EF as [[E M]|[(b & E & V) N]].
    - split; [intros _; exact M|intros _]. destruct G as [<-|[<-|[]]]; rewrite ?alone_os, ?alone_os_version_string, E; reflexivity.
    - split; [|intros (x & Ox & Bx); destruct (N x Ox Bx)]. intros Q. exfalso. revert Q.
      destruct (os_end_spec T mC mD h ua S L b E) as [Es H]. destruct G as [<-|[<-|[]]].
      + rewrite alone_os, E. destruct b; [|destruct H as [_ Ec]; rewrite Ec; discriminate].
        destruct H as (x & OI & NS & _). rewrite read_os_eq. set (c := fst (os_end T mC mD h ua)) in *.
        change (c_osName (set_flag flagOSDetect c)) with (c_osName c). change (c_src (set_flag flagOSDetect c)) with (c_src c).
        rewrite bit_other by discriminate. rewrite Es. destruct (negb (c_osName c =? 0)%N); [|discriminate].
        destruct NS as [(K & m & w & Fd & G & Tx & _)|(K & En & NG)]; rewrite K.
        * apply text_slice in Tx. rewrite Tx. discriminate.
        * rewrite En. destruct TF as (_ & Fo & _). rewrite Forall_forall in Fo. destruct (Fo x (first_in _ _ _ OI)) as [[s Hs] _].
          unfold slice64. rewrite Hs. discriminate.
      + rewrite alone_os_version_string, E. destruct b; [|destruct H as [_ Ec]; rewrite Ec; discriminate].
        destruct H as (x & OI & _ & VS). rewrite read_os_version_eq. set (c := fst (os_end T mC mD h ua)) in *.
        change (c_osVersion (set_flag flagOSDetect c)) with (c_osVersion c). change (c_src (set_flag flagOSDetect c)) with (c_src c).
        rewrite bit_other by discriminate. rewrite Es. destruct (0 <? c_osVersion c)%N; [|discriminate].
        destruct VS as [(K & w & OV & Tx)|(K & Hc)]; rewrite K.
        * apply text_slice in Tx. rewrite Tx. discriminate.
        * destruct (V K) as [s Hs]. unfold slice64. rewrite Hs. discriminate. }
  intros [<-|[<-|[<-|[]]]]; [apply Core; cbn; auto| |apply Core; cbn; auto].
  rewrite <- (Core GOSVersionString) by (cbn; auto). split.
  - intros Q. destruct (alone T mC mD h ua GOSVersionString) eqn:E; [|reflexivity].
    exfalso. apply (os_version_value T mC mD h ua); [rewrite E; discriminate|exact Q].
  - apply version_panic. reflexivity.
Qed.
End OS.

(** ** Slices of the buffers *)
Lemma interned_fits b s e : buf_ok b -> interned b s e -> fits (b_buf b) e.
Proof. intros Ok I. exists s. exact (Ok _ _ I). Qed.
Lemma optional_fits b s e : buf_ok b -> optional b s e -> fits (b_buf b) e.
Proof. intros Ok [[_ ->]|[_ I]]; [apply fits_zero|exact (interned_fits _ _ _ Ok I)]. Qed.
Lemma refers_fits b v vi v64 : buf_ok b -> refers b v vi v64 -> fits (b_buf b) v64.
Proof. intros Ok [(_ & _ & ->)|[(_ & _ & I)|(_ & _ & ->)]]; [apply fits_zero|exact (interned_fits _ _ _ Ok I)|apply fits_zero]. Qed.
Lemma matches_fits K repl b res rs ri m64 : buf_ok b -> matches K repl b res rs ri m64 -> (ri < 0)%Z -> fits (b_buf b) m64.
Proof.
  intros Ok [(_ & _ & I)|[(_ & _ & L & _)|(_ & _ & _ & ->)]] N; [exact (interned_fits _ _ _ Ok I)|lia|apply fits_zero].
Qed.
Lemma matches_index K repl b res rs ri m64 (f : bytes -> regex) : matches K repl b res rs ri m64 -> (0 <= ri)%Z ->
  exists r, zindex (map f res) ri = Ok r.
Proof.
  intros [(_ & -> & _)|[(_ & _ & L & N)|(_ & _ & -> & _)]] G; [lia| |lia].
  exists (f (chosen repl rs)). apply zindex_Ok. split; [exact G|]. exact (map_nth_error f _ _ N).
Qed.
Lemma refers_dangling b v vi v64 m : refers b v vi v64 -> (dangling m vi <-> exists n, group_ref v n /\ dangling m n).
Proof.
  intros R. split.
  - intros Dg. exists vi. split; [|exact Dg]. apply (refers_group _ _ _ _ R). destruct Dg as [Dg _]. lia.
  - intros (n & G & Dg). destruct R as [(E & _)|[((_ & E) & _)|(G' & _)]].
    + destruct G as (d & E2 & _). congruence.
    + destruct G as (d & E2 & _). contradiction (E d).
    + rewrite (group_ref_fun _ _ _ G' G). exact Dg.
Qed.

(** ** Operating systems: databases *)
Section DbOS.
Variables (K : compiler) (D : database) (T : tables) (o : otables).
Hypothesis OF : os_facts K D T o.
Hypothesis PR : Forall os_proper (db_os D).
Hypothesis NE : db_os D <> [].
Let okb : buf_ok (o_buf o) := proj1 (of_ok _ _ _ _ OF).

Lemma built_os_fits : os_table_fits T.
Proof.
  split; [|split].
  - intros E. pose proof (of_os _ _ _ _ OF) as F. rewrite E in F. inversion F. congruence.
  - apply Forall_forall. intros x Ix. destruct (Forall2_In_r _ _ _ _ (of_os _ _ _ _ OF) Ix) as (y & _ & R & M & V).
    unfold os_fits. rewrite (of_buf _ _ _ _ OF), (of_re _ _ _ _ OF), (of_ov _ _ _ _ OF).
    split; [exact (refers_fits _ _ _ _ okb R)|]. split.
    { destruct V as [(_ & R' & _)|(_ & _ & -> & _)]; [exact (refers_fits _ _ _ _ okb R')|apply fits_zero]. }
    split; [exact (matches_fits _ _ _ _ _ _ _ okb M)|]. split; [exact (matches_index _ _ _ _ _ _ _ _ M)|].
    destruct V as [(_ & _ & Z)|(Nv & _ & _ & _ & l & Sl & F2)]; [left; exact Z|right].
    destruct F2 as [|w v ws vs _ _]; [contradiction|]. exists v, vs. exact Sl.
  - rewrite (of_ov _ _ _ _ OF). eapply Forall_impl; [|exact (proj2 (of_ok _ _ _ _ OF))]. intros v (y & M & R).
    unfold ov_fits. rewrite (of_buf _ _ _ _ OF), (of_re _ _ _ _ OF).
    split; [exact (refers_fits _ _ _ _ okb R)|]. split; [exact (matches_fits _ _ _ _ _ _ _ okb M)|exact (matches_index _ _ _ _ _ _ _ _ M)].
Qed.
Lemma ver_iff ua w v : ov_means K o w v -> (ver_hit K ua w <-> ov_applies T ua v).
Proof.
  intros [Mw _]. unfold ver_hit, ov_applies. rewrite (of_re _ _ _ _ OF), (of_buf _ _ _ _ OF).
  symmetry. apply (matches_applies K nofall ci _ _ _ _ _ ua okb Mw).
Qed.
Lemma bad_iff ua y x : os_means K o y x -> (os_bad T ua x <-> os_trouble K ua y).
Proof.
  intros (R & M & V). pose proof (fun m => finds_down K D T o OF (k_os K) _ _ _ ua m M) as FD. split.
  - intros (m & F & [Dg|[Dg|[N64 (v & Fv & mv & Fm & Dg)]]]); apply FD in F.
    + apply (refers_dangling _ _ _ _ _ R) in Dg as (n & G & Dg). exact (OT_name _ _ _ m n F G Dg).
    + destruct V as [(Ev & R' & _)|(_ & E & _)].
      * apply (refers_dangling _ _ _ _ _ R') in Dg as (n & G & Dg). exact (OT_version _ _ _ m n F Ev G Dg).
      * rewrite E in Dg. destruct Dg as [Dg _]. lia.
    + destruct V as [(_ & _ & Z)|(Nv & _ & _ & _ & l & Sl & F2)]; [contradiction|].
      rewrite <- (of_ov _ _ _ _ OF) in Sl. apply (slice_range (or_ov T) (ot_versions64 x)) in Sl. unfold subversions in Fv. rewrite <- Sl in Fv.
      destruct (first_backward (ov_means K o) (ver_hit K ua) (ov_applies T ua) _ _ F2 (fun w v _ _ => ver_iff ua w v) _ Fv) as (w & Fw & Mw & Rw).
      apply (finds_down K D T o OF _ _ _ _ _ _ Mw) in Fm. apply (refers_dangling _ _ _ _ _ Rw) in Dg as (n & G & Dg).
      exact (OT_list _ _ _ m w mv n F Nv Fw Fm G Dg).
  - intros [m n F G Dg|m n F Ev G Dg|m w mv n F Nv Fw Fm G Dg]; apply FD in F; exists m; (split; [exact F|]).
    + left. apply (refers_dangling _ _ _ _ _ R). exists n. auto.
    + right. left. destruct V as [(_ & R' & _)|(Nv & _)]; [|contradiction]. apply (refers_dangling _ _ _ _ _ R'). exists n. auto.
    + right. right. destruct V as [(Ev & _)|(_ & _ & _ & N64 & l & Sl & F2)]; [contradiction|]. split; [exact N64|].
      rewrite <- (of_ov _ _ _ _ OF) in Sl. apply (slice_range (or_ov T) (ot_versions64 x)) in Sl. unfold subversions. rewrite <- Sl.
      destruct (first_forward (ov_means K o) (ver_hit K ua) (ov_applies T ua) _ _ F2 (fun w v _ _ => ver_iff ua w v) _ Fw) as (v & Fv & Mw & Rw).
      exists v. split; [exact Fv|]. exists mv. split; [apply (finds_down K D T o OF _ _ _ _ _ _ Mw); exact Fm|].
      apply (refers_dangling _ _ _ _ _ Rw). exists n. auto.
Qed.
Lemma os_panic_db mC mD h ua g : small ua -> In g os_getters ->
  (alone T mC mD h ua g = Panic <-> exists y, db_os_is K D ua y /\ os_trouble K ua y).
Proof.
  intros L G. rewrite (os_panics T (built_os_sane K D T o OF) built_os_fits mC mD h ua L g G). split.
  - intros (x & Ox & Bx). destruct (os_is_down K D T o OF ua x Ox) as (y & Oy & M). exists y. split; [exact Oy|]. apply (bad_iff ua y x M). exact Bx.
  - intros (y & Oy & By). destruct (os_is_up K D T o OF ua y Oy) as (x & Ox & M). exists x. split; [exact Ox|]. apply (bad_iff ua y x M). exact By.
Qed.
End DbOS.

(** ** Clients *)
Lemma hint_table_fits K D : fits_32 (hr_buf (built K D)) -> Forall (fun p => fits (hr_buf (built K D)) (snd p)) (hr_idx (built K D)).
Proof.
  intros F.
  assert (I0 : hinv [] (mkH buf_empty [] [] [])).
  { split; [split; constructor|]. split; intros k; (split; [intros []|intros (f & v & [] & _)]). }
  destruct (hint_files_spec (db_hint D) [] _ I0) as (((N & G) & U & _) & _ & Kb).
  assert (Ei : hr_idx (built K D) = h_idx (fold_left (fun h f => hint_file f h) (db_hint D) (mkH buf_empty [] [] []))) by reflexivity.
  assert (Eb : hr_buf (built K D) = b_buf (h_buf (fold_left (fun h f => hint_file f h) (db_hint D) (mkH buf_empty [] [] [])))) by reflexivity.
  cbn [app] in *. set (h := fold_left (fun h f => hint_file f h) (db_hint D) (mkH buf_empty [] [] [])) in *. clearbody h.
  specialize (Kb buf_empty_ok). unfold bfit in Kb. unfold fits_32 in F. rewrite Eb in F. specialize (Kb F).
  rewrite Ei, Eb. apply Forall_forall. intros p Ip. destruct (Forall2_In_r _ _ _ _ G Ip) as (k & _ & _ & v & _ & I).
  exact (interned_fits _ _ _ Kb I).
Qed.

Section DbClient.
Variables (K : compiler) (D : database) (T : tables) (k : ktables).
Hypothesis CF : client_facts K D T k.
Hypothesis FL : client_files D.
Hypothesis PR : Forall (Forall client_proper) (db_client D).
Hypothesis TE : tidy_engines D.
Hypothesis HF : Forall (fun p => fits (hr_buf T) (snd p)) (hr_idx T).
Let okb : buf_ok (k_buf k) := cf_ok _ _ _ _ CF.

Lemma built_client_fine : client_table_fine T.
Proof.
  destruct FL as [L7 NF]. pose proof (cf_idx _ _ _ _ CF) as F.
  assert (Ln : forall A B (R : A -> B -> Prop) l xs, Forall2 R l xs -> length xs = length l) by (induction 1; cbn [length]; congruence).
  split; [rewrite (Ln _ _ _ _ _ F); exact L7|]. split; [|split; [|split; [|exact HF]]].
  - apply Forall_forall. intros ir Ir. destruct (Forall2_In_r _ _ _ _ F Ir) as (f & If & Ff). split.
    + intros ->. rewrite Forall_forall in NF. apply (NF f If). inversion Ff. reflexivity.
    + apply Forall_forall. intros x Ix. destruct (Forall2_In_r _ _ _ _ Ff Ix) as (y & Iy & M & O & R & E).
      rewrite Forall_forall in PR. pose proof (PR f If) as Pf. rewrite Forall_forall in Pf. destruct (Pf y Iy) as [_ Py].
      unfold client_fine, fn_fine. rewrite (cf_re _ _ _ _ CF), (cf_buf _ _ _ _ CF), (cf_ef _ _ _ _ CF).
      split; [exact (matches_index _ _ _ _ _ _ _ _ M)|]. split; [exact (matches_fits _ _ _ _ _ _ _ okb M)|].
      split; [exact (optional_fits _ _ _ okb O)|]. destruct (yc_engine y) as [e|]; cbn [engine_means] in E.
      2: { destruct E as [-> ->]. split; [apply fits_zero|]. split; [exact (refers_fits _ _ _ _ okb R)|]. left. reflexivity. }
      destruct E as (Oe & _ & _ & E). split; [exact (optional_fits _ _ _ okb Oe)|]. split; [exact (refers_fits _ _ _ _ okb R)|].
      destruct E as [[_ ->]|(Nv & Fi & r & Nr & Rm)]; [left; reflexivity|right]. destruct (Py e eq_refl Nv) as (NC & _). split.
      { destruct R as [(_ & _ & Z)|[(C & _)|(_ & _ & Z)]]; [exact Z|contradiction|exact Z]. }
      exists (r, ct_engine64 x). split; [apply zindex_Ok; auto|]. split; [|exact (optional_fits _ _ _ okb Oe)].
      apply Forall_forall. intros p Ip. destruct (Forall2_In_r _ _ _ _ Rm Ip) as (ve & _ & _ & I). exact (interned_fits _ _ _ okb I).
  - eapply Forall_impl; [|exact (cf_ev _ _ _ _ CF)]. intros p B. apply zindex_some. exact B.
  - rewrite (cf_evre _ _ _ _ CF). apply Forall_forall. intros r Ir. apply in_map_iff in Ir as (en & <- & Ie). apply (cf_known _ _ _ _ CF) in Ie.
    intros s m Fm. destruct (TE en s m Ie Fm) as (w & a & b & -> & _ & N1 & N2). change (2 * Z.to_nat 1) with 2 in N1. change (2 * Z.to_nat 1 + 1) with 3 in N2.
    eexists. eexists. split; [exact N1|]. split; [exact N2|]. rewrite !app_length. lia.
Qed.
Lemma missing_trouble ua y x : client_means K k y x -> (missing_group T ua x <-> client_trouble K ua y).
Proof.
  intros (M & _ & R & _). pose proof (fun m => matches_finds K (k_client K) client_re _ _ _ _ _ ua m M) as MF.
  unfold missing_group, client_trouble. rewrite (cf_re _ _ _ _ CF). split.
  - intros (r & m & L & Z & N & Fm & B1 & B2). assert (Dg : dangling m (ct_browserVI x)) by (split; assumption).
    apply (refers_dangling _ _ _ _ _ R) in Dg as (n & G & Dg). exists m, n. split; [|auto]. apply MF. split; [exact L|]. exists r. auto.
  - intros (m & n & Fm & G & Dg). apply MF in Fm as (L & r & N & Fm). exists r, m. split; [exact L|].
    assert (Dg' : dangling m (ct_browserVI x)) by (apply (refers_dangling _ _ _ _ _ R); exists n; auto). split.
    + destruct R as [(_ & _ & Z)|[(C & E & _)|(_ & _ & Z)]]; [exact Z| |exact Z]. rewrite E in Dg'. destruct Dg' as [Dg' _]. lia.
    + destruct Dg' as [B1 B2]. auto.
Qed.
Lemma client_panic_db mC mD h ua g : small ua -> In g client_getters ->
  (alone T mC mD h ua g = Panic <-> exists t idx y, db_client_is K D mC ua t idx y /\ client_trouble K ua y).
Proof.
  intros L G. destruct FL as [L7 _].
  rewrite (client_panics T (built_client_sane K D T k CF) built_client_fine mC mD h ua L g G). split.
  - intros (t & idx & x & Cx & Mx). destruct (is_down K D T k CF L7 PR _ _ _ _ _ Cx) as (y & Cy & M & _). exists t, idx, y.
    split; [exact Cy|]. apply (missing_trouble ua y x M). exact Mx.
  - intros (t & idx & y & Cy & Ty). destruct (is_up K D T k CF L7 _ _ _ _ _ Cy) as (x & Cx & M). exists t, idx, x.
    split; [exact Cx|]. apply (missing_trouble ua y x M). exact Ty.
Qed.
End DbClient.

(** ** Devices: tables *)
Section Device.
Variable T : tables.
Hypothesis SR : Forall sane_regex (dr_re T).
Hypothesis TF : dev_table_fine T.

Lemma hit_speaks mask ua b idx def ir x : on mask b -> nth_error (dr_idx T) idx = Some ir -> first (device_applies T ua) ir x ->
  ~ device_silent T mask ua (b, idx, def).
Proof.
  intros O N (l1 & l2 & E & Hx & _) S. destruct (S O) as (ir' & N' & No). cbn [fst snd] in N'. rewrite N in N'. injection N' as <-.
  apply (No x); [|exact Hx]. rewrite E. apply in_or_app. right. left. reflexivity.
Qed.
Lemma body_reach idx b def c : idx < 8 -> on (c_maskD c) b ->
  (exists c' t, eval_device_body T idx def c = (c', Ok (Some t)) /\ ~ device_silent T (c_maskD c) (c_src c) (b, idx, def)) \/
  (eval_device_body T idx def c = (c, Ok None) /\ device_silent T (c_maskD c) (c_src c) (b, idx, def)).
Proof.
  intros I O. destruct (body_fine T SR TF idx def c I) as [(c' & t & E)|E]; [left; exists c', t|right]; (split; [exact E|]);
    rewrite body_spec in E; destruct (index (dr_idx T) (N.of_nat idx)) as [ir|] eqn:Ei; try discriminate;
    apply index_nth in Ei; rewrite Nat2N.id in Ei; destruct (zindex ir _) as [?|]; try discriminate;
    destruct (search (dtest T (c_src c)) ir) as [[x|]|] eqn:Sr; try discriminate.
  - apply first_test in Sr as [Fx _]. exact (hit_speaks _ _ b idx def ir x O Ei Fx).
  - destruct (device_hit T x def c) as [c1 [t|]]; discriminate.
  - intros _. exists ir. split; [exact Ei|]. exact (search_none (dtest T (c_src c)) _ _ (dtest_applies T (c_src c)) Sr).
Qed.
Lemma try_reach rest c : forall l, Forall (fun k => snd (fst k) < 8 /\ snd (fst k) <> dpNotebook) l ->
  (exists c' b, run_cold (device_try T (l ++ rest) c) = (c', Ok b) /\ ~ Forall (device_silent T (c_maskD c) (c_src c)) l) \/
  (run_cold (device_try T (l ++ rest) c) = run_cold (device_try T rest c) /\ Forall (device_silent T (c_maskD c) (c_src c)) l).
Proof.
  induction 1 as [|[[bt idx] def] l [Hi Hn] Hl IH]; [right; split; [reflexivity|constructor]|]. cbn [app]. rewrite try_cons. cbn [fst snd] in Hi, Hn.
  destruct (negb (N.land (c_maskD c) bt =? 0)%N) eqn:On.
  - apply land_on in On. rewrite eval_device_cold. destruct (body_reach idx bt def c Hi On) as [(c' & t & -> & Ns)|(-> & Si)].
    + left. exists (up_deviceType t c'), true. split; [reflexivity|]. intros F. apply Forall_cons_iff in F as [F _]. contradiction.
    + unfold force_desktop. apply Nat.eqb_neq in Hn. rewrite Hn. cbn [pret run_cold].
      destruct IH as [(c' & b & E & Ns)|(E & Fl)]; [left; exists c', b; split; [exact E|]; intros F; apply Forall_cons_iff in F as [_ F]; contradiction|].
      right. split; [exact E|constructor; assumption].
  - assert (Si : device_silent T (c_maskD c) (c_src c) (bt, idx, def)).
    { intros O. apply land_on in O. cbn [fst] in O. congruence. }
    destruct IH as [(c' & b & E & Ns)|(E & Fl)]; [left; exists c', b; split; [exact E|]; intros F; apply Forall_cons_iff in F as [_ F]; contradiction|].
    right. split; [exact E|constructor; assumption].
Qed.
Lemma notebook_reach c :
  let s := device_silent T (c_maskD c) (c_src c) (1%N, dpNotebook, 1%N) in
  let r := run_cold (device_try T [(1%N, dpNotebook, 1%N)] c) in
  (exists c' b, r = (c', Ok b) /\ ~ (s /\ on (c_maskD c) 1)) \/
  (s /\ on (c_maskD c) 1 /\ (snd r = Panic <-> snd (run_cold (get_os T c)) = Panic)).
Proof.
  cbn zeta. rewrite try_cons. destruct (negb (N.land (c_maskD c) 1 =? 0)%N) eqn:On.
  - apply land_on in On. rewrite eval_device_cold.
    destruct (body_reach dpNotebook 1 1 c ltac:(unfold dpNotebook; lia) On) as [(c' & t & -> & Ns)|(-> & Si)].
    + left. exists (up_deviceType t c'), true. split; [reflexivity|tauto].
    + right. split; [exact Si|]. split; [exact On|]. unfold force_desktop. change (dpNotebook =? dpNotebook) with true. unfold pbind. rewrite run_cold_bind.
      destruct (run_cold (get_os T c)) as [c1 [os|]]; [|split; reflexivity]. cbn [snd]. split; [|discriminate].
      destruct (in_list os desktopOS); discriminate.
  - left. exists c, false. split; [reflexivity|]. intros [_ O]. apply land_on in O. congruence.
Qed.

Variables mC mD h : N.
Variable ua : bytes.
Lemma dev_end_panic : snd (dev_end T mC mD h ua) = Panic <-> no_device T mD ua /\ on mD 1 /\ alone T mC mD h ua GOS = Panic.
Proof.
  set (c0 := fresh_ctx mC mD h ua).
  assert (G : snd (run_cold (get_os T c0)) = Panic <-> alone T mC mD h ua GOS = Panic).
  { unfold alone, run_getter. rewrite run_cold_pmap. fold c0. destruct (snd (run_cold (get_os T c0))); split; try discriminate; reflexivity. }
  assert (E0 : dev_end T mC mD h ua = match run_cold (device_try T (firstn 7 device_classes ++ [(1%N, dpNotebook, 1%N)]) c0) with
    | (c1, Ok ok) => if ok then (c1, Ok true) else device_fallback T c1 | (c1, Panic) => (c1, Panic) end).
  { change (firstn 7 device_classes ++ [(1%N, dpNotebook, 1%N)]) with device_classes. unfold dev_end, device_body, pbind. rewrite run_cold_bind. fold c0.
    destruct (run_cold (device_try T device_classes c0)) as [c1 [[]|]]; reflexivity. }
  assert (E1 : snd (dev_end T mC mD h ua) = Panic <-> snd (run_cold (device_try T (firstn 7 device_classes ++ [(1%N, dpNotebook, 1%N)]) c0)) = Panic).
  { rewrite E0. destruct (run_cold (device_try _ _ _)) as [c1 [[]|]]; cbn [snd]; try (split; [discriminate|discriminate]); [|split; reflexivity].
    destruct (fallback_fine T TF c1) as (c2 & b & ->). split; discriminate. }
  rewrite E1. clear E0 E1.
  assert (No : no_device T mD ua <-> Forall (device_silent T mD ua) (firstn 7 device_classes) /\ device_silent T mD ua (1%N, dpNotebook, 1%N)).
  { change (Forall (device_silent T mD ua) (firstn 7 device_classes ++ [(1%N, dpNotebook, 1%N)]) <-> Forall (device_silent T mD ua) (firstn 7 device_classes) /\ device_silent T mD ua (1%N, dpNotebook, 1%N)).
    rewrite Forall_app. split; intros [A B]; (split; [exact A|]); [apply Forall_cons_iff in B as [B _]; exact B|constructor; [exact B|constructor]]. }
  rewrite No. clear No. change (c_maskD c0) with mD in *.
  destruct (try_reach [(1%N, dpNotebook, 1%N)] c0 (firstn 7 device_classes)) as [(c' & b & -> & Ns)|(-> & Fs)].
  { repeat constructor; cbn; discriminate. }
  - change (c_maskD c0) with mD in Ns. change (c_src c0) with ua in Ns. cbn [snd]. split; [discriminate|tauto].
  - change (c_maskD c0) with mD in Fs. change (c_src c0) with ua in Fs.
    pose proof (notebook_reach c0) as R. cbn zeta in R. change (c_maskD c0) with mD in R. change (c_src c0) with ua in R.
    destruct R as [(c' & b & -> & Ns)|(Si & On & R)]; [cbn [snd]; split; [discriminate|tauto]|]. rewrite R, G. tauto.
Qed.
Lemma device_panics g : device_sane T -> short ua -> In g device_getters ->
  (alone T mC mD h ua g = Panic <-> no_device T mD ua /\ on mD 1 /\ alone T mC mD h ua GOS = Panic).
Proof.
  intros DS L I. rewrite <- dev_end_panic. destruct (snd (dev_end T mC mD h ua)) as [b|] eqn:E.
  - assert (En : dev_ends T mC mD h ua) by (exists b; exact E). split; [|discriminate]. intros P. exfalso. revert P.
    destruct I as [<-|[<-|[<-|[]]]]; [exact (device_type_reads T mC mD h ua En)|exact (brand_reads T TF mC mD h ua DS L En)|exact (model_reads T mC mD h ua DS L En)].
  - split; [reflexivity|]. intros _. destruct I as [<-|[<-|[<-|[]]]]; [rewrite alone_device_type|rewrite alone_brand|rewrite alone_model]; rewrite E; reflexivity.
Qed.
End Device.

(** ** Devices: databases *)
Lemma slice_bound {A} (l : list A) lo hi r : slice l lo hi = Ok r -> (hi <= N.of_nat (length l))%N.
Proof. unfold slice. destruct ((lo <=? hi)%N && (hi <=? N.of_nat (length l))%N) eqn:E; [|discriminate]. intros _. apply andb_true_iff in E as [_ E]. lia. Qed.
Lemma vendor_fits K D : fits_32 (vr_buf (built K D)) -> fits_32 (vr_re (built K D)) ->
  Forall (fun v => fits (vr_buf (built K D)) (vt_brand64 v) /\ (snd (e_decode (vt_range64 v)) <= N.of_nat (length (vr_re (built K D))))%N) (vr_idx (built K D)).
Proof.
  intros F1 F2. unfold built in *. cbn [vr_buf vr_re vr_idx] in *. unfold compile_vendor in *.
  pose proof (vendor_all (sort_keys (db_vendor D)) (buf_empty, []) buf_empty_ok) as S.
  destruct (compile_entries compile_vendor1 (sort_keys (db_vendor D)) (buf_empty, [])) as [idx [b re]]. cbn [fst snd vo_buf vo_re vo_idx] in *.
  unfold fits_32 in F2. rewrite map_length in F2. destruct (S (conj F1 F2)) as [Ok M]. apply Forall_forall. intros x I.
  destruct (Forall2_In_r _ _ _ _ M I) as (y & _ & M1 & M2). split; [exact (interned_fits _ _ _ Ok M1)|].
  rewrite map_length. exact (slice_bound _ _ _ _ M2).
Qed.
Section DbDevice.
Variables (K : compiler) (D : database) (T : tables) (d : dtables).
Hypothesis DF : device_facts K D T d.
Hypothesis GD : dok K tidy_template d.
Hypothesis FL : device_files D.
Hypothesis PR : Forall (Forall brand_proper) (db_device D).
Hypothesis VF : Forall (fun v => fits (vr_buf T) (vt_brand64 v) /\ (snd (e_decode (vt_range64 v)) <= N.of_nat (length (vr_re T)))%N) (vr_idx T).
Let okb : buf_ok (d_buf d) := proj1 (df_ok _ _ _ _ DF).

Lemma models_index x ys : (exists l, slice (d_dm d) (dt_models64 x / two32)%N (dt_models64 x mod two32)%N = Ok l /\ Forall2 (model_means K d) ys l) ->
  (snd (e_decode (dt_models64 x)) <= N.of_nat (length (d_dm d)))%N.
Proof. intros (l & S & _). exact (slice_bound _ _ _ _ S). Qed.
Lemma built_dev_fine : dev_table_fine T.
Proof.
  split; [|split; [|split; [|exact VF]]].
  - rewrite <- (proj1 FL). symmetry. generalize (df_idx _ _ _ _ DF). generalize (db_device D) (dr_idx T). induction 1 as [|? ? ? ? _ _ IH]; [reflexivity|]. cbn [length]. f_equal. exact IH.
  - apply Forall_forall. intros ir I. destruct (Forall2_In_r _ _ _ _ (df_idx _ _ _ _ DF) I) as (f & If & M). split.
    + intros ->. inversion M as [E|]. pose proof (proj2 FL) as F. rewrite Forall_forall in F. apply (F f If).
      pose proof (sort_perm f) as Sp. rewrite <- E in Sp. destruct f as [|z f]; [reflexivity|]. destruct (Permutation_in z (Permutation_sym Sp) (or_introl eq_refl)).
    + apply Forall_forall. intros x Ix. destruct (Forall2_In_r _ _ _ _ M Ix) as (y & _ & B1 & B2 & B3 & B4).
      unfold dev_fine. rewrite (df_buf _ _ _ _ DF), (df_re _ _ _ _ DF), (df_dm _ _ _ _ DF).
      split; [exact (interned_fits _ _ _ okb B2)|]. split; [exact (interned_fits _ _ _ okb B1)|]. split; [|split; [|split]].
      * destruct B3 as [(_ & E & _)|(_ & B3)]; [left; exact E|]. destruct (Z_lt_ge_dec (dt_matchRI x) 0) as [N|P].
        { left. destruct B3 as [(_ & E & _)|[(_ & _ & P & _)|(_ & _ & E & _)]]; [exact E|lia|exact E]. }
        right. apply (matches_index _ _ _ _ _ _ _ _ B3). lia.
      * destruct B3 as [(_ & _ & B3)|(_ & B3)]; [intros _; exact (interned_fits _ _ _ okb B3)|exact (matches_fits _ _ _ _ _ _ _ okb B3)].
      * destruct B4 as [(_ & _ & E & _)|[(_ & _ & P & _ & m & Nm & _)|(_ & E & _)]]; [left; exact E|right|left; exact E].
        exists m. apply zindex_Ok. split; [exact P|exact Nm].
      * destruct B4 as [(_ & _ & _ & E)|[(_ & _ & _ & E & _)|(_ & _ & _ & B4)]]; [rewrite E; cbn; lia|rewrite E; cbn; lia|exact (models_index _ _ B4)].
  - rewrite (df_dm _ _ _ _ DF). eapply Forall_impl; [|exact (proj2 GD)]. intros m (t & I & _ & Ti & H).
    unfold model_fine. rewrite (df_buf _ _ _ _ DF), (df_re _ _ _ _ DF).
    assert (It : exists tpl, slice64 (b_buf (d_buf d)) (mt_model64 m) = Ok tpl /\ no_dollar_end tpl).
    { exists t. split; [apply text_slice; exact (interned_text _ _ _ okb I)|exact Ti]. }
    destruct H as [(y & (M1 & M2 & M3) & _)|(E1 & E2 & E3)].
    + split; [exact (interned_fits _ _ _ okb M2)|]. split; [exact It|]. split; [exact (matches_index _ _ _ _ _ _ _ _ M1)|exact (matches_fits _ _ _ _ _ _ _ okb M1)].
    + rewrite E1, E2, E3. split; [apply fits_zero|]. split; [exact It|]. split; [lia|]. intros _. apply fits_zero.
Qed.
Lemma dev_silent_up mask ua k : db_device_silent K D mask ua k -> device_silent T mask ua k.
Proof.
  intros H O. destruct (H O) as (l & (f & Nf & Pl & _) & No).
  destruct (proj2 (Forall2_nth _ _ _ (df_idx _ _ _ _ DF) (snd (fst k))) _ Nf) as (ir & N & F). exists ir. split; [exact N|].
  apply (none_iff (brand_means K d) (brand_hit K ua) (device_applies T ua) _ _ F (fun y x _ _ M => brand_iff K D T d DF (proj1 FL) ua y x M)).
  intros y I. apply No. apply (Permutation_in y Pl). exact (Permutation_in y (sort_perm f) I).
Qed.
Lemma no_device_iff mask ua : no_device T mask ua <-> db_no_device K D mask ua.
Proof. split; [exact (no_device_down K D T d DF (proj1 FL) mask ua)|]. apply Forall_impl. intros k. apply dev_silent_up. Qed.
Lemma device_panic_db mC mD h ua g : short ua -> In g device_getters ->
  (alone T mC mD h ua g = Panic <-> db_no_device K D mD ua /\ on mD 1 /\ alone T mC mD h ua GOS = Panic).
Proof.
  intros L I. rewrite <- no_device_iff. pose proof (built_device_sane K D T d DF) as DS.
  exact (device_panics T (proj1 DS) built_dev_fine mC mD h ua g DS L I).
Qed.
End DbDevice.

(** ** Together *)
Section Together.
Variables (K : compiler) (D : database).
Notation T := (built K D).
Lemma panic_clients mC mD h ua g : client_files D -> Forall (Forall client_proper) (db_client D) -> tidy_engines D -> built_small T -> small ua ->
  In g client_getters -> (alone T mC mD h ua g = Panic <-> exists t idx y, db_client_is K D mC ua t idx y /\ client_trouble K ua y).
Proof.
  intros FL PR TE (B1 & _ & _ & _ & _ & _ & _ & B8) L G.
  assert (P1 : Forall (Forall proper1) (db_client D)).
  { revert PR. apply Forall_impl. intros f. apply Forall_impl. intros y [P _]. exact P. }
  destruct (client_built K D P1 B1) as [k CF].
  exact (client_panic_db K D T k CF FL PR TE (hint_table_fits K D B8) mC mD h ua g L G).
Qed.
Lemma panic_systems mC mD h ua g : db_os D <> [] -> Forall os_proper (db_os D) -> built_small T -> small ua ->
  In g os_getters -> (alone T mC mD h ua g = Panic <-> exists y, db_os_is K D ua y /\ os_trouble K ua y).
Proof.
  intros NE PR (_ & B2 & B3 & _) L G. destruct (os_built K D PR B2 B3) as [o OF].
  exact (os_panic_db K D T o OF NE mC mD h ua g L G).
Qed.
Lemma panic_devices mC mD h ua g : device_files D -> Forall (Forall brand_proper) (db_device D) -> Forall (Forall tidy_brand) (db_device D) ->
  db_os D <> [] -> Forall os_proper (db_os D) -> built_small T -> short ua -> In g device_getters ->
  (alone T mC mD h ua g = Panic <->
   db_no_device K D mD ua /\ on mD 1 /\ exists y, db_os_is K D ua y /\ os_trouble K ua y).
Proof.
  intros FL PR TB NE PO B L G.
  assert (Ls : small ua) by (unfold small, short in *; lia).
  assert (Go : In GOS os_getters) by (left; reflexivity).
  rewrite <- (panic_systems mC mD h ua GOS NE PO B Ls Go).
  destruct B as (_ & _ & _ & B4 & B5 & B6 & B7 & _).
  destruct (device_built_good K D tidy_template) as (d & DF & GD); [|exact B4|exact B5|].
  - rewrite Forall_forall in *. intros f If. specialize (PR f If). specialize (TB f If). rewrite Forall_forall in *. intros x Ix.
    split; [exact (PR x Ix)|exact (TB x Ix)].
  - exact (device_panic_db K D T d DF GD FL (vendor_fits K D B6 B7) mC mD h ua g L G).
Qed.
End Together.

(** Without operating systems every detection of one panics. *)
Lemma no_systems K D mC mD h ua g : db_os D = [] -> In g os_getters -> alone (built K D) mC mD h ua g = Panic.
Proof.
  intros E I. assert (Eo : or_os (built K D) = []) by (unfold built; rewrite E; reflexivity).
  revert Eo. generalize (built K D) as T. intros T Eo.
  assert (Ev : forall c, eval_os T c = (c, Panic)).
  { intros c. unfold eval_os. rewrite Eo. reflexivity. }
  assert (En : snd (os_end T mC mD h ua) = Panic) by (unfold os_end; rewrite Ev; reflexivity).
  assert (Es : alone T mC mD h ua GOSVersionString = Panic) by (rewrite alone_os_version_string, En; reflexivity).
  destruct I as [<-|[<-|[<-|[]]]]; [rewrite alone_os, En; reflexivity| |exact Es]. revert Es. apply version_panic. reflexivity.
Qed.

(** ** Checks for examples *)
Lemma group_captured r : always_group 1 r -> forall ua m, re_find r ua = Some m -> exists s, captured m 1 ua s.
Proof.
  intros A ua m F. destruct (A ua m F) as (lo & hi & N1 & N2 & B1 & B2). exists (firstn (Z.to_nat hi - Z.to_nat lo) (skipn (Z.to_nat lo) ua)).
  exists (firstn (Z.to_nat lo) ua), (skipn (Z.to_nat hi - Z.to_nat lo) (skipn (Z.to_nat lo) ua)).
  split; [rewrite firstn_skipn, firstn_skipn; reflexivity|]. split; [lia|].
  change (2 * Z.to_nat 1) with (2 * 1). change (2 * Z.to_nat 1 + 1) with (2 * 1 + 1). rewrite N1, N2, ?firstn_length, ?skipn_length. split; f_equal; lia.
Qed.
Definition tidy_engineb (en : bytes) : bool :=
  match parse_re (bs "(?i)" ++
    if beqs en (bs "Gecko") then bs "[ ](?:rv[: ]([0-9\.]+)).*gecko/[0-9.]+"
    else (if beqs en (bs "Blink") then bs "Chrome" else en) ++ bs "\s*[/\s]\s*(\d+(?:.\d+)+)") with
  | Some (a, ng) => (1 <=? ng) && always_sets 1 a
  | None => false
  end.
Lemma tidy_engineb_ok en : tidy_engineb en = true -> always_group 1 (engine_regex en).
Proof.
  unfold tidy_engineb, engine_regex. set (p := _ ++ _). destruct (parse_re p) as [[a ng]|] eqn:P; [|discriminate].
  intros H. apply andb_prop in H as [H1 H2]. apply (always_compiled 1 p a ng P); [apply Nat.leb_le; exact H1|exact H2].
Qed.
Definition engines_of (y : yclient) : list bytes := match yc_engine y with Some e => ye_default e :: map snd (ye_versions e) | None => [] end.
Definition tidy_enginesb (D : database) : bool :=
  forallb (forallb (fun y => forallb (fun en => match en with [] => true | _ => tidy_engineb en end) (engines_of y))) (db_client D).
Lemma tidy_enginesb_ok D : tidy_enginesb D = true -> tidy_engines D.
Proof.
  intros H en ua m (Ne & f & y & e & If & Iy & Ey & Ie). apply group_captured. apply tidy_engineb_ok.
  unfold tidy_enginesb in H. rewrite forallb_forall in H. specialize (H f If). rewrite forallb_forall in H. specialize (H y Iy).
  rewrite forallb_forall in H. specialize (H en). destruct en as [|b en]; [contradiction|]. apply H. unfold engines_of. rewrite Ey.
  destruct Ie as [<-|[v I]]; [left; reflexivity|right]. apply in_map_iff. exists (v, b :: en). auto.
Qed.
Definition tidyb (t : bytes) : bool := match rev t with x24 :: _ => false | _ => true end.
Lemma tidyb_ok t : tidyb t = true -> tidy_template t.
Proof. intros H a ->. unfold tidyb in H. rewrite rev_app_distr in H. discriminate. Qed.
Definition tidy_brandb (x : bytes * ybrand) : bool := tidyb (yb_model (snd x)) && forallb (fun m => tidyb (ym_model m)) (yb_models (snd x)).
Lemma tidy_brandsb_ok D : forallb (forallb tidy_brandb) (db_device D) = true -> Forall (Forall tidy_brand) (db_device D).
Proof.
  intros H. rewrite forallb_forall in H. apply Forall_forall. intros f If. specialize (H f If). rewrite forallb_forall in H. apply Forall_forall.
  intros x Ix. specialize (H x Ix). apply andb_prop in H as [H1 H2]. split; [exact (tidyb_ok _ H1)|]. rewrite forallb_forall in H2. apply Forall_forall.
  intros m Im. exact (tidyb_ok _ (H2 m Im)).
Qed.

(** Vendor fragments and header hints of a built program, in terms of the database. *)
From Verif Require Import Model_Base Model_CacheEntry Model_Version Model_Ctx Model_Regex Model_Parse Model_Compiler Model_Shipped Model_Built
  Spec_Version Spec_Getters Spec_Select Spec_Compiler Spec_Database Proof_Base Proof_Select Proof_Client Proof_OS Proof_Device Proof_Choice
  Proof_Tables Proof_Compiler Proof_Built Proof_DbClient Proof_DbOS Proof_DbDevice.
From Coq Require Import Lia ZifyBool ZifyNat ZifyN Permutation.
Open Scope nat_scope.

Lemma Forall2_split {Y X} (R : Y -> X -> Prop) l xs1 x xs2 : Forall2 R l (xs1 ++ x :: xs2) ->
  exists l1 y l2, l = l1 ++ y :: l2 /\ Forall2 R l1 xs1 /\ R y x /\ Forall2 R l2 xs2.
Proof.
  intros F. apply Forall2_app_inv_r in F as (l1 & l2 & F1 & F2 & ->). inversion F2 as [|y x' l2' xs' H F3]; subst. exists l1, y, l2'. auto.
Qed.
Lemma Forall2_In {Y X} (R : Y -> X -> Prop) l xs y : Forall2 R l xs -> In y l -> exists x, In x xs /\ R y x.
Proof. intros F I. induction F as [|y0 x0 l xs H F IH]; [destruct I|]. destruct I as [->|I]; [exists x0; cbn; auto|]. destruct (IH I) as (x & Ix & Rx). exists x. cbn; auto. Qed.
Lemma Forall2_In_r {Y X} (R : Y -> X -> Prop) l xs x : Forall2 R l xs -> In x xs -> exists y, In y l /\ R y x.
Proof. intros F I. apply Forall2_flip in F. exact (Forall2_In _ _ _ _ F I). Qed.
Lemma last_backward {Y X} (R : Y -> X -> Prop) (P : Y -> Prop) (Q : X -> Prop) l xs : Forall2 R l xs ->
  (forall y x, R y x -> (P y <-> Q x)) -> forall x, last_of Q xs x -> exists y, last_of P l y /\ R y x.
Proof.
  intros F H x (xs1 & xs2 & -> & Qx & B). destruct (Forall2_split _ _ _ _ _ F) as (l1 & y & l2 & -> & _ & Ry & F2).
  exists y. split; [|exact Ry]. exists l1, l2. split; [reflexivity|]. split; [apply (H _ _ Ry); exact Qx|].
  intros z Iz Pz. destruct (Forall2_In _ _ _ _ F2 Iz) as (w & Iw & Rw). apply (B w Iw). apply (H _ _ Rw). exact Pz.
Qed.

(** ** Vendors *)
Definition vendor_pattern (r : bytes) : bytes := r ++ bs "[^a-z0-9]+".
Definition vext (s s' : cbuf * list bytes) : Prop := later (fst s) (fst s') /\ prefix (snd s) (snd s').
Definition vfit (s : cbuf * list bytes) : Prop := bfit (fst s) /\ fits_32 (snd s).
Definition vok (s : cbuf * list bytes) : Prop := buf_ok (fst s).
Definition vendor_means (s : cbuf * list bytes) (y : bytes * list bytes) (x : vendorTuple) : Prop :=
  interned (fst s) (fst y) (vt_brand64 x) /\
  slice (snd s) (vt_range64 x / two32)%N (vt_range64 x mod two32)%N = Ok (map vendor_pattern (snd y)).
Lemma vendor1_spec y s : let '(x, s') := compile_vendor1 y s in vext s s' /\ (vok s -> vfit s' -> vok s' /\ vendor_means s' y x).
Proof.
  destruct s as [b re]. unfold compile_vendor1. fold vendor_pattern.
  pose proof (buf_add_later (fst y) b) as L. pose proof (add_interned (fst y) b) as I. pose proof (buf_add_ok (fst y) b) as K1.
  destruct (buf_add (fst y) b) as [b64 b1]. cbn [fst snd] in L, I, K1.
  change (fun r : bytes => r ++ bs "[^a-z0-9]+") with vendor_pattern. split.
  - split; [exact L|]. exists (map vendor_pattern (snd y)). reflexivity.
  - intros Ok [F1 F2]. cbn [fst snd] in F1, F2. split; [exact (K1 Ok F1)|]. split; [exact I|]. cbn [snd vt_range64]. apply encode_slice. exact F2.
Qed.
Lemma vendor_all ys s : vok s -> vfit (snd (compile_entries compile_vendor1 ys s)) ->
  vok (snd (compile_entries compile_vendor1 ys s)) /\
  Forall2 (vendor_means (snd (compile_entries compile_vendor1 ys s))) ys (fst (compile_entries compile_vendor1 ys s)).
Proof.
  apply (entries_ok compile_vendor1 vext vfit vok (fun _ => True) vendor_means).
  - intros s0. split; [apply later_refl|apply prefix_refl].
  - intros a b c [A1 A2] [B1 B2]. split; [exact (later_trans _ _ _ A1 B1)|exact (prefix_trans _ _ _ A2 B2)].
  - intros a b [A1 A2] [F1 F2]. split; [exact (bfit_back _ _ A1 F1)|exact (fits_back _ _ A2 F2)].
  - intros y s0 _. pose proof (vendor1_spec y s0) as S. destruct (compile_vendor1 y s0). apply S.
  - intros y s0 _ Ok F. pose proof (vendor1_spec y s0) as S. destruct (compile_vendor1 y s0). apply S; assumption.
  - intros s0 s' y x [A1 A2] [H1 H2]. split; [exact (interned_later _ _ _ _ A1 H1)|exact (range_grows _ _ _ _ A2 H2)].
  - apply Forall_forall. auto.
Qed.
Lemma range_map {A B} (f : A -> B) l e : range_of (map f l) e = map f (range_of l e).
Proof. unfold range_of. rewrite skipn_map, firstn_map. reflexivity. Qed.
Lemma map_Forall2 {A B C} (f : A -> B) (g : A -> C) (R : B -> C -> Prop) l : (forall a, R (f a) (g a)) -> Forall2 R (map f l) (map g l).
Proof. intros H. induction l; constructor; auto. Qed.
Definition vbrand (D : database) (b : cbuf) (n : bytes * regex) (e : N * regex) : Prop := In (fst n) (map fst (db_vendor D)) /\ interned b (fst n) (fst e) /\ snd n = snd e.
Lemma vendor_built K D : fits_32 (vr_buf (built K D)) -> fits_32 (vr_re (built K D)) ->
  exists b l, buf_ok b /\ vr_buf (built K D) = b_buf b /\ db_fragments D l /\ Forall2 (vbrand D b) l (fragments (built K D)).
Proof.
  intros F1 F2. unfold fragments. unfold built in *. cbn [vr_buf vr_re vr_idx] in *. unfold compile_vendor in *.
  pose proof (vendor_all (sort_keys (db_vendor D)) (buf_empty, []) buf_empty_ok) as S.
  destruct (compile_entries compile_vendor1 (sort_keys (db_vendor D)) (buf_empty, [])) as [idx [b re]]. cbn [fst snd vo_buf vo_re vo_idx] in *.
  unfold fits_32 in F2. rewrite map_length in F2. destruct (S (conj F1 F2)) as [Ok M]. exists b.
  exists (flat_map (fun v => map (fun r => (fst v, compile (r ++ bs "[^a-z0-9]+"))) (snd v)) (sort_keys (db_vendor D))).
  split; [exact Ok|]. split; [reflexivity|]. split; [exists (sort_keys (db_vendor D)); split; [apply sort_in_order|reflexivity]|].
  assert (Inc : forall v, In v (sort_keys (db_vendor D)) -> In (fst v) (map fst (db_vendor D))).
  { intros v I. apply in_map. apply (Permutation_in v (sort_perm (db_vendor D))). exact I. }
  revert Inc M. generalize (sort_keys (db_vendor D)) as l. intros l Inc M. clear S. revert Inc.
  induction M as [|y x l xs [H1 H2] M IH]; intros Inc; [constructor|]. cbn [flat_map]. apply Forall2_app; [|apply IH; intros v I; apply Inc; right; exact I].
  apply (slice_range re (vt_range64 x)) in H2. rewrite range_map, <- H2, !map_map. cbn [fst snd] in *.
  apply map_Forall2. intros a. split; [apply Inc; left; reflexivity|]. split; [exact H1|reflexivity].
Qed.
Lemma fallback_down K D ua s : fits_32 (vr_buf (built K D)) -> fits_32 (vr_re (built K D)) -> Forall (fun v => fst v <> []) (db_vendor D) ->
  fallback_brand (built K D) ua s -> db_fallback_brand D ua s.
Proof.
  intros F1 F2 Ne H. destruct (vendor_built K D F1 F2) as (b & l & Ok & Eb & Df & F).
  assert (Hi : forall y x, vbrand D b y x -> (re_find (snd y) ua <> None <-> re_find (snd x) ua <> None)).
  { intros y x (_ & _ & E). rewrite E. reflexivity. }
  revert H. generalize F. generalize (fragments (built K D)). intros fr Ff.
  assert (Et : re_tablet (built K D) = compile src_tablet) by reflexivity. assert (Em : re_mobile (built K D) = compile src_mobile) by reflexivity.
  intros H. destruct H as [H|H1 H2 H3|b64 r s out H1 H2 H3 Tx Tr N|r H1 H2 H3]; rewrite ?Et, ?Em in *.
  - apply BB_word. exact H.
  - apply (BB_none _ _ l); [exact H1|exact H2|exact Df|]. intros y Iy Py. destruct (Forall2_In _ _ _ _ F Iy) as (x & Ix & Rx). apply (H3 x Ix). apply (Hi _ _ Rx). exact Py.
  - destruct (last_backward _ (fun br => re_find (snd br) ua <> None) (fun br => re_find (snd br) ua <> None) _ _ F Hi _ H3) as ([n r'] & Ln & (In_ & I & E)). cbn [fst snd] in *.
    subst r'. apply (BB_last _ _ l n r out); try assumption. rewrite Eb in Tx. rewrite <- (text_fun _ _ _ _ Tx (interned_text _ _ _ Ok I)). exact Tr.
  - destruct (last_backward _ (fun br => re_find (snd br) ua <> None) (fun br => re_find (snd br) ua <> None) _ _ F Hi _ H3) as ([n r'] & Ln & (In_ & I & E)). cbn [fst snd] in *.
    exfalso. apply in_map_iff in In_ as (v & Ev & Iv). rewrite Forall_forall in Ne. assert (Nv : n <> []) by (rewrite <- Ev; exact (Ne v Iv)).
    exact (text_nonzero _ _ _ Nv (interned_text _ _ _ Ok I) eq_refl).
Qed.

(** ** Hints *)
Definition hval (fs : list (list (bytes * bytes))) (k v : bytes) : Prop :=
  exists f1 f f2, fs = f1 ++ f :: f2 /\ (forall g w, In g f1 -> ~ In (k, w) g) /\ In (k, v) f.
Definition hkey (fs : list (list (bytes * bytes))) (k : bytes) : Prop := exists f v, In f fs /\ In (k, v) f.
Definition hgood (fs : list (list (bytes * bytes))) (h : htables) : Prop :=
  NoDup (h_uniq h) /\ Forall2 (fun k p => fst p = fnv1 k /\ exists v, hval fs k v /\ interned (h_buf h) v (snd p)) (rev (h_uniq h)) (h_idx h).
Lemma smap_get_in {A} (m : list (bytes * A)) k v : smap_get m k = Some v -> In (k, v) m.
Proof.
  induction m as [|[k' v'] m IH]; cbn [smap_get]; [discriminate|]. destruct (beqs k' k) eqn:E; [|intros H; right; exact (IH H)].
  apply beqs_eq in E. subst. intros [= ->]. left. reflexivity.
Qed.
Lemma smap_get_some {A} (m : list (bytes * A)) k v : In (k, v) m -> exists w, smap_get m k = Some w.
Proof.
  induction m as [|[k' v'] m IH]; cbn [smap_get]; [intros []|]. intros [E|I]; [injection E as -> ->; rewrite beqs_refl; eauto|].
  destruct (beqs k' k); eauto.
Qed.
Lemma hgood_grow fs h h' : later (h_buf h) (h_buf h') -> h_uniq h' = h_uniq h -> h_idx h' = h_idx h -> hgood fs h -> hgood fs h'.
Proof.
  intros L E1 E2 [N F]. split; [rewrite E1; exact N|]. rewrite E1, E2. revert F. apply Forall2_impl. intros k p (H & v & Hv & I).
  split; [exact H|]. exists v. split; [exact Hv|exact (interned_later _ _ _ _ L I)].
Qed.
Lemma hint_keys_spec f fs ks : forall h, (forall k, In k ks -> In k (h_uniq h) \/ exists v, In (k, v) f) ->
  (forall k, hkey fs k -> In k (h_uniq h)) -> hgood (fs ++ [f]) h ->
  let h' := hint_keys f ks h in
  hgood (fs ++ [f]) h' /\ later (h_buf h) (h_buf h') /\ (buf_ok (h_buf h) -> bfit (h_buf h') -> buf_ok (h_buf h')) /\
  (forall k, In k (h_uniq h') <-> In k (h_uniq h) \/ In k ks) /\ h_keys h' = h_keys h.
Proof.
  induction ks as [|k ks IH]; intros h Hk Hf G; cbn [hint_keys].
  { split; [exact G|]. split; [apply later_refl|]. split; [auto|]. split; [|reflexivity]. cbn. tauto. }
  destruct (existsb (beqs k) (h_uniq h)) eqn:E.
  - assert (I : In k (h_uniq h)). { apply existsb_exists in E as (k' & I & Q). apply beqs_eq in Q. subst. exact I. }
    destruct (IH h ltac:(intros k' I'; apply Hk; right; exact I') Hf G) as (H1 & H2 & H3 & H4 & H5). split; [exact H1|]. split; [exact H2|]. split; [exact H3|].
    split; [|exact H5]. intros k'. rewrite H4. cbn [In]. split; [tauto|]. intros [X|[<-|X]]; auto.
  - assert (NI : ~ In k (h_uniq h)). { intros I. assert (X : existsb (beqs k) (h_uniq h) = true) by (apply existsb_exists; exists k; split; [exact I|apply beqs_refl]). congruence. }
    destruct (Hk k (or_introl eq_refl)) as [I|(v0 & I0)]; [contradiction|]. destruct (smap_get_some _ _ _ I0) as (v & Ev). rewrite Ev.
    pose proof (smap_get_in _ _ _ Ev) as Iv.
    pose proof (buf_add_later v (h_buf h)) as L. pose proof (add_interned v (h_buf h)) as Iv64. pose proof (buf_add_ok v (h_buf h)) as K1.
    destruct (buf_add v (h_buf h)) as [e b1]. cbn [fst snd] in L, Iv64, K1.
    set (h1 := mkH b1 (h_idx h ++ [(fnv1 k, e)]) (h_keys h) (k :: h_uniq h)).
    assert (G1 : hgood (fs ++ [f]) h1).
    { destruct G as [N F]. split; [constructor; assumption|]. cbn [h1 h_uniq h_idx h_buf rev]. apply Forall2_app.
      - revert F. apply Forall2_impl. intros k' p (H & v' & Hv & I). split; [exact H|]. exists v'. split; [exact Hv|exact (interned_later _ _ _ _ L I)].
      - constructor; [|constructor]. split; [reflexivity|]. exists v. split; [|exact Iv64]. exists fs, f, []. split; [reflexivity|]. split; [|exact Iv].
        intros g w Ig Iw. apply NI. apply Hf. exists g, w. auto. }
    destruct (IH h1) as (H1 & H2 & H3 & H4 & H5).
    + intros k' I'. cbn [h1 h_uniq In]. destruct (Hk k' (or_intror I')); auto.
    + intros k' I'. right. exact (Hf k' I').
    + exact G1.
    + cbn [h1 h_buf h_uniq h_keys] in *. split; [exact H1|]. split; [exact (later_trans _ _ _ L H2)|]. split.
      * intros Kb F. apply H3; [apply K1; [exact Kb|exact (bfit_back _ _ H2 F)]|exact F].
      * split; [|exact H5]. intros k'. rewrite H4. cbn [In]. tauto.
Qed.
Lemma hval_app fs f k v : hval fs k v -> hval (fs ++ [f]) k v.
Proof. intros (f1 & g & f2 & -> & H). exists f1, g, (f2 ++ [f]). rewrite <- app_assoc. split; [reflexivity|exact H]. Qed.
Definition hinv (fs : list (list (bytes * bytes))) (h : htables) : Prop :=
  hgood fs h /\ (forall k, In k (h_uniq h) <-> hkey fs k) /\ (forall k, In k (h_keys h) <-> hkey fs k).
Lemma hint_file_spec f fs h : hinv fs h -> let h' := hint_file f h in
  hinv (fs ++ [f]) h' /\ later (h_buf h) (h_buf h') /\ (buf_ok (h_buf h) -> bfit (h_buf h') -> buf_ok (h_buf h')).
Proof.
  intros (G & U & Ks). unfold hint_file. set (ks := map fst (sort_keys (map (fun k => (k, tt)) (h_keys h ++ map fst f)))).
  assert (Sk : forall k, In k ks <-> hkey fs k \/ exists v, In (k, v) f).
  { intros k. unfold ks. transitivity (In k (map fst (map (fun k => (k, tt)) (h_keys h ++ map fst f)))).
    - split; apply Permutation_in, Permutation_map; [|apply Permutation_sym]; apply sort_perm.
    - rewrite map_map. cbn [fst]. rewrite map_id, in_app_iff, Ks. split; (intros [H|H]; [left; exact H|right]).
      + apply in_map_iff in H as ([k' v] & <- & I). eauto.
      + destruct H as (v & I). apply (in_map fst) in I. exact I. }
  assert (Hk : forall k, hkey (fs ++ [f]) k <-> hkey fs k \/ exists v, In (k, v) f).
  { intros k. unfold hkey. split.
    - intros (g & v & I & J). apply in_app_or in I as [I|[<-|[]]]; [left|right]; eauto.
    - intros [(g & v & I & J)|(v & J)]; [exists g, v|exists f, v]; (split; [apply in_or_app|exact J]); cbn; auto. }
  destruct (hint_keys_spec f fs ks (mkH (h_buf h) (h_idx h) ks (h_uniq h))) as (H1 & H2 & H3 & H4 & H5); cbn [h_uniq h_buf h_keys] in *.
  - intros k I. apply Sk in I as [I|I]; [left; apply U; exact I|right; exact I].
  - intros k I. apply U. exact I.
  - destruct G as [N F]. split; [exact N|]. cbn [h_uniq h_idx h_buf]. revert F. apply Forall2_impl. intros k p (H & v & Hv & I). split; [exact H|]. exists v.
    split; [apply hval_app; exact Hv|exact I].
  - split; [|split; [exact H2|exact H3]]. split; [exact H1|]. split.
    + intros k. rewrite H4, Sk, U, Hk. tauto.
    + intros k. rewrite H5, Sk, Hk. tauto.
Qed.
Lemma hint_files_spec fs : forall done h, hinv done h -> let h' := fold_left (fun h f => hint_file f h) fs h in
  hinv (done ++ fs) h' /\ later (h_buf h) (h_buf h') /\ (buf_ok (h_buf h) -> bfit (h_buf h') -> buf_ok (h_buf h')).
Proof.
  induction fs as [|f fs IH]; intros done h I; cbn [fold_left].
  { rewrite app_nil_r. split; [exact I|]. split; [apply later_refl|auto]. }
  destruct (hint_file_spec f done h I) as (I1 & L1 & K1). destruct (IH (done ++ [f]) (hint_file f h) I1) as (I2 & L2 & K2).
  rewrite <- app_assoc in I2. split; [exact I2|]. split; [exact (later_trans _ _ _ L1 L2)|]. intros Kb F. apply K2; [apply K1; [exact Kb|exact (bfit_back _ _ L2 F)]|exact F].
Qed.
Lemma hval_fun fs k v v' : Forall (fun f => NoDup (map fst f)) fs -> hval fs k v -> hval fs k v' -> v = v'.
Proof.
  intros ND (f1 & f & f2 & E & B & I) (g1 & g & g2 & E' & B' & I').
  assert (X : f = g).
  { rewrite E in E'. clear -E' B B' I I'. revert g1 E' B'. induction f1 as [|a f1 IH]; intros [|b g1] E' B'; cbn [app] in E'; injection E' as E1 E2.
    - congruence.
    - exfalso. subst b. apply (B' f v); [left; reflexivity|exact I].
    - exfalso. subst a. apply (B g v'); [left; reflexivity|exact I'].
    - apply (IH ltac:(intros h w Ih; apply B; right; exact Ih) g1 E2). intros h w Ih. apply B'. right. exact Ih. }
  subst g. rewrite Forall_forall in ND. assert (N : NoDup (map fst f)) by (apply ND; rewrite E; apply in_or_app; right; left; reflexivity).
  clear -N I I'. induction f as [|[k' w] f IH]; [destruct I|]. cbn [map fst] in N. inversion N as [|? ? N1 N2]; subst.
  destruct I as [I|I], I' as [I'|I'].
  - congruence.
  - injection I as -> ->. exfalso. apply N1. apply (in_map fst) in I'. exact I'.
  - injection I' as -> ->. exfalso. apply N1. apply (in_map fst) in I. exact I.
  - auto.
Qed.
Lemma hint_bound fs idx b u header name : NoDup u ->
  Forall2 (fun k p => fst p = fnv1 k /\ exists v, hval fs k v /\ interned b v (snd p)) (rev u) idx ->
  (forall k, In k u <-> hkey fs k) -> Forall (fun f => NoDup (map fst f)) fs -> hval fs header name ->
  (forall k, hkey fs k -> fnv1 k = fnv1 header -> k = header) -> exists e, bound idx (fnv1 header) e /\ interned b name e.
Proof.
  intros ND F U NF Hv Ap. assert (I : In header (rev u)).
  { apply -> in_rev. apply U. destruct Hv as (f1 & f & f2 & -> & _ & I). exists f, name. split; [apply in_or_app; right; left; reflexivity|exact I]. }
  apply NoDup_rev in ND. destruct (in_split _ _ I) as (u1 & u2 & Eu). rewrite Eu in F. apply Forall2_app_inv_l in F as (p1 & p2 & F1 & F2 & ->).
  inversion F2 as [|? [h e] ? p2' (Eh & v & Hv' & Iv) F3]; subst. cbn [fst snd] in *. subst h. exists e. rewrite (hval_fun _ _ _ _ NF Hv' Hv) in Iv. split; [|exact Iv].
  exists p1, p2'. split; [reflexivity|]. split; [reflexivity|]. intros p Ip Ep. destruct (Forall2_In_r _ _ _ _ F1 Ip) as (k & Ik & (Ek & _)).
  assert (k = header).
  { apply Ap; [|congruence]. apply U. apply in_rev. rewrite Eu. apply in_or_app. left. exact Ik. }
  subst k. rewrite Eu in ND. apply NoDup_remove_2 in ND. apply ND. apply in_or_app. left. exact Ik.
Qed.
Lemma hint_answers K D mC mD header name ua : fits_32 (hr_buf (built K D)) -> Forall (fun f => NoDup (map fst f)) (db_hint D) ->
  header <> [] -> fnv1 header <> 0%N -> hash_apart D header -> alone (built K D) mC mD 0 ua GClientType <> Panic ->
  (db_hint_is D header name -> name <> [] -> answer (built K D) (prepared mC mD header ua) GBrowser = Ok (VB name)) /\
  ((forall k, db_header D k -> fnv1 k <> fnv1 header) -> answer (built K D) (prepared mC mD header ua) GBrowser = Ok (VB (bs "UNK"))).
Proof.
  intros F NF Hne H0 Ap NP.
  assert (I0 : hinv [] (mkH buf_empty [] [] [])).
  { split; [split; constructor|]. split; intros k; (split; [intros []|intros (f & v & [] & _)]). }
  destruct (hint_files_spec (db_hint D) [] _ I0) as (((N & G) & U & _) & _ & Kb).
  assert (Ei : hr_idx (built K D) = h_idx (fold_left (fun h f => hint_file f h) (db_hint D) (mkH buf_empty [] [] []))) by reflexivity.
  assert (Eb : hr_buf (built K D) = b_buf (h_buf (fold_left (fun h f => hint_file f h) (db_hint D) (mkH buf_empty [] [] [])))) by reflexivity.
  cbn [app] in *. set (h := fold_left (fun h f => hint_file f h) (db_hint D) (mkH buf_empty [] [] [])) in *. clearbody h.
  specialize (Kb buf_empty_ok). unfold bfit in Kb. unfold fits_32 in F. rewrite Eb in F. specialize (Kb F). split.
  - intros Hv Nn. destruct (hint_bound _ _ _ _ _ _ N G U NF Hv Ap) as (e & B & I). pose proof (interned_text _ _ _ Kb I) as Tx.
    apply (hint_known _ _ _ _ _ e); try assumption; [rewrite Ei; exact B|rewrite Eb; exact Tx|exact (text_nonzero _ _ _ Nn Tx)].
  - intros A. apply hint_unknown; try assumption. rewrite Ei. intros p Ip Ep. destruct (Forall2_In_r _ _ _ _ G Ip) as (k & Ik & (Ek & _)).
    apply (A k); [|congruence]. apply U. apply in_rev. exact Ik.
Qed.

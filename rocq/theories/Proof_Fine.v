(** The shipped tables never make a detection panic, except for the client entries listed at the end. *)
From Verif Require Import Model_Base Model_Blob Model_CacheEntry Model_Ctx Model_Parse Model_Regex Data_Client Data_OS
  Data_Device Data_Model Data_DeviceRe0 Data_DeviceRe1 Model_Shipped Spec_Getters Spec_Select Spec_Panic Proof_Base Proof_Regex
  Proof_Sets Proof_Select
  Proof_Client Proof_OS Proof_Device Proof_Tables Proof_Panic Proof_PanicClient.
From Coq Require Import Lia ZifyBool ZifyNat ZifyN.

Definition fitsb (n e : N) : bool := let '(lo, hi) := fast_decode e in (lo <=? hi)%N && (hi <=? n)%N.
Lemma fitsb_ok {A} (l : list A) n e : n = N.of_nat (length l) -> fitsb n e = true -> fits l e.
Proof.
  intros -> H. unfold fitsb in H. rewrite fast_decode_ok in H. unfold fits. destruct (e_decode e) as [lo hi]. cbn [fst snd].
  apply andb_prop in H as [H1 H2]. eexists. apply slice_ok; lia.
Qed.

(** The number of groups of each pattern. *)
Definition group_counts (l : list blob) : list (option nat) :=
  map (fun b => match parse_re (unblob b) with Some (_, ng) => Some ng | None => None end) l.
Lemma zindex_some {A} (l : list A) (n : N) (i : Z) : n = N.of_nat (length l) -> (0 <= i)%Z -> (i < Z.of_N n)%Z -> exists x, zindex l i = Ok x.
Proof.
  intros -> H0 H1. destruct (nth_error l (Z.to_nat i)) as [x|] eqn:E; [exists x; apply zindex_Ok; auto|].
  apply nth_error_None in E. lia.
Qed.
Definition has_groupb (ngs : list (option nat)) (ri si : Z) : bool :=
  (si =? -1)%Z || match nth_error ngs (Z.to_nat ri) with
                  | Some (Some ng) => (0 <=? si)%Z && (si <=? Z.of_nat ng)%Z && (si <? 64)%Z
                  | _ => false
                  end.
Lemma has_groupb_ok l ri si : (0 <= ri)%Z -> has_groupb (group_counts l) ri si = true -> has_group (compile_all l) ri si.
Proof.
  intros R H. unfold has_groupb in H. apply orb_prop in H as [H|H]; [left; lia|right].
  unfold group_counts in H. rewrite nth_error_map in H. destruct (nth_error l (Z.to_nat ri)) as [b|] eqn:E; [|discriminate].
  cbn [option_map] in H. destruct (parse_re (unblob b)) as [[a ng]|] eqn:Ep; [|discriminate].
  exists (compile (unblob b)), ng. split.
  - apply zindex_Ok. split; [exact R|]. unfold compile_all. rewrite nth_error_map, E. reflexivity.
  - split; [exact (compile_ok _ _ _ Ep)|]. lia.
Qed.

Definition ov_fineb (nbuf nre : N) (ngs : list (option nat)) (v : osVersionTuple) : bool :=
  fitsb nbuf (ov_version64 v) &&
  (if (0 <=? ov_matchRI v)%Z then (ov_matchRI v <? Z.of_N nre)%Z && has_groupb ngs (ov_matchRI v) (ov_versionSI v)
   else fitsb nbuf (ov_match64 v)).
Definition os_fineb (nbuf nre nov : N) (ngs : list (option nat)) (x : osTuple) : bool :=
  fitsb nbuf (ot_name64 x) && fitsb nbuf (ot_version64 x) &&
  (if (0 <=? ot_matchRI x)%Z then
     (ot_matchRI x <? Z.of_N nre)%Z && has_groupb ngs (ot_matchRI x) (ot_nameSI x) && has_groupb ngs (ot_matchRI x) (ot_versionSI x) &&
     ((ot_versions64 x =? 0)%N || let '(lo, hi) := fast_decode (ot_versions64 x) in (lo <? hi)%N && (hi <=? nov)%N)
   else fitsb nbuf (ot_match64 x)).
Definition os_tableb (srcs : list blob) (buf : bytes) (os : list osTuple) (ov : list osVersionTuple) : bool :=
  let ngs := group_counts srcs in
  let nbuf := N.of_nat (length buf) in let nre := N.of_nat (length srcs) in
  negb (match os with [] => true | _ => false end) &&
  forallb (os_fineb nbuf nre (N.of_nat (length ov)) ngs) os && forallb (ov_fineb nbuf nre ngs) ov.
Lemma os_tableb_ok T srcs : or_re T = compile_all srcs -> os_tableb srcs (or_buf T) (or_os T) (or_ov T) = true -> os_table_fine T.
Proof.
  intros Er H. unfold os_tableb in H. cbv zeta in H. apply andb_prop in H as [H H3]. apply andb_prop in H as [H1 H2].
  rewrite forallb_forall in H2, H3.
  assert (Lr : N.of_nat (length srcs) = N.of_nat (length (or_re T))) by (rewrite Er; unfold compile_all; rewrite map_length; reflexivity).
  split; [intros E; rewrite E in H1; discriminate|]. split; apply Forall_forall; intros x I.
  - specialize (H2 x I). unfold os_fineb in H2. apply andb_prop in H2 as [A B]. apply andb_prop in A as [A1 A2].
    split; [exact (fitsb_ok _ _ _ eq_refl A1)|]. split; [exact (fitsb_ok _ _ _ eq_refl A2)|].
    destruct (Z.leb_spec 0 (ot_matchRI x)) as [R|R].
    + split; [lia|]. intros _. apply andb_prop in B as [B B4]. apply andb_prop in B as [B B3]. apply andb_prop in B as [B1 B2].
      split; [apply (zindex_some _ (N.of_nat (length srcs))); [exact Lr|lia|lia]|]. rewrite Er.
      split; [exact (has_groupb_ok _ _ _ R B2)|]. split; [exact (has_groupb_ok _ _ _ R B3)|].
      apply orb_prop in B4 as [B4|B4]; [left; lia|right]. rewrite fast_decode_ok in B4. destruct (e_decode (ot_versions64 x)) as [lo hi].
      apply andb_prop in B4 as [C1 C2]. cbn [fst snd]. rewrite slice_ok by lia.
      destruct (firstn (N.to_nat (hi - lo)) (skipn (N.to_nat lo) (or_ov T))) as [|v rv] eqn:E; [|eauto].
      apply (f_equal (@length _)) in E. rewrite firstn_length, skipn_length in E. cbn in E. lia.
    + split; [intros _; exact (fitsb_ok _ _ _ eq_refl B)|]. lia.
  - specialize (H3 x I). unfold ov_fineb in H3. apply andb_prop in H3 as [A B].
    split; [exact (fitsb_ok _ _ _ eq_refl A)|]. destruct (Z.leb_spec 0 (ov_matchRI x)) as [R|R].
    + split; [lia|]. intros _. apply andb_prop in B as [B1 B2]. split; [apply (zindex_some _ (N.of_nat (length srcs))); [exact Lr|lia|lia]|].
      rewrite Er. exact (has_groupb_ok _ _ _ R B2).
    + split; [intros _; exact (fitsb_ok _ _ _ eq_refl B)|]. lia.
Qed.
Lemma shipped_os_fine : os_table_fine shipped.
Proof. apply (os_tableb_ok shipped d_or_re eq_refl). vm_cast_no_check (eq_refl true). Qed.

(** ** Devices *)
(** Sets of positions, as binary tries. *)
Inductive trie := TE | TN (l : trie) (b : bool) (r : trie).
Fixpoint t_mem (p : positive) (t : trie) : bool :=
  match t, p with
  | TE, _ => false
  | TN l b r, xH => b
  | TN l b r, xO q => t_mem q l
  | TN l b r, xI q => t_mem q r
  end.
Fixpoint t_add (p : positive) (t : trie) : trie :=
  match p with
  | xH => match t with TE => TN TE true TE | TN l _ r => TN l true r end
  | xO q => match t with TE => TN (t_add q TE) false TE | TN l b r => TN (t_add q l) b r end
  | xI q => match t with TE => TN TE false (t_add q TE) | TN l b r => TN l b (t_add q r) end
  end.
Lemma t_add_same p : forall t, t_mem p (t_add p t) = true.
Proof. induction p; destruct t; cbn; auto. Qed.
Lemma t_add_other p q : forall t, t_mem q t = true -> t_mem q (t_add p t) = true.
Proof.
  revert q. induction p as [p IH|p IH|]; intros q [|l b r]; cbn [t_mem]; intros H; try (destruct q; discriminate H); cbn [t_add]; destruct q; cbn [t_mem] in *; auto.
Qed.

(** One plus the index of each dollar, [p] being one plus the index of the first byte. *)
Fixpoint dollars (s : bytes) (p : positive) (t : trie) : trie :=
  match s with
  | [] => t
  | b :: r => dollars r (Pos.succ p) (match b with x24 => t_add p t | _ => t end)
  end.
Lemma dollars_keep s : forall p t q, t_mem q t = true -> t_mem q (dollars s p t) = true.
Proof.
  induction s as [|b s IH]; intros p t q H; [exact H|]. cbn [dollars]. apply IH. destruct b; try exact H. apply t_add_other. exact H.
Qed.
Lemma dollars_has s : forall p t k, nth_error s k = Some x24 -> t_mem (N.succ_pos (Npos p + N.of_nat k - 1)) (dollars s p t) = true.
Proof.
  induction s as [|b s IH]; intros p t [|k] E; try discriminate.
  - injection E as ->. cbn [dollars]. apply dollars_keep.
    replace (N.succ_pos (N.pos p + N.of_nat 0 - 1)) with p by lia. apply t_add_same.
  - cbn [dollars]. cbn [nth_error] in E. apply IH with (p := Pos.succ p) (t := match b with x24 => t_add p t | _ => t end) in E.
    replace (N.pos p + N.of_nat (S k) - 1)%N with (N.pos (Pos.succ p) + N.of_nat k - 1)%N by lia. exact E.
Qed.

Definition no_dollarb (t : trie) (e : N) : bool :=
  let '(lo, hi) := fast_decode e in
  match hi with N0 => true | Npos p => negb (t_mem p t) || (hi <=? lo)%N end.
Lemma no_dollarb_ok buf e tpl : no_dollarb (dollars buf 1 TE) e = true -> slice64 buf e = Ok tpl -> no_dollar_end tpl.
Proof.
  unfold no_dollarb, slice64. rewrite fast_decode_ok. destruct (e_decode e) as [lo hi]. cbn [fst snd]. intros H Sl a ->.
  pose proof (slice_Ok_inv _ _ _ _ Sl) as (L1 & L2 & _). rewrite slice_ok in Sl by assumption. apply ok_inj in Sl.
  assert (La : length (a ++ [x24]) = N.to_nat (hi - lo)).
  { rewrite <- Sl. rewrite firstn_length, skipn_length. lia. }
  rewrite app_length in La. cbn [length] in La.
  assert (E : nth_error buf (N.to_nat (hi - 1)) = Some x24).
  { assert (Q : nth_error (firstn (N.to_nat (hi - lo)) (skipn (N.to_nat lo) buf)) (length a) = Some x24)
      by (rewrite Sl, nth_error_app2, Nat.sub_diag by lia; reflexivity).
    replace (N.to_nat (hi - 1)) with (N.to_nat lo + length a)%nat by lia.
    rewrite <- (firstn_skipn (N.to_nat lo) buf), nth_error_app2; rewrite firstn_length_le by lia; [|lia].
    replace (N.to_nat lo + length a - N.to_nat lo)%nat with (length a) by lia.
    rewrite <- (firstn_skipn (N.to_nat (hi - lo)) (skipn (N.to_nat lo) buf)). rewrite nth_error_app1; [exact Q|].
    apply nth_error_Some. congruence. }
  destruct hi as [|p]; [lia|]. apply (dollars_has _ 1 TE) in E.
  replace (N.succ_pos (1 + N.of_nat (N.to_nat (N.pos p - 1)) - 1)) with p in E by lia. rewrite E in H. cbn in H. lia.
Qed.

Definition model_fineb (nbuf nre : N) (t : trie) (m : modelTuple) : bool :=
  fitsb nbuf (mt_type64 m) && fitsb nbuf (mt_model64 m) && no_dollarb t (mt_model64 m) &&
  (if (0 <=? mt_matchRI m)%Z then (mt_matchRI m <? Z.of_N nre)%Z else fitsb nbuf (mt_match64 m)).
Definition dev_fineb (nbuf nre ndm : N) (x : deviceTuple) : bool :=
  fitsb nbuf (dt_type64 x) && fitsb nbuf (dt_brand64 x) && (-1 <=? dt_matchRI x)%Z && (dt_matchRI x <? Z.of_N nre)%Z &&
  ((0 <=? dt_matchRI x)%Z || fitsb nbuf (dt_match64 x)) && (-1 <=? dt_modelSI x)%Z && (dt_modelSI x <? Z.of_N ndm)%Z &&
  (snd (fast_decode (dt_models64 x)) <=? ndm)%N.
Definition vendor_fineb (nbuf nre : N) (v : vendorTuple) : bool :=
  fitsb nbuf (vt_brand64 v) && (snd (fast_decode (vt_range64 v)) <=? nre)%N.
Definition device_tableb (nre nvre : N) (idx : list (list deviceTuple)) (dm : list modelTuple) (buf : bytes)
  (vidx : list vendorTuple) (vbuf : bytes) : bool :=
  let nbuf := N.of_nat (length buf) in let t := dollars buf 1 TE in
  (length idx =? 8)%nat &&
  forallb (fun ir => negb (match ir with [] => true | _ => false end) && forallb (dev_fineb nbuf nre (N.of_nat (length dm))) ir) idx &&
  forallb (model_fineb nbuf nre t) dm && forallb (vendor_fineb (N.of_nat (length vbuf)) nvre) vidx.
Lemma device_tableb_ok T nre nvre : nre = N.of_nat (length (dr_re T)) -> nvre = N.of_nat (length (vr_re T)) ->
  device_tableb nre nvre (dr_idx T) (dr_dm T) (dr_buf T) (vr_idx T) (vr_buf T) = true -> dev_table_fine T.
Proof.
  intros E1 E2 H. unfold device_tableb in H. cbv zeta in H. apply andb_prop in H as [H H4]. apply andb_prop in H as [H H3].
  apply andb_prop in H as [H1 H2]. rewrite forallb_forall in H2, H3, H4. split; [apply Nat.eqb_eq; exact H1|].
  repeat split; apply Forall_forall.
  - intros ir I. specialize (H2 ir I). apply andb_prop in H2 as [A B]. split; [destruct ir; discriminate|].
    rewrite forallb_forall in B. apply Forall_forall. intros x Ix. specialize (B x Ix). unfold dev_fineb in B.
    rewrite fast_decode_ok in B.
    repeat match type of B with (_ && _ = true) => let Q := fresh "Q" in apply andb_prop in B as [B Q] end.
    split; [exact (fitsb_ok _ _ _ eq_refl B)|]. split; [eapply fitsb_ok; [reflexivity|eassumption]|].
    split. { destruct (Z.eq_dec (dt_matchRI x) (-1)); [auto|right; apply (zindex_some _ nre); [exact E1|lia|lia]]. }
    split. { intros R. apply orb_prop in Q2 as [Q2|Q2]; [lia|exact (fitsb_ok _ _ _ eq_refl Q2)]. }
    split. { destruct (Z.eq_dec (dt_modelSI x) (-1)); [auto|right; apply (zindex_some _ _ _ eq_refl); lia]. }
    lia.
  - intros m I. specialize (H3 m I). unfold model_fineb in H3. apply andb_prop in H3 as [A A4]. apply andb_prop in A as [A A3].
    apply andb_prop in A as [A1 A2]. split; [exact (fitsb_ok _ _ _ eq_refl A1)|].
    split. { destruct (fitsb_ok (dr_buf T) _ _ eq_refl A2) as [tpl Q]. exists tpl. split; [exact Q|]. exact (no_dollarb_ok _ _ _ A3 Q). }
    destruct (Z.leb_spec 0 (mt_matchRI m)) as [R|R].
    + split; [intros _; apply (zindex_some _ nre); [exact E1|lia|lia]|lia].
    + split; [lia|]. intros _. exact (fitsb_ok _ _ _ eq_refl A4).
  - intros v I. specialize (H4 v I). unfold vendor_fineb in H4. rewrite fast_decode_ok in H4. apply andb_prop in H4 as [A B].
    split; [exact (fitsb_ok _ _ _ eq_refl A)|lia].
Qed.

Definition nre_d : N := N.of_nat (length (d_dr_re0 ++ d_dr_re1)).
Definition nre_v : N := N.of_nat (length d_vr_re).
Lemma shipped_device_fine : dev_table_fine shipped.
Proof.
  apply (device_tableb_ok shipped nre_d nre_v).
  - unfold nre_d. cbn [dr_re shipped]. unfold compile_all. rewrite map_length. reflexivity.
  - unfold nre_v. cbn [vr_re shipped]. unfold compile_all. rewrite map_length. reflexivity.
  - vm_cast_no_check (eq_refl true).
Qed.

(** ** Clients *)
Definition client_fineb (nbuf nre nef : N) (x : clientTuple) : bool :=
  (if (0 <=? ct_matchRI x)%Z then (ct_matchRI x <? Z.of_N nre)%Z else fitsb nbuf (ct_match64 x)) &&
  fitsb nbuf (ct_browser64 x) && fitsb nbuf (ct_engine64 x) && fitsb nbuf (ct_version64 x) &&
  ((ct_engineFI x =? -1)%Z || (ct_version64 x =? 0)%N && (0 <=? ct_engineFI x)%Z && (ct_engineFI x <? Z.of_N nef)%Z).
Definition always1b (b : blob) : bool :=
  match parse_re (unblob b) with Some (a, ng) => (1 <=? ng)%nat && always_sets 1 a | None => false end.
Definition client_tableb (nre : N) (idx : list (list clientTuple)) (ef : list engineFn) (ev : list (N * Z)) (evre : list blob)
  (buf : bytes) (hidx : list (N * N)) (hbuf : bytes) : bool :=
  let nbuf := N.of_nat (length buf) in
  (length idx =? 7)%nat &&
  forallb (fun ir => negb (match ir with [] => true | _ => false end) && forallb (client_fineb nbuf nre (N.of_nat (length ef))) ir) idx &&
  forallb (fun f => forallb (fun p => fitsb nbuf (snd p)) (fst f) && fitsb nbuf (snd f)) ef &&
  forallb (fun p => (0 <=? snd p)%Z && (snd p <? Z.of_nat (length evre))%Z) ev &&
  forallb always1b evre &&
  forallb (fun p => fitsb (N.of_nat (length hbuf)) (snd p)) hidx.
Lemma client_tableb_ok T nre evre : nre = N.of_nat (length (cr_re T)) -> cr_evre T = compile_all evre ->
  client_tableb nre (cr_idx T) (cr_ef T) (cr_ev T) evre (cr_buf T) (hr_idx T) (hr_buf T) = true -> client_table_fine T.
Proof.
  intros E1 E2 H. unfold client_tableb in H. cbv zeta in H.
  apply andb_prop in H as [H H6]. apply andb_prop in H as [H H5]. apply andb_prop in H as [H H4]. apply andb_prop in H as [H H3].
  apply andb_prop in H as [H1 H2]. rewrite forallb_forall in H2, H3, H4, H5, H6.
  split; [apply Nat.eqb_eq; exact H1|]. assert (HF : forall f, In f (cr_ef T) -> fn_fine T f).
  { intros f I. specialize (H3 f I). apply andb_prop in H3 as [A B]. split; [|exact (fitsb_ok _ _ _ eq_refl B)].
    rewrite forallb_forall in A. apply Forall_forall. intros p Ip. exact (fitsb_ok _ _ _ eq_refl (A p Ip)). }
  split; [|split; [|split]]; apply Forall_forall.
  - intros ir I. specialize (H2 ir I). apply andb_prop in H2 as [A B]. split; [destruct ir; discriminate|].
    rewrite forallb_forall in B. apply Forall_forall. intros x Ix. specialize (B x Ix). unfold client_fineb in B.
    apply andb_prop in B as [B B5]. apply andb_prop in B as [B B4]. apply andb_prop in B as [B B3]. apply andb_prop in B as [B1 B2].
    split. { intros R. replace (0 <=? ct_matchRI x)%Z with true in B1 by lia. apply (zindex_some _ nre); [exact E1|lia|lia]. }
    split. { intros R. replace (0 <=? ct_matchRI x)%Z with false in B1 by lia. exact (fitsb_ok _ _ _ eq_refl B1). }
    split; [exact (fitsb_ok _ _ _ eq_refl B2)|]. split; [exact (fitsb_ok _ _ _ eq_refl B3)|]. split; [exact (fitsb_ok _ _ _ eq_refl B4)|].
    apply orb_prop in B5 as [B5|B5]; [left; lia|right]. split; [lia|].
    destruct (zindex_some (cr_ef T) _ (ct_engineFI x) eq_refl ltac:(lia) ltac:(lia)) as [f Zf]. exists f. split; [exact Zf|].
    apply zindex_Ok in Zf as [_ Zf]. exact (HF f (nth_error_In _ _ Zf)).
  - intros p I. specialize (H4 p I). rewrite E2. unfold compile_all.
    apply (zindex_some _ (N.of_nat (length evre))); [rewrite map_length; reflexivity|lia|lia].
  - intros r I. rewrite E2 in I. unfold compile_all in I. apply in_map_iff in I as (b & <- & I). specialize (H5 b I). unfold always1b in H5.
    destruct (parse_re (unblob b)) as [[a ng]|] eqn:P; [|discriminate]. apply andb_prop in H5 as [A B].
    apply (always_compiled 1 _ a ng P); [apply Nat.leb_le; exact A|exact B].
  - intros p I. exact (fitsb_ok _ _ _ eq_refl (H6 p I)).
Qed.

Open Scope nat_scope.
Definition nre_c : N := N.of_nat (length d_cr_re).
Lemma shipped_client_fine : client_table_fine shipped.
Proof.
  apply (client_tableb_ok shipped nre_c d_cr_evre); [|reflexivity|].
  - unfold nre_c. cbn [cr_re shipped]. unfold compile_all. rewrite map_length. reflexivity.
  - vm_cast_no_check (eq_refl true).
Qed.

(** *** The entries that name a group their pattern does not have *)
Definition names_missing (ngs : list (option nat)) (x : clientTuple) : bool :=
  (0 <=? ct_matchRI x)%Z && (ct_version64 x =? 0)%N &&
  match nth_error ngs (Z.to_nat (ct_matchRI x)) with
  | Some (Some ng) => (Z.of_nat ng <? ct_browserVI x)%Z && (ct_browserVI x <? 2 * Z.of_nat ng + 2)%Z
  | _ => false
  end.
Fixpoint bad_in (ngs : list (option nat)) (idx k : nat) (ir : list clientTuple) : list (nat * nat) :=
  match ir with
  | [] => []
  | x :: r => if names_missing ngs x then (idx, k) :: bad_in ngs idx (S k) r else bad_in ngs idx (S k) r
  end.
Fixpoint bad_all (ngs : list (option nat)) (idx : nat) (l : list (list clientTuple)) : list (nat * nat) :=
  match l with [] => [] | ir :: r => bad_in ngs idx 0 ir ++ bad_all ngs (S idx) r end.

Lemma bad_in_iff ngs idx : forall ir k i j, In (i, j) (bad_in ngs idx k ir) <->
  i = idx /\ k <= j /\ exists x, nth_error ir (j - k) = Some x /\ names_missing ngs x = true.
Proof.
  induction ir as [|x ir IH]; intros k i j; cbn [bad_in].
  - split; [intros []|]. intros (_ & _ & x & E & _). destruct (j - k); discriminate.
  - split.
    + intros I. assert (C : (names_missing ngs x = true /\ (i, j) = (idx, k)) \/ In (i, j) (bad_in ngs idx (S k) ir)).
      { destruct (names_missing ngs x); [destruct I as [I|I]; auto|auto]. }
      destruct C as [[Hx [= -> ->]]|C].
      * split; [reflexivity|]. split; [lia|]. exists x. rewrite Nat.sub_diag. auto.
      * apply IH in C as (-> & Lk & y & E & Hy). split; [reflexivity|]. split; [lia|]. exists y.
        replace (j - k) with (S (j - S k)) by lia. auto.
    + intros (-> & Lk & y & E & Hy). destruct (Nat.eq_dec j k) as [->|Nk].
      * rewrite Nat.sub_diag in E. injection E as ->. rewrite Hy. left. reflexivity.
      * replace (j - k) with (S (j - S k)) in E by lia. cbn [nth_error] in E.
        assert (I : In (idx, j) (bad_in ngs idx (S k) ir)) by (apply IH; split; [reflexivity|split; [lia|eauto]]).
        destruct (names_missing ngs x); [right|]; exact I.
Qed.
Lemma bad_all_iff ngs : forall l idx i j, In (i, j) (bad_all ngs idx l) <->
  idx <= i /\ exists ir x, nth_error l (i - idx) = Some ir /\ nth_error ir j = Some x /\ names_missing ngs x = true.
Proof.
  induction l as [|ir l IH]; intros idx i j; cbn [bad_all].
  - split; [intros []|]. intros (_ & ir & x & E & _). destruct (i - idx); discriminate.
  - rewrite in_app_iff, IH, bad_in_iff. split.
    + intros [(-> & _ & x & E & Hx)|(Li & ir' & x & E1 & E2 & Hx)].
      * rewrite Nat.sub_0_r in E. split; [lia|]. exists ir, x. rewrite Nat.sub_diag. auto.
      * split; [lia|]. exists ir', x. replace (i - idx) with (S (i - S idx)) by lia. auto.
    + intros (Li & ir' & x & E1 & E2 & Hx). destruct (Nat.eq_dec i idx) as [->|Ni].
      * left. rewrite Nat.sub_diag in E1. injection E1 as <-. split; [reflexivity|]. split; [lia|]. exists x. rewrite Nat.sub_0_r. auto.
      * right. split; [lia|]. exists ir', x. replace (i - idx) with (S (i - S idx)) in E1 by lia. auto.
Qed.

Lemma shipped_bad : bad_all (group_counts d_cr_re) 0 d_cr_idx = broken_places.
Proof. vm_cast_no_check (eq_refl broken_places). Qed.

Lemma missing_iff T srcs idx ir x ua : cr_re T = compile_all srcs -> bad_all (group_counts srcs) 0 (cr_idx T) = broken_places ->
  nth_error (cr_idx T) idx = Some ir -> In x ir -> client_applies T ua x -> (missing_group T ua x <-> broken T idx x).
Proof.
  intros Er Eb I Ix Ap.
  assert (Nth : forall ri b, nth_error srcs ri = Some b -> nth_error (cr_re T) ri = Some (compile (unblob b))).
  { intros ri b E. rewrite Er. unfold compile_all. rewrite nth_error_map, E. reflexivity. }
  assert (Len : forall b a ng m, parse_re (unblob b) = Some (a, ng) -> re_find (compile (unblob b)) ua = Some m -> length m = (2 * S ng)%nat).
  { intros b a ng m P F. destruct (compile_ok _ _ _ P ua m F) as (ps & -> & Lp & _). rewrite flat_length, Lp. reflexivity. }
  assert (Eq : missing_group T ua x <-> names_missing (group_counts srcs) x = true).
  { unfold names_missing, group_counts. rewrite nth_error_map. split.
    - intros (r & m & R & V & Nr & F & B1 & B2). rewrite Er in Nr. unfold compile_all in Nr. rewrite nth_error_map in Nr.
      destruct (nth_error srcs (Z.to_nat (ct_matchRI x))) as [b|] eqn:E; [|discriminate]. injection Nr as <-. cbn [option_map].
      destruct (parse_re (unblob b)) as [[a ng]|] eqn:P.
      2: { cbn [compile re_find] in F. rewrite P in F. discriminate. }
      rewrite (Len b a ng m P F) in B1, B2. rewrite V. cbn [N.eqb]. lia.
    - intros H. apply andb_prop in H as [H H3]. apply andb_prop in H as [H1 H2].
      destruct (nth_error srcs (Z.to_nat (ct_matchRI x))) as [b|] eqn:E; [|discriminate]. cbn [option_map] in H3.
      destruct (parse_re (unblob b)) as [[a ng]|] eqn:P; [|discriminate]. pose proof (Nth _ _ E) as Nr.
      unfold client_applies, applies in Ap. assert (R : (0 <= ct_matchRI x)%Z) by lia.
      destruct Ap as [(_ & r & Nr' & Ap)|(Q & _)]; [|lia]. rewrite Nr in Nr'. injection Nr' as <-.
      destruct (re_find (compile (unblob b)) ua) as [m|] eqn:F; [|congruence].
      exists (compile (unblob b)), m. rewrite (Len b a ng m P F). repeat split; try assumption; lia. }
  rewrite Eq. unfold broken. split.
  - intros H. apply In_nth_error in Ix as [k Ek]. exists ir, k. split; [exact I|]. split; [|exact Ek].
    rewrite <- Eb. apply bad_all_iff. split; [lia|]. rewrite Nat.sub_0_r. eauto.
  - intros (ir' & k & I' & Hin & Ek). rewrite <- Eb in Hin. apply bad_all_iff in Hin as (_ & ir2 & y & E1 & E2 & Hy).
    rewrite Nat.sub_0_r, I' in E1. injection E1 as <-. rewrite Ek in E2. injection E2 as <-. exact Hy.
Qed.

Lemma shipped_client_panics mC mD h ua g : small ua -> In g client_getters ->
  (alone shipped mC mD h ua g = Panic <-> exists t idx x, client_is shipped mC ua t idx x /\ broken shipped idx x).
Proof.
  intros L G. rewrite (client_panics shipped shipped_client_sane shipped_client_fine mC mD h ua L g G).
  assert (Q : forall t idx x, client_is shipped mC ua t idx x -> (missing_group shipped ua x <-> broken shipped idx x)).
  { intros t idx x (bf & af & ir & _ & _ & _ & I & Fx).
    apply (missing_iff shipped d_cr_re idx ir x ua eq_refl shipped_bad I (first_in _ _ _ Fx)).
    destruct Fx as (l1 & l2 & _ & Ap & _). exact Ap. }
  split; intros (t & idx & x & CI & M); exists t, idx, x; (split; [exact CI|]); apply (Q t idx x CI); exact M.
Qed.

(** *** A user agent for each of them *)
Definition tuple_eqb (x y : clientTuple) : bool :=
  (ct_matchRI x =? ct_matchRI y)%Z && (ct_match64 x =? ct_match64 y)%N && (ct_browser64 x =? ct_browser64 y)%N &&
  (ct_browserVI x =? ct_browserVI y)%Z && (ct_engine64 x =? ct_engine64 y)%N && (ct_engineFI x =? ct_engineFI y)%Z &&
  (ct_version64 x =? ct_version64 y)%N && (ct_url64 x =? ct_url64 y)%N && (ct_type64 x =? ct_type64 y)%N.
Lemma tuple_eqb_ok x y : tuple_eqb x y = true -> x = y.
Proof. unfold tuple_eqb. destruct x, y. cbn. intros H. f_equal; lia. Qed.

(** [ua], with the single type [t] switched on, selects entry [k] of class [idx]. *)
Definition reaches (T : tables) (w : (nat * nat) * (N * bytes)) : bool :=
  let '((idx, k), (t, ua)) := w in
  existsb (fun p => (fst p =? t)%N && (snd p =? idx)%nat) client_order && (length ua <? 1000)%nat &&
  match nth_error (cr_idx T) idx with
  | Some ir => match search (ctest T ua) ir, nth_error ir k with Ok (Some x), Some y => tuple_eqb x y | _, _ => false end
  | None => false
  end.
Lemma reaches_ok T idx k t ua : reaches T ((idx, k), (t, ua)) = true ->
  exists ir x, nth_error (cr_idx T) idx = Some ir /\ nth_error ir k = Some x /\ client_is T t ua t idx x /\ small ua.
Proof.
  unfold reaches. intros H. apply andb_prop in H as [H H3]. apply andb_prop in H as [H1 H2].
  destruct (nth_error (cr_idx T) idx) as [ir|] eqn:I; [|discriminate].
  destruct (search (ctest T ua) ir) as [[x|]|] eqn:Sr; [|discriminate|discriminate].
  destruct (nth_error ir k) as [y|] eqn:K; [|discriminate]. apply tuple_eqb_ok in H3 as <-.
  exists ir, x. split; [reflexivity|]. split; [exact K|].
  assert (Fx : first (client_applies T ua) ir x) by (apply (search_some (ctest T ua)); [intros y b; apply hit_applies|exact Sr]).
  assert (Q : exists before after, client_order = before ++ (t, idx) :: after /\ Forall (fun p => N.land t (fst p) = 0%N) before /\ t <> 0%N).
  { apply existsb_exists in H1 as ([t' i'] & Hin & E). cbn [fst snd] in E. assert (t' = t /\ i' = idx) as [-> ->] by lia.
    unfold client_order in Hin. cbn in Hin.
    assert (Go : forall n b, firstn n client_order = b -> nth_error client_order n = Some (t, idx) -> Forall (fun p => N.land t (fst p) = 0%N) b -> t <> 0%N ->
      exists before after, client_order = before ++ (t, idx) :: after /\ Forall (fun p => N.land t (fst p) = 0%N) before /\ t <> 0%N).
    { intros n b Eb En Fb Nt. exists b, (skipn (S n) client_order). split; [|auto]. rewrite <- Eb.
      rewrite <- (firstn_skipn n client_order) at 1. f_equal. exact (skipn_cons _ _ _ En). }
    destruct Hin as [E'|[E'|[E'|[E'|[E'|[E'|[]]]]]]]; injection E' as <- <-.
    - apply (Go 0 [] eq_refl eq_refl); [repeat constructor|discriminate].
    - eapply (Go 1 _ eq_refl eq_refl); [repeat constructor|discriminate].
    - eapply (Go 2 _ eq_refl eq_refl); [repeat constructor|discriminate].
    - eapply (Go 3 _ eq_refl eq_refl); [repeat constructor|discriminate].
    - eapply (Go 4 _ eq_refl eq_refl); [repeat constructor|discriminate].
    - eapply (Go 5 _ eq_refl eq_refl); [repeat constructor|discriminate]. }
  destruct Q as (bf & af & EO & Fb & Nt). split; [|unfold small; lia].
  exists bf, af, ir. split; [exact EO|]. split; [|split; [unfold on; rewrite N.land_diag; exact Nt|auto]].
  eapply Forall_impl; [|exact Fb]. intros p Hp On. destruct (On Hp).
Qed.
Definition witnesses : list ((nat * nat) * (N * bytes)) :=
  [((1, 191), (1%N, bs "com.tcl.browser")); ((1, 279), (1%N, bs "ZTE Browser/"));
   ((3, 26), (4%N, bs "Symfony HttpClient/")); ((3, 93), (4%N, bs "Lavf/58.76.100")); ((3, 100), (4%N, bs "Android.LVLDM"));
   ((5, 43), (2%N, bs "RutubeBlackAndroid")); ((5, 468), (2%N, bs "Pods/3.0")); ((5, 516), (2%N, bs "Podu_player"))].
Lemma witnesses_ok : forallb (reaches shipped) witnesses = true.
Proof. vm_cast_no_check (eq_refl true). Qed.
Lemma broken_reached idx k : In (idx, k) broken_places ->
  exists t ua x ir, client_is shipped t ua t idx x /\ nth_error (cr_idx shipped) idx = Some ir /\ nth_error ir k = Some x /\
    forall mD h g, In g client_getters -> alone shipped t mD h ua g = Panic.
Proof.
  intros I. assert (W : exists t ua, In ((idx, k), (t, ua)) witnesses).
  { unfold broken_places in I. cbn [In] in I. unfold witnesses.
    repeat (destruct I as [I|I]; [injection I as <- <-; eexists; eexists; cbn [In]; eauto 10|]). destruct I. }
  destruct W as (t & ua & W). pose proof witnesses_ok as H. rewrite forallb_forall in H. apply H in W.
  apply reaches_ok in W as (ir & x & N1 & N2 & CI & L). exists t, ua, x, ir. split; [exact CI|]. split; [exact N1|]. split; [exact N2|].
  intros mD h g G. apply (shipped_client_panics t mD h ua g L G). exists t, idx, x. split; [exact CI|]. exists ir, k. auto.
Qed.

(** ** All three groups together *)
Lemma shipped_os_no_panic mC mD h ua g : small ua -> In g [GOS; GOSVersion; GOSVersionString] -> alone shipped mC mD h ua g <> Panic.
Proof.
  intros L G. destruct G as [<-|[<-|[<-|[]]]].
  - exact (os_no_panic shipped mC mD h ua shipped_os_fine shipped_os_sane L).
  - apply os_version_value. exact (os_version_no_panic shipped mC mD h ua shipped_os_fine shipped_os_sane L).
  - exact (os_version_no_panic shipped mC mD h ua shipped_os_fine shipped_os_sane L).
Qed.
Lemma short_small ua : short ua -> small ua.
Proof. unfold short, small. lia. Qed.
Lemma shipped_device_no_panic mC mD h ua g : short ua -> In g [GDeviceType; GBrand; GModel] -> alone shipped mC mD h ua g <> Panic.
Proof.
  intros L G. pose proof (shipped_os_no_panic mC mD h ua GOS (short_small _ L) ltac:(left; reflexivity)) as OS.
  pose proof (sane_compile_all (d_dr_re0 ++ d_dr_re1)) as SR. change (Forall sane_regex (dr_re shipped)) in SR.
  destruct G as [<-|[<-|[<-|[]]]].
  - exact (device_type_no_panic shipped SR shipped_device_fine mC mD h ua OS).
  - exact (brand_no_panic shipped SR shipped_device_fine mC mD h ua shipped_device_sane L OS).
  - exact (model_no_panic shipped SR shipped_device_fine mC mD h ua shipped_device_sane L OS).
Qed.
Lemma shipped_detects mC mD ua : short ua ->
  (detects shipped mC mD ua <-> forall t idx x, client_is shipped mC ua t idx x -> ~ broken shipped idx x).
Proof.
  intros L. pose proof (shipped_client_panics mC mD 0 ua GClientType (short_small _ L) ltac:(left; reflexivity)) as Q. unfold detects. split.
  - intros (H & _) t idx x CI B. apply H, Q. exists t, idx, x. auto.
  - intros H. split; [|split].
    + intros P. apply Q in P as (t & idx & x & CI & B). exact (H t idx x CI B).
    + apply shipped_device_no_panic; [exact L|left; reflexivity].
    + apply shipped_os_no_panic; [exact (short_small _ L)|left; reflexivity].
Qed.
Lemma client_panic_witness ua mC mD h g : existsb (fun w => (fst (snd w) =? mC)%N && beqs (snd (snd w)) ua) witnesses = true ->
  In g client_getters -> small ua /\ In g client_getters /\ alone shipped mC mD h ua g = Panic.
Proof.
  intros E G. apply existsb_exists in E as ([[idx k] [t ua']] & W & E). cbn [fst snd] in E. apply andb_prop in E as [E1 E2].
  apply beqs_eq in E2 as ->. assert (t = mC) as -> by lia. pose proof witnesses_ok as H. rewrite forallb_forall in H. pose proof (H _ W) as R.
  apply reaches_ok in R as (ir & x & N1 & N2 & CI & L). split; [exact L|]. split; [exact G|].
  apply (shipped_client_panics mC mD h ua g L G). exists mC, idx, x. split; [exact CI|]. exists ir, k. split; [exact N1|]. split; [|exact N2].
  assert (Q : map fst witnesses = broken_places) by reflexivity. rewrite <- Q. change (idx, k) with (fst ((idx, k), (mC, ua))). apply in_map. exact W.
Qed.

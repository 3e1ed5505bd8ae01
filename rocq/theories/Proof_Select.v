(** Search loops: which entry they find. *)
From Verif Require Import Model_Base Model_CacheEntry Model_Version Model_Ctx Model_Parse Spec_Getters Spec_Select
  Proof_Base.
From Coq Require Import Lia ZifyBool ZifyNat ZifyN.

Lemma text_slice buf e s : slice64 buf e = Ok s <-> text buf e s.
Proof.
  unfold slice64, e_decode, two32, text. cbn [fst snd]. split.
  - intros H. apply slice_Ok_inv in H as (L1 & L2 & a & b & -> & La & Ls). exists a, b. split; [reflexivity|]. lia.
  - intros (a & b & -> & La & Ls). rewrite <- La, <- Ls. apply slice_app.
Qed.
Lemma text_fun buf e s s' : text buf e s -> text buf e s' -> s = s'.
Proof. rewrite <- !text_slice. congruence. Qed.
Lemma text_zero buf s : text buf 0 s <-> s = [].
Proof.
  rewrite <- text_slice. unfold slice64. cbn. rewrite slice_ok by lia. cbn. split; [congruence|intros ->; reflexivity].
Qed.

Lemma zindex_Ok {A} (l : list A) i x : zindex l i = Ok x <-> (0 <= i)%Z /\ nth_error l (Z.to_nat i) = Some x.
Proof.
  unfold zindex, index. destruct (Z.ltb_spec i 0); [split; [discriminate|lia]|].
  replace (N.to_nat (Z.to_N i)) with (Z.to_nat i) by lia.
  destruct (nth_error l (Z.to_nat i)); split; try discriminate.
  - intros [= ->]. split; [lia|reflexivity].
  - intros [_ [= ->]]. reflexivity.
  - intros [_ E]. discriminate.
Qed.
Lemma index_nth {A} (l : list A) i x : index l i = Ok x <-> nth_error l (N.to_nat i) = Some x.
Proof. unfold index. destruct (nth_error l (N.to_nat i)); split; congruence. Qed.
Lemma zindex_nonempty {A} (l : list A) x : zindex l (Z.of_nat (length l) - 1) = Ok x -> l <> [].
Proof. intros H ->. cbn in H. discriminate. Qed.

Lemma substr_occurs ua s : substr_hit ua s = true <-> occurs s ua.
Proof.
  unfold substr_hit, occurs. rewrite andb_true_iff, contains_b_iff, Nat.ltb_lt.
  destruct s; cbn; split; intros [H1 H2]; split; auto; try congruence; try lia.
Qed.
Lemma match_find r ua : re_match r ua = true <-> re_find r ua <> None.
Proof. unfold re_match. destruct (re_find r ua); split; congruence. Qed.

(** The test every loop performs on an entry. *)
Definition hit (res : list regex) (buf : bytes) (ri : Z) (m64 : N) (ua : bytes) : Model_Base.res bool :=
  if (0 <=? ri)%Z then rbind (zindex res ri) (fun r => Ok (re_match r ua))
  else rbind (slice64 buf m64) (fun si => Ok (substr_hit ua si)).

Lemma hit_applies res buf ri m64 ua b : hit res buf ri m64 ua = Ok b -> (b = true <-> applies res buf ri m64 ua).
Proof.
  unfold hit, applies. destruct (Z.leb_spec 0 ri).
  - destruct (zindex res ri) as [r|] eqn:E; cbn; [|discriminate]. intros [= <-].
    apply zindex_Ok in E as [_ E]. rewrite match_find. split.
    + intros M. left. split; [lia|]. exists r. auto.
    + intros [(_ & r' & E' & M)|[L _]]; [congruence|lia].
  - destruct (slice64 buf m64) as [s|] eqn:E; cbn; [|discriminate]. intros [= <-].
    apply text_slice in E. rewrite substr_occurs. split.
    + intros M. right. split; [lia|]. exists s. auto.
    + intros [[L _]|(_ & s' & E' & M)]; [lia|]. rewrite (text_fun _ _ _ _ E E'). exact M.
Qed.

(** A search with a test. *)
Fixpoint search {A} (test : A -> res bool) (l : list A) : res (option A) :=
  match l with
  | [] => Ok None
  | x :: l' => rbind (test x) (fun b => if b then Ok (Some x) else search test l')
  end.

Lemma search_some {A} (test : A -> res bool) (P : A -> Prop) l x :
  (forall y b, test y = Ok b -> (b = true <-> P y)) -> search test l = Ok (Some x) -> first P l x.
Proof.
  intros HP. induction l as [|y l IH]; cbn; [discriminate|].
  destruct (test y) as [[]|] eqn:E; cbn; try discriminate.
  - intros [= ->]. exists [], l. split; [reflexivity|]. split; [apply (HP _ _ E); reflexivity|intros ? []].
  - intros H. destruct (IH H) as (l1 & l2 & -> & Px & N). exists (y :: l1), l2. split; [reflexivity|]. split; [exact Px|].
    intros z [<-|Hz]; [|exact (N z Hz)]. intros Py. apply (HP _ _ E) in Py. discriminate.
Qed.
Lemma search_none {A} (test : A -> res bool) (P : A -> Prop) l :
  (forall y b, test y = Ok b -> (b = true <-> P y)) -> search test l = Ok None -> none P l.
Proof.
  intros HP. induction l as [|y l IH]; cbn; [intros _ ? []|].
  destruct (test y) as [[]|] eqn:E; cbn; try discriminate.
  intros H z [<-|Hz]; [|exact (IH H z Hz)]. intros Py. apply (HP _ _ E) in Py. discriminate.
Qed.
Lemma search_ok {A} (test : A -> res bool) l : Forall (fun x => test x <> Panic) l -> search test l <> Panic.
Proof.
  induction 1 as [|x l H _ IH]; cbn; [discriminate|]. destruct (test x) as [[]|]; cbn; congruence.
Qed.
Lemma search_in {A} (test : A -> res bool) l x : search test l = Ok (Some x) -> In x l /\ test x = Ok true.
Proof.
  induction l as [|y l IH]; cbn; [discriminate|]. destruct (test y) as [[]|] eqn:E; cbn; try discriminate.
  - intros [= ->]. auto.
  - intros H. destruct (IH H). auto.
Qed.

Lemma first_in {A} (P : A -> Prop) l x : first P l x -> In x l.
Proof. intros (l1 & l2 & -> & _). apply in_or_app. right. left. reflexivity. Qed.

(** The first element is unique. *)
Lemma first_unique {A} (P : A -> Prop) l x y : first P l x -> first P l y -> x = y.
Proof.
  intros (a1 & b1 & E1 & P1 & N1) (a2 & b2 & E2 & P2 & N2). rewrite E1 in E2. clear E1 l.
  revert a2 E2 N2. induction a1 as [|u a1 IH]; intros [|v a2] E2 N2; cbn in E2; injection E2.
  - auto.
  - intros _ <-. destruct (N2 x (or_introl eq_refl) P1).
  - intros _ ->. destruct (N1 y (or_introl eq_refl) P2).
  - intros E <-. refine (IH _ a2 E _); intros z Hz; [apply N1|apply N2]; right; exact Hz.
Qed.
Lemma first_none {A} (P : A -> Prop) l x : first P l x -> none P l -> False.
Proof. intros (a & b & -> & Px & _) N. apply (N x); [|exact Px]. apply in_or_app. right. left. reflexivity. Qed.

(** ** The loops as searches *)
Section Loops.
Variable T : tables.

Definition ctest (ua : bytes) (x : clientTuple) := hit (cr_re T) (cr_buf T) (ct_matchRI x) (ct_match64 x) ua.
Definition dtest (ua : bytes) (x : deviceTuple) := hit (dr_re T) (dr_buf T) (dt_matchRI x) (dt_match64 x) ua.
Definition mtest (ua : bytes) (x : modelTuple) := hit (dr_re T) (dr_buf T) (mt_matchRI x) (mt_match64 x) ua.
Definition vtest (ua : bytes) (x : osVersionTuple) := hit (or_re T) (or_buf T) (ov_matchRI x) (ov_match64 x) ua.

Lemma engine_loop_search ua l : engine_loop T ua l = search (ctest ua) l.
Proof.
  induction l as [|x l IH]; [reflexivity|]. cbn. unfold ctest, hit. destruct (0 <=? ct_matchRI x)%Z.
  - destruct (zindex (cr_re T) (ct_matchRI x)); cbn; [|reflexivity]. rewrite IH. reflexivity.
  - destruct (slice64 (cr_buf T) (ct_match64 x)); cbn; [|reflexivity]. rewrite IH. reflexivity.
Qed.
Lemma device_loop_search ua l : device_loop T ua l = search (dtest ua) l.
Proof.
  induction l as [|x l IH]; [reflexivity|]. cbn. unfold dtest, hit. destruct (0 <=? dt_matchRI x)%Z.
  - destruct (zindex (dr_re T) (dt_matchRI x)); cbn; [|reflexivity]. rewrite IH. reflexivity.
  - destruct (slice64 (dr_buf T) (dt_match64 x)); cbn; [|reflexivity]. rewrite IH. reflexivity.
Qed.

(** What the client loop does with the entry it finds. *)
Definition client_after (x : clientTuple) : M unit :=
  fun c => if (0 <=? ct_matchRI x)%Z then
             match zindex (cr_re T) (ct_matchRI x) with Ok r => client_version x r c | Panic => (c, Panic) end
           else (c, Ok tt).
Lemma client_loop_search l c :
  client_loop T l c =
  match search (ctest (c_src c)) l with
  | Ok (Some x) => let (c', r) := client_after x c in (c', rbind r (fun _ => Ok (Some x)))
  | Ok None => (c, Ok None)
  | Panic => (c, Panic)
  end.
Proof.
  induction l as [|x l IH]; [reflexivity|]. cbn [client_loop search]. unfold ctest at 1, hit, client_after.
  destruct (0 <=? ct_matchRI x)%Z eqn:R.
  - unfold mbind at 1, mlift. destruct (zindex (cr_re T) (ct_matchRI x)) as [r|] eqn:Z; cbn [rbind]; [|reflexivity].
    unfold mbind at 1, mget. destruct (re_match r (c_src c)); [|rewrite IH].
    + rewrite R, Z. unfold mbind, mret. destruct (client_version x r c) as [c' [?|]]; reflexivity.
    + reflexivity.
  - unfold mbind at 1, mlift. destruct (slice64 (cr_buf T) (ct_match64 x)) as [s|] eqn:Z; cbn [rbind]; [|reflexivity].
    unfold mbind at 1, mget. destruct (substr_hit (c_src c) s); [|rewrite IH; reflexivity].
    rewrite R. reflexivity.
Qed.

(** Operating systems: the entries with a zero text and no pattern never apply. *)
Definition ostest (ua : bytes) (x : osTuple) : res bool :=
  if (0 <=? ot_matchRI x)%Z then
    rbind (zindex (or_re T) (ot_matchRI x)) (fun r =>
      Ok (negb (in_list (re_src r) osMaybeMacRE && maybe_mac ua) &&
          negb (in_list (re_src r) osMaybeNotANDRE && maybe_not_and ua) && re_match r ua))
  else rbind (slice64 (or_buf T) (ot_match64 x)) (fun si => Ok (substr_hit ua si)).

Definition os_after (x : osTuple) : M unit :=
  fun c => if (0 <=? ot_matchRI x)%Z then
             match zindex (or_re T) (ot_matchRI x) with Ok r => os_hit T x r c | Panic => (c, Panic) end
           else (up_osName (ot_name64 x) c, Ok tt).
Lemma slice_zero (buf : bytes) : slice64 buf 0 = Ok [].
Proof. apply text_slice, text_zero. reflexivity. Qed.

Lemma os_loop_search l c :
  os_loop T (maybe_mac (c_src c)) (maybe_not_and (c_src c)) l c =
  match search (ostest (c_src c)) l with
  | Ok (Some x) => let (c', r) := os_after x c in (c', rbind r (fun _ => Ok (Some x)))
  | Ok None => (c, Ok None)
  | Panic => (c, Panic)
  end.
Proof.
  induction l as [|x l IH]; [reflexivity|]. cbn [os_loop search]. unfold ostest at 1, os_after.
  destruct (0 <=? ot_matchRI x)%Z eqn:R.
  - unfold mbind at 1, mlift. destruct (zindex (or_re T) (ot_matchRI x)) as [r|] eqn:Z; cbn [rbind]; [|reflexivity].
    destruct (in_list (re_src r) osMaybeMacRE && maybe_mac (c_src c)); cbn [negb andb]; [rewrite IH; reflexivity|].
    destruct (in_list (re_src r) osMaybeNotANDRE && maybe_not_and (c_src c)); cbn [negb andb]; [rewrite IH; reflexivity|].
    unfold mbind at 1, mget. destruct (re_match r (c_src c)); [|rewrite IH; reflexivity].
    rewrite R, Z. unfold mbind, mret. destruct (os_hit T x r c) as [c' [?|]]; reflexivity.
  - destruct (N.eqb_spec (ot_match64 x) 0) as [E0|E0]; cbn [negb].
    + rewrite E0, slice_zero. cbn [rbind]. rewrite IH. reflexivity.
    + unfold mbind at 1, mlift. destruct (slice64 (or_buf T) (ot_match64 x)) as [s|] eqn:Z; cbn [rbind]; [|reflexivity].
      unfold mbind at 1, mget. destruct (substr_hit (c_src c) s); [|rewrite IH; reflexivity].
      rewrite R. reflexivity.
Qed.

Definition os_ver_after (v : osVersionTuple) : M unit :=
  fun c => if (0 <=? ov_matchRI v)%Z && negb (ov_versionSI v =? -1)%Z then
             match zindex (or_re T) (ov_matchRI v) with
             | Ok re =>
                 let m := re_groups re (c_src c) in
                 if (ov_versionSI v <? Z.of_nat (length m))%Z then
                   match Model_Parse.group m (ov_versionSI v) with
                   | Ok g => if negb (fst g =? -1)%Z && negb (snd g =? -1)%Z
                             then (up_osVersion (encode64 (fst g) (snd g)) c, Ok tt) else (c, Ok tt)
                   | Panic => (c, Panic)
                   end
                 else (c, Ok tt)
             | Panic => (c, Panic)
             end
           else (set_flag flagOSVerBufSrc (up_osVersion (ov_version64 v) c), Ok tt).
Lemma os_ver_loop_search l c :
  os_ver_loop T l c =
  match search (vtest (c_src c)) l with
  | Ok (Some v) => os_ver_after v c
  | Ok None => (c, Ok tt)
  | Panic => (c, Panic)
  end.
Proof.
  induction l as [|x l IH]; [reflexivity|]. cbn [os_ver_loop search]. unfold vtest at 1, hit, os_ver_after.
  destruct (0 <=? ov_matchRI x)%Z eqn:R.
  - unfold mbind at 1, mlift. destruct (zindex (or_re T) (ov_matchRI x)) as [r|] eqn:Z; cbn [rbind]; [|reflexivity].
    unfold mbind at 1, mget. destruct (re_match r (c_src c)); [|rewrite IH; reflexivity].
    rewrite R, Z. cbn [andb]. destruct (ov_versionSI x =? -1)%Z; cbn [negb]; [reflexivity|].
    destruct (ov_versionSI x <? Z.of_nat (length (re_groups r (c_src c))))%Z; [|reflexivity].
    unfold mbind, mlift. destruct (Model_Parse.group (re_groups r (c_src c)) (ov_versionSI x)) as [g|]; [|reflexivity].
    destruct (negb (fst g =? -1)%Z && negb (snd g =? -1)%Z); reflexivity.
  - destruct (N.eqb_spec (ov_match64 x) 0) as [E0|E0]; cbn [negb].
    + rewrite E0, slice_zero. cbn [rbind]. rewrite IH. reflexivity.
    + unfold mbind at 1, mlift. destruct (slice64 (or_buf T) (ov_match64 x)) as [s|] eqn:Z; cbn [rbind]; [|reflexivity].
      unfold mbind at 1, mget. destruct (substr_hit (c_src c) s); [|rewrite IH; reflexivity].
      rewrite R. reflexivity.
Qed.

(** Models: the loop reads the table by index. *)
Fixpoint index_search {A} (l : list A) (test : A -> res bool) (is : list N) : res (option A) :=
  match is with
  | [] => Ok None
  | i :: is' => rbind (index l i) (fun x => rbind (test x) (fun b => if b then Ok (Some x) else index_search l test is'))
  end.

Definition model_after (x : deviceTuple) (def : N) (m : modelTuple) : M N :=
  fun c => if (0 <=? mt_matchRI m)%Z then
             match zindex (dr_re T) (mt_matchRI m) with
             | Ok r => mbind (device_buf_mne1 T (mt_model64 m) r) (fun _ => mlift (device_eval_type T (mt_type64 m) (dt_type64 x) def)) c
             | Panic => (c, Panic)
             end
           else mbind (device_buf_mne T (mt_model64 m)) (fun _ => mlift (device_eval_type T (mt_type64 m) (dt_type64 x) def)) c.
Lemma model_loop_search x def is_ c :
  model_loop T x def is_ c =
  match index_search (dr_dm T) (mtest (c_src c)) is_ with
  | Ok (Some m) => model_after x def m c
  | Ok None => (c, Ok def)
  | Panic => (c, Panic)
  end.
Proof.
  induction is_ as [|i l IH]; [reflexivity|]. cbn [model_loop index_search]. unfold mbind at 1, mlift at 1.
  destruct (index (dr_dm T) i) as [m|]; cbn [rbind]; [|reflexivity]. unfold mtest at 1, hit, model_after.
  destruct (0 <=? mt_matchRI m)%Z eqn:R.
  - unfold mbind at 1, mlift at 1. destruct (zindex (dr_re T) (mt_matchRI m)) as [r|] eqn:Z; cbn [rbind]; [|reflexivity].
    unfold mbind at 1, mget. destruct (re_match r (c_src c)); [|rewrite IH; reflexivity].
    rewrite R, Z. reflexivity.
  - destruct (N.eqb_spec (mt_match64 m) 0) as [E0|E0]; cbn [negb].
    + rewrite E0, slice_zero. cbn [rbind]. rewrite IH. reflexivity.
    + unfold mbind at 1, mlift at 1. destruct (slice64 (dr_buf T) (mt_match64 m)) as [s|] eqn:Z; cbn [rbind]; [|reflexivity].
      unfold mbind at 1, mget. destruct (substr_hit (c_src c) s); [|rewrite IH; reflexivity].
      rewrite R. reflexivity.
Qed.

(** Index loops over [lo, hi) are searches of the range, as long as the indices exist. *)
Lemma nrange_cons lo hi : (lo < hi)%N -> nrange lo hi = lo :: nrange (lo + 1) hi.
Proof.
  intros H. unfold nrange. replace (N.to_nat (hi - lo)) with (S (N.to_nat (hi - (lo + 1)))) by lia.
  cbn [seq map]. f_equal; [lia|]. rewrite <- seq_shift, map_map. apply map_ext. intros k. lia.
Qed.
Lemma nrange_nil lo hi : (hi <= lo)%N -> nrange lo hi = [].
Proof. intros H. unfold nrange. replace (N.to_nat (hi - lo)) with 0 by lia. reflexivity. Qed.

Lemma skipn_cons {A} (l : list A) n x : nth_error l n = Some x -> skipn n l = x :: skipn (S n) l.
Proof.
  revert n. induction l as [|y l IH]; intros [|n] H; try discriminate H; cbn in *; [congruence|]. exact (IH n H).
Qed.

Lemma index_search_range {A} (l : list A) test hi : forall k lo r, k = N.to_nat (hi - lo) ->
  index_search l test (nrange lo hi) = Ok r ->
  search test (firstn (N.to_nat (hi - lo)) (skipn (N.to_nat lo) l)) = Ok r.
Proof.
  induction k as [|k IH]; intros lo r Hk.
  - rewrite nrange_nil by lia. replace (N.to_nat (hi - lo)) with 0 by lia. cbn. auto.
  - rewrite nrange_cons by lia. replace (N.to_nat (hi - lo)) with (S (N.to_nat (hi - (lo + 1)))) by lia.
    cbn [index_search]. destruct (index l lo) as [x|] eqn:E; cbn [rbind]; [|discriminate].
    apply index_nth in E. rewrite (skipn_cons _ _ _ E). cbn [firstn search].
    destruct (test x) as [[]|]; cbn [rbind]; auto. intros H.
    replace (S (N.to_nat lo)) with (N.to_nat (lo + 1)) by lia. apply IH; [lia|exact H].
Qed.
Lemma index_search_ok {A} (l : list A) test hi : forall k lo, k = N.to_nat (hi - lo) ->
  (hi <= N.of_nat (length l))%N -> Forall (fun x => test x <> Panic) l ->
  index_search l test (nrange lo hi) <> Panic.
Proof.
  induction k as [|k IH]; intros lo Hk B F.
  - rewrite nrange_nil by lia. discriminate.
  - rewrite nrange_cons by lia. cbn [index_search].
    destruct (index_ok l lo) as [x E]; [lia|]. rewrite E. cbn [rbind]. apply index_nth in E. apply nth_error_In in E.
    rewrite Forall_forall in F. specialize (F x E) as Fx. destruct (test x) as [[]|]; cbn; try congruence.
    apply IH; [lia|exact B|rewrite Forall_forall; exact F].
Qed.
Lemma index_search_in {A} (l : list A) test is_ x : index_search l test is_ = Ok (Some x) -> In x l /\ test x = Ok true.
Proof.
  induction is_ as [|i is_ IH]; cbn; [discriminate|]. destruct (index l i) as [y|] eqn:E; cbn; [|discriminate].
  destruct (test y) as [[]|] eqn:Y; cbn; try discriminate; [|exact IH].
  intros [= ->]. apply index_nth in E. apply nth_error_In in E. auto.
Qed.
End Loops.

(** Entries shadowed by earlier ones: the check. *)
From Coq Require Import Lia ZifyBool ZifyNat ZifyN.
From Verif Require Import Model_Base Model_Ctx Model_Parse Model_Regex Spec_Select Spec_Dead Spec_Regex
  Proof_Base Proof_Regex Proof_Pattern Proof_Word Proof_Select Proof_OS Proof_Covers Proof_Quick Proof_Dead.
Open Scope nat_scope.

Definition compiled (res : list regex) : Prop := forall r, In r res -> r = compile (re_src r).

(** A fixed ASCII text as a sequence of expressions. *)
Definition lits (s : bytes) : list re := map (fun b => Cls false [(bn b, bn b)]) s.
Definition asciib (s : bytes) : bool := forallb (fun b => (bn b <? 128)%N) s.
Lemma lits_langs s t : asciib s = true -> forall u, exists v w, runes (s ++ t) = v ++ w /\ langs (lits s) u v w.
Proof.
  induction s as [|b s IH]; intros H u.
  - exists [], (runes t). split; reflexivity.
  - cbn in H. apply andb_prop in H. destruct H as [B H]. 
    assert (R : runes ((b :: s) ++ t) = (bn b, 1) :: runes (s ++ t)).
    { unfold runes. cbn [app length runes_fuel]. unfold decode_rune. cbn [map]. rewrite B. cbn [snd skipn]. reflexivity. }
    destruct (IH H (u ++ [(bn b, 1)])) as (v & w & E & L). exists ((bn b, 1) :: v), w. split; [rewrite R, E; reflexivity|].
    cbn [lits map]. apply langs_cls. exists (bn b), 1, v. split; [reflexivity|]. split; [|exact L].
    unfold cls_mem, in_rng. cbn. rewrite N.leb_refl. reflexivity.
Qed.
Lemma occurs_langs s ua : asciib s = true -> occurs s ua -> exists u v w, runes ua = u ++ v ++ w /\ langs (lits s) u v w.
Proof.
  intros A (N & a & b & ->). destruct s as [|c s]; [contradiction|].
  assert (C : (bn c < 128)%N) by (cbn in A; lia).
  pose proof (runes_more c (s ++ b) C (length a) a (le_n _)) as R. cbn [app] in *. rewrite R.
  destruct (lits_langs (c :: s) b A (runes a)) as (v & w & E & L). exists (runes a), v, w. split; [f_equal; exact E|exact L].
Qed.

Section Entries.
Variable A : Type.
Variables (res : list regex) (buf : bytes) (ri : A -> Z) (m64 : A -> N).
Hypothesis CO : compiled res.

(** The pattern of an entry, and what it looks for. *)
Definition re_of (x : A) : list re :=
  if (0 <=? ri x)%Z then
    match nth_error res (Z.to_nat (ri x)) with Some r => match parse_re (re_src r) with Some (a, _) => [a] | None => [] end | None => [] end
  else [].
Definition seq_of (x : A) : option (list re) :=
  if (0 <=? ri x)%Z then
    match nth_error res (Z.to_nat (ri x)) with Some r => match parse_re (re_src r) with Some (a, _) => Some [a] | None => None end | None => None end
  else match slice64 buf (m64 x) with Ok s => if asciib s then Some (lits s) else None | Panic => None end.
Definition tests (ua : bytes) (x : A) := hit res buf (ri x) (m64 x) ua.

Lemma compiled_nth i r : nth_error res i = Some r -> r = compile (re_src r).
Proof. intros E. exact (CO r (nth_error_In _ _ E)). Qed.
Lemma zindex_nth i r : (0 <= i)%Z -> nth_error res (Z.to_nat i) = Some r -> zindex res i = Ok r.
Proof.
  intros L E. unfold zindex. destruct (Z.ltb_spec i 0); [lia|]. unfold index.
  replace (N.to_nat (Z.to_N i)) with (Z.to_nat i) by lia. rewrite E. reflexivity.
Qed.
Lemma seq_hit ua x p : seq_of x = Some p -> exists b, tests ua x = Ok b /\ (b = true -> exists u v w, runes ua = u ++ v ++ w /\ langs p u v w).
Proof.
  unfold seq_of, tests, hit. destruct (Z.leb_spec 0 (ri x)) as [L|L].
  - destruct (nth_error res _) as [r|] eqn:E; [|discriminate]. destruct (parse_re (re_src r)) as [[a ng]|] eqn:P; [|discriminate]. intros H. injection H as <-.
    rewrite (zindex_nth _ _ L E). cbn [rbind]. eexists. split; [reflexivity|]. intros M. apply match_find in M.
    rewrite (compiled_nth _ _ E) in M. apply (compile_lang _ a ng ua P) in M. destruct M as (u & v & w & R & M).
    exists u, v, w. split; [exact R|]. exists v, []. rewrite app_nil_r. split; [reflexivity|]. split; [exact M|reflexivity].
  - destruct (slice64 buf (m64 x)) as [s|]; [|discriminate]. destruct (asciib s) eqn:S; [|discriminate]. intros H. injection H as <-. cbn [rbind].
    eexists. split; [reflexivity|]. intros M. apply substr_occurs in M. exact (occurs_langs s ua S M).
Qed.
Lemma re_hit ua y a : In a (re_of y) -> found a (runes ua) -> tests ua y = Ok true /\ exists r, (0 <= ri y)%Z /\ nth_error res (Z.to_nat (ri y)) = Some r.
Proof.
  unfold re_of, tests, hit. destruct (Z.leb_spec 0 (ri y)) as [L|L]; [|intros []].
  destruct (nth_error res _) as [r|] eqn:E; [|intros []]. destruct (parse_re (re_src r)) as [[b ng]|] eqn:P; [|intros []]. intros [<-|[]] F.
  rewrite (zindex_nth _ _ L E). cbn [rbind]. split; [|exists r; auto]. f_equal. apply match_find. rewrite (compiled_nth _ _ E).
  apply (compile_lang _ b ng ua P). exact F.
Qed.

(** Entry [i] is shadowed by the entries [js], which are before it and of the right kind. *)
Definition shadow_check (kind : A -> bool) (l : list A) (d : nat * list nat) : bool :=
  match nth_error l (fst d) with
  | Some x => match seq_of x with
      | Some p => has 300 p (flat_map (fun j => if j <? fst d then match nth_error l j with Some y => if kind y then re_of y else [] | None => [] end else []) (snd d))
      | None => false
      end
  | None => false
  end.
Lemma shadow_ok kind l d : shadow_check kind l d = true -> forall ua,
  exists x b, nth_error l (fst d) = Some x /\ tests ua x = Ok b /\
    (b = true -> exists j y, j < fst d /\ nth_error l j = Some y /\ kind y = true /\ tests ua y = Ok true).
Proof.
  unfold shadow_check. intros H ua. destruct (nth_error l (fst d)) as [x|]; [|discriminate H]. destruct (seq_of x) as [p|] eqn:S; [|discriminate H].
  destruct (seq_hit ua x p S) as (b & B & K). exists x, b. split; [reflexivity|]. split; [exact B|]. intros T.
  destruct (K T) as (u & v & w & R & L). destruct (has_found _ _ _ H u v w L) as (a & I & F). rewrite <- R in F.
  apply in_flat_map in I. destruct I as (j & _ & I). destruct (PeanoNat.Nat.ltb_spec j (fst d)) as [J|J]; [|destruct I].
  destruct (nth_error l j) as [y|] eqn:Y; [|destruct I]. destruct (kind y) eqn:KY; [|destruct I].
  exists j, y. split; [exact J|]. split; [exact Y|]. split; [exact KY|]. exact (proj1 (re_hit ua y a I F)).
Qed.

End Entries.

Section Alive.
Variable A : Type.
(** Witnesses: [w] picks the entry at its place; the empty text is no witness. *)
Variable q : A -> quick.
Fixpoint alive_check (sure : bytes -> A -> bool) (before : list quick) (l : list A) (ws : list bytes) : bool :=
  match l, ws with
  | [], [] => true
  | x :: l', w :: ws' =>
      let before' := q x :: before in
      match w with
      | [] => alive_check sure before' l' ws'
      | _ => let p := probe_of w in
             if sure w x then if forallb (fun y => quick_miss y p) before then alive_check sure before' l' ws' else false else false
      end
  | _, _ => false
  end.
Lemma alive_from (Q : bytes -> A -> Prop) sure l : (forall w x, sure w x = true -> Q w x) -> (forall w x, quick_miss (q x) (probe_of w) = true -> ~ Q w x) ->
  forall done before ws, (forall x, In x done -> In (q x) before) -> alive_check sure before l ws = true ->
  length ws = length l /\ forall i w, nth_error ws i = Some w -> w <> [] -> picked (Q w) (done ++ l) (length done + i).
Proof.
  intros HS HM. induction l as [|x l IH]; intros done before ws D H; destruct ws as [|w ws]; try discriminate H.
  - split; [reflexivity|]. intros [|i]; discriminate.
  - assert (D' : forall y, In y (done ++ [x]) -> In (q y) (q x :: before)).
    { intros y I. apply in_app_iff in I. destruct I as [I|[<-|[]]]; [right; exact (D y I)|left; reflexivity]. }
    assert (R : alive_check sure (q x :: before) l ws = true /\ (w <> [] -> picked (Q w) (done ++ x :: l) (length done))).
    { cbn [alive_check] in H. destruct w as [|b w]; [split; [exact H|intros N; contradiction (N eq_refl)]|].
      destruct (sure (b :: w) x) eqn:S; [|discriminate H]. destruct (forallb _ before) eqn:F; [|discriminate H]. split; [exact H|]. intros _.
      exists x. split; [rewrite nth_error_app2, PeanoNat.Nat.sub_diag by lia; reflexivity|]. split; [exact (HS _ _ S)|].
      intros j y J E. rewrite nth_error_app1 in E by exact J. apply nth_error_In in E. rewrite forallb_forall in F. exact (HM _ _ (F _ (D y E))). }
    destruct R as [R P]. destruct (IH (done ++ [x]) _ ws D' R) as [L K]. split; [cbn; rewrite L; reflexivity|].
    intros [|i] v E N; cbn in E.
    + injection E as <-. rewrite PeanoNat.Nat.add_0_r. exact (P N).
    + specialize (K i v E N). rewrite <- app_assoc, app_length in K. cbn [app length] in K. replace (length done + S i) with (length done + 1 + i) by lia. exact K.
Qed.
Lemma alive_ok (Q : bytes -> A -> Prop) sure l ws : (forall w x, sure w x = true -> Q w x) -> (forall w x, quick_miss (q x) (probe_of w) = true -> ~ Q w x) ->
  alive_check sure [] l ws = true -> length ws = length l /\ forall i w, nth_error ws i = Some w -> w <> [] -> picked (Q w) l i.
Proof. intros HS HM H. apply (alive_from Q sure l HS HM [] [] ws); [intros x []|exact H]. Qed.
End Alive.

(** The quick test of an entry. *)
Definition quick_of (res : list regex) (buf : bytes) (i : Z) (e : N) : quick :=
  if (0 <=? i)%Z then match nth_error res (Z.to_nat i) with Some r => quick_re (re_src r) | None => QUnknown end
  else match slice64 buf e with Ok [] => QNever | Ok s => QLit s | Panic => QUnknown end.
Lemma quick_of_ok res buf i e ua : compiled res -> quick_miss (quick_of res buf i e) (probe_of ua) = true -> ~ applies res buf i e ua.
Proof.
  intros CO. unfold quick_of, applies. destruct (Z.leb_spec 0 i) as [L|L]; intros H [(L' & r & E & F)|(L' & s & TX & O)]; try lia.
  - rewrite E in H. apply F. rewrite (CO r (nth_error_In _ _ E)). apply quick_re_ok. exact H.
  - apply (proj2 (text_slice _ _ _)) in TX. rewrite TX in H. destruct s as [|b s]; [destruct O as [O _]; contradiction (O eq_refl)|].
    cbn [quick_miss probe_of pr_ua] in H. apply Bool.negb_true_iff in H. apply Bool.not_true_iff_false in H. apply H.
    apply contains_b_iff. exact (proj2 O).
Qed.

(** ** A whole table *)
Section Table.
Variable T : tables.
Hypothesis CC : compiled (cr_re T).
Hypothesis CO : compiled (or_re T).
Hypothesis CD : compiled (dr_re T).

(** Operating systems: an entry that hides another must not be skipped itself. *)
Definition os_kind (x : osTuple) : bool :=
  match nth_error (or_re T) (Z.to_nat (ot_matchRI x)) with
  | Some r => negb (in_list (re_src r) osMaybeMacRE || in_list (re_src r) osMaybeNotANDRE) | None => false end.
Definition os_shadow (d : nat * list nat) : bool := shadow_check _ (or_re T) (or_buf T) ot_matchRI ot_match64 os_kind (or_os T) d.
Lemma os_shadow_ok ds : forallb os_shadow ds = true -> forall ua, shadowed (ostest T ua) (map fst ds) (or_os T).
Proof.
  intros H ua i x I E. apply in_map_iff in I. destruct I as (d & <- & I). rewrite forallb_forall in H. specialize (H d I).
  destruct (shadow_ok _ _ _ _ _ CO _ _ _ H ua) as (x' & b & E' & B & K). rewrite E in E'. injection E' as <-.
  assert (Y : forall y b, tests _ (or_re T) (or_buf T) ot_matchRI ot_match64 ua y = Ok b -> exists b', ostest T ua y = Ok b' /\ (b' = true -> b = true) /\ ((0 <= ot_matchRI y)%Z -> os_kind y = true -> b' = b)).
  { clear. intros y b. unfold tests, hit, ostest, os_kind. destruct (Z.leb_spec 0 (ot_matchRI y)) as [L|L].
    - destruct (zindex (or_re T) (ot_matchRI y)) as [r|] eqn:Z; [|discriminate]. cbn [rbind]. intros H. injection H as <-.
      eexists. split; [reflexivity|]. split; [intros H; apply andb_prop in H; exact (proj2 H)|]. intros _ H.
      apply zindex_Ok in Z. destruct Z as [_ Z]. rewrite Z in H. apply Bool.negb_true_iff, Bool.orb_false_iff in H. destruct H as [H1 H2]. rewrite H1, H2. reflexivity.
    - destruct (slice64 _ _); [|discriminate]. cbn [rbind]. intros H. injection H as <-. eexists. split; [reflexivity|]. split; [auto|lia]. }
  destruct (Y x b B) as (b' & B' & BB & _). exists b'. split; [exact B'|]. intros T'. destruct (K (BB T')) as (j & y & J & EY & KY & TY).
  exists j, y. split; [exact J|]. split; [exact EY|].
  destruct (Y y true TY) as (c & C & _ & C'). rewrite C. f_equal.
  assert (L : (0 <= ot_matchRI y)%Z \/ (ot_matchRI y < 0)%Z) by lia. destruct L as [L|L]; [exact (C' L KY)|].
  revert C TY. unfold tests, hit, ostest. destruct (Z.leb_spec 0 (ot_matchRI y)); [lia|]. intros C TY. rewrite C in TY. injection TY as ->. reflexivity.
Qed.

(** Clients and devices. *)
Definition group (k : nat) (ds : list (nat * nat * list nat)) := filter (fun d => fst (fst d) =? k) ds.
Definition shadow_each {A} (res : list regex) (buf : bytes) (ri : A -> Z) (m64 : A -> N) (ls : list (list A)) (d : nat * nat * list nat) : bool :=
  match nth_error ls (fst (fst d)) with
  | Some l => shadow_check _ res buf ri m64 (fun _ => true) l (snd (fst d), snd d)
  | None => false
  end.
Lemma shadow_each_ok {A} res buf (ri : A -> Z) m64 ls ds : compiled res -> forallb (shadow_each res buf ri m64 ls) ds = true ->
  forall k l, nth_error ls k = Some l -> forall ua, shadowed (fun x => hit res buf (ri x) (m64 x) ua) (map snd (filter (fun d => fst d =? k) (map fst ds))) l.
Proof.
  intros CR H k l E ua i x I X. apply in_map_iff in I. destruct I as ([k' i'] & E' & I). cbn in E'. subst i'.
  apply filter_In in I. destruct I as [I K]. cbn in K. apply PeanoNat.Nat.eqb_eq in K. subst k'.
  apply in_map_iff in I. destruct I as ([d js] & E' & I). cbn in E'. subst d. rewrite forallb_forall in H. specialize (H _ I).
  unfold shadow_each in H. cbn [fst snd] in H. rewrite E in H.
  destruct (shadow_ok _ _ _ _ _ CR _ _ _ H ua) as (x' & b & X' & B & K). cbn [fst snd] in X'. rewrite X in X'. injection X' as <-.
  exists b. split; [exact B|]. intros T'. destruct (K T') as (j & y & J & Y & _ & TY). exists j, y. auto.
Qed.

(** A shadowed place is never picked. *)
Lemma shadowed_dead {A} (Q : bytes -> A -> Prop) (test : bytes -> A -> res bool) places l :
  (forall ua x b, test ua x = Ok b -> (b = true <-> Q ua x)) -> (forall ua, shadowed (test ua) places l) -> forall i, In i places -> dead Q l i.
Proof.
  intros HQ H i I ua (x & E & P & F). destruct (H ua i x I E) as (b & B & K). apply (HQ ua x b B) in P.
  destruct (K P) as (j & y & J & Y & TY). apply (F j y J Y). apply (HQ ua y true TY). reflexivity.
Qed.

(** The program answers the same without them. *)
Lemma shadow_thinner os_ds client_ds device_ds :
  forallb os_shadow os_ds = true -> forallb (shadow_each (cr_re T) (cr_buf T) ct_matchRI ct_match64 (cr_idx T)) client_ds = true ->
  forallb (shadow_each (dr_re T) (dr_buf T) dt_matchRI dt_match64 (dr_idx T)) device_ds = true ->
  ~ In 0 (map fst os_ds) -> (forall k, ~ In (k, 0) (map fst client_ds)) -> (forall k, ~ In (k, 0) (map fst device_ds)) ->
  thinner (ostest T) (or_os T) (without (map fst os_ds) (or_os T)) /\
  thinner_each (ctest T) (cr_idx T) (without_each (map fst client_ds) (cr_idx T)) /\
  thinner_each (dtest T) (dr_idx T) (without_each (map fst device_ds) (dr_idx T)).
Proof.
  intros HO HC HD ZO ZC ZD. split; [|split].
  - apply without_thinner; [exact ZO|exact (os_shadow_ok _ HO)].
  - apply without_each_thinner; [exact ZC|]. intros k l E ua. exact (shadow_each_ok _ _ _ _ _ _ CC HC k l E ua).
  - apply without_each_thinner; [exact ZD|]. intros k l E ua. exact (shadow_each_ok _ _ _ _ _ _ CD HD k l E ua).
Qed.

(** Witnesses. *)
Definition os_sure (ua : bytes) (x : osTuple) : bool := match ostest T ua x with Ok b => b | Panic => false end.
Definition client_sure (ua : bytes) (x : clientTuple) : bool := match ctest T ua x with Ok b => b | Panic => false end.
Definition device_sure (ua : bytes) (x : deviceTuple) : bool := match dtest T ua x with Ok b => b | Panic => false end.
Definition os_quick (x : osTuple) : quick := quick_of (or_re T) (or_buf T) (ot_matchRI x) (ot_match64 x).
Definition client_quick (x : clientTuple) : quick := quick_of (cr_re T) (cr_buf T) (ct_matchRI x) (ct_match64 x).
Definition device_quick (x : deviceTuple) : quick := quick_of (dr_re T) (dr_buf T) (dt_matchRI x) (dt_match64 x).
Lemma os_alive ws : alive_check _ os_quick os_sure [] (or_os T) ws = true ->
  length ws = length (or_os T) /\ forall i w, nth_error ws i = Some w -> w <> [] -> picked (os_applies T w) (or_os T) i.
Proof.
  apply (alive_ok _ _ (fun w x => os_applies T w x)).
  - intros w x. unfold os_sure. destruct (ostest T w x) as [[|]|] eqn:E; try discriminate. intros _. exact (proj1 (ostest_applies T w x true E) eq_refl).
  - intros w x H [_ P]. exact (quick_of_ok _ _ _ _ _ CO H P).
Qed.
Lemma client_alive l ws : alive_check _ client_quick client_sure [] l ws = true ->
  length ws = length l /\ forall i w, nth_error ws i = Some w -> w <> [] -> picked (client_applies T w) l i.
Proof.
  apply (alive_ok _ _ (fun w x => client_applies T w x)).
  - intros w x. unfold client_sure. destruct (ctest T w x) as [[|]|] eqn:E; try discriminate. intros _. exact (proj1 (hit_applies _ _ _ _ _ true E) eq_refl).
  - intros w x H P. exact (quick_of_ok _ _ _ _ _ CC H P).
Qed.
Lemma device_alive l ws : alive_check _ device_quick device_sure [] l ws = true ->
  length ws = length l /\ forall i w, nth_error ws i = Some w -> w <> [] -> picked (device_applies T w) l i.
Proof.
  apply (alive_ok _ _ (fun w x => device_applies T w x)).
  - intros w x. unfold device_sure. destruct (dtest T w x) as [[|]|] eqn:E; try discriminate. intros _. exact (proj1 (hit_applies _ _ _ _ _ true E) eq_refl).
  - intros w x H P. exact (quick_of_ok _ _ _ _ _ CD H P).
Qed.
End Table.

(** The compiled tables mean what the database says. *)
From Verif Require Import Model_Base Model_Ctx Model_Regex Model_Parse Model_Compiler Model_Shipped Model_Built
  Spec_Version Spec_Select Spec_Compiler Spec_Database Proof_Base Proof_Select Proof_Client Proof_Compiler.
From Coq Require Import Lia ZifyBool ZifyNat ZifyN Permutation.
Open Scope nat_scope.

(** ** Compiling a list of entries *)
Section Entries.
Context {Y X S : Type} (f : Y -> S -> X * S) (ext : S -> S -> Prop) (fit ok : S -> Prop) (good : Y -> Prop) (R : S -> Y -> X -> Prop).
Hypothesis ext_refl : forall s, ext s s.
Hypothesis ext_trans : forall a b c, ext a b -> ext b c -> ext a c.
Hypothesis fit_back : forall a b, ext a b -> fit b -> fit a.
Hypothesis step_ext : forall y s, good y -> ext s (snd (f y s)).
Hypothesis step : forall y s, good y -> ok s -> fit (snd (f y s)) -> ok (snd (f y s)) /\ R (snd (f y s)) y (fst (f y s)).
Hypothesis mono : forall s s' y x, ext s s' -> R s y x -> R s' y x.
Lemma entries_ext l : forall s, Forall good l -> ext s (snd (compile_entries f l s)).
Proof.
  induction l as [|y l IH]; intros s G; cbn [compile_entries]; [apply ext_refl|]. apply Forall_cons_iff in G as [Gy G].
  pose proof (step_ext y s Gy) as E. destruct (f y s) as [x s1]. pose proof (IH s1 G) as E2. destruct (compile_entries f l s1) as [r s2]. exact (ext_trans _ _ _ E E2).
Qed.
Lemma entries_ok l : forall s, Forall good l -> ok s -> fit (snd (compile_entries f l s)) ->
  ok (snd (compile_entries f l s)) /\ Forall2 (R (snd (compile_entries f l s))) l (fst (compile_entries f l s)).
Proof.
  induction l as [|y l IH]; intros s G K F; cbn [compile_entries] in *; [split; [exact K|constructor]|].
  apply Forall_cons_iff in G as [Gy G].
  pose proof (step y s Gy K) as S1. destruct (f y s) as [x s1] eqn:E. cbn [fst snd] in S1.
  pose proof (entries_ext l s1 G) as E2. pose proof (IH s1 G) as I2. destruct (compile_entries f l s1) as [r s2]. cbn [fst snd] in *.
  destruct (S1 (fit_back _ _ E2 F)) as [K1 R1]. destruct (I2 K1 F) as [K2 R2]. split; [exact K2|]. constructor; [|exact R2].
  exact (mono _ _ _ _ E2 R1).
Qed.
End Entries.

Definition prefix {A} (a b : list A) : Prop := exists t, b = a ++ t.
Lemma prefix_refl {A} (a : list A) : prefix a a.
Proof. exists []. symmetry. apply app_nil_r. Qed.
Lemma prefix_trans {A} (a b c : list A) : prefix a b -> prefix b c -> prefix a c.
Proof. intros [t ->] [u ->]. exists (t ++ u). symmetry. apply app_assoc. Qed.
Lemma prefix_snoc {A} (a b : list A) : prefix a (a ++ b).
Proof. exists b. reflexivity. Qed.
Lemma prefix_nth {A} (a b : list A) i x : prefix a b -> nth_error a i = Some x -> nth_error b i = Some x.
Proof. intros [t ->] H. rewrite nth_error_app1; [exact H|]. apply nth_error_Some. congruence. Qed.
Lemma prefix_length {A} (a b : list A) : prefix a b -> length a <= length b.
Proof. intros [t ->]. rewrite app_length. lia. Qed.

(** A string has a range in a buffer; no string is empty there unless asked for. *)
Definition interned (b : cbuf) (s : bytes) (e : N) : Prop := smap_get (b_idx b) s = Some e.
Definition optional (b : cbuf) (s : bytes) (e : N) : Prop := (s = [] /\ e = 0%N) \/ (s <> [] /\ interned b s e).
Definition bfit (b : cbuf) : Prop := (N.of_nat (length (b_buf b)) < two32)%N.
Lemma bfit_back b b' : later b b' -> bfit b' -> bfit b.
Proof. intros L F. apply later_length in L. unfold bfit in *. lia. Qed.
Lemma interned_later b b' s e : later b b' -> interned b s e -> interned b' s e.
Proof. intros [_ L]. apply L. Qed.
Lemma optional_later b b' s e : later b b' -> optional b s e -> optional b' s e.
Proof. intros L [H|[N I]]; [left; exact H|right; split; [exact N|exact (interned_later _ _ _ _ L I)]]. Qed.
Lemma interned_text b s e : buf_ok b -> interned b s e -> text (b_buf b) e s.
Proof. intros K I. apply text_slice. exact (K _ _ I). Qed.
Lemma text_nonzero buf e s : s <> [] -> text buf e s -> e <> 0%N.
Proof. intros N T ->. apply text_zero in T. contradiction. Qed.
Lemma optional_text b s e : buf_ok b -> optional b s e -> text (b_buf b) e s /\ (e = 0%N <-> s = []).
Proof.
  intros K [[-> ->]|[N I]].
  - split; [apply text_zero; reflexivity|tauto].
  - pose proof (interned_text _ _ _ K I) as T. split; [exact T|]. split; [|contradiction]. intros E. contradiction (text_nonzero _ _ _ N T).
Qed.
Lemma add_interned s b : interned (snd (buf_add s b)) s (fst (buf_add s b)).
Proof. apply buf_add_found. Qed.
Lemma add_opt_later s b : later b (snd (add_opt s b)).
Proof. destruct s; [apply later_refl|apply buf_add_later]. Qed.
Lemma add_opt_ok s b : buf_ok b -> bfit (snd (add_opt s b)) -> buf_ok (snd (add_opt s b)).
Proof. destruct s; [intros K _; exact K|]. apply buf_add_ok. Qed.
Lemma add_opt_optional s b : optional (snd (add_opt s b)) s (fst (add_opt s b)).
Proof. destruct s; [left; split; reflexivity|right; split; [discriminate|apply add_interned]]. Qed.

(** ** Patterns and fixed texts *)
Lemma plain_spec s : is_regex s = false <-> plain s.
Proof.
  unfold is_regex, plain. split.
  - intros H c I I'. assert (X : existsb (fun c => match index_byte s c with Some _ => true | None => false end) regexBytes = true).
    { apply existsb_exists. exists c. split; [exact I'|]. destruct (index_byte s c) eqn:E; [reflexivity|].
      apply index_byte_None in E. contradiction. }
    congruence.
  - intros H. destruct (existsb _ regexBytes) eqn:E; [|reflexivity]. apply existsb_exists in E as (c & I & Hc).
    destruct (index_byte s c) as [k|] eqn:Ek; [|discriminate]. apply index_byte_Some in Ek as (a & b & -> & _). exfalso.
    apply (H c); [apply in_or_app; right; left; reflexivity|exact I].
Qed.
Lemma plain_dec s : plain s \/ ~ plain s.
Proof. rewrite <- plain_spec. destruct (is_regex s); [right; discriminate|left; reflexivity]. Qed.
Lemma norm_normalize s : normalize s = Some (Ok (norm s)).
Proof. destruct (normalize_total s) as (r & E & _). unfold norm. rewrite E. reflexivity. Qed.

Section Match.
Variable K : compiler.
Variables (repl : bytes -> option bytes).
(** The pattern number and fixed text of an entry with the value [rs]. *)
Definition chosen (rs : bytes) : bytes := match repl (norm rs) with Some x => x | None => norm rs end.
Definition matches (b : cbuf) (res : list bytes) (rs : bytes) (ri : Z) (m64 : N) : Prop :=
  (plain rs /\ ri = (-1)%Z /\ interned b rs m64) \/
  (~ plain rs /\ k_valid K (chosen rs) = true /\ (0 <= ri)%Z /\ nth_error res (Z.to_nat ri) = Some (chosen rs)) \/
  (~ plain rs /\ k_valid K (chosen rs) = false /\ ri = (-1)%Z /\ m64 = 0%N).
Lemma matches_later b b' res res' rs ri m64 : later b b' -> prefix res res' -> matches b res rs ri m64 -> matches b' res' rs ri m64.
Proof.
  intros L P [(H1 & H2 & H3)|[(H1 & H2 & H3 & H4)|H]].
  - left. split; [exact H1|]. split; [exact H2|exact (interned_later _ _ _ _ L H3)].
  - right. left. split; [exact H1|]. split; [exact H2|]. split; [exact H3|exact (prefix_nth _ _ _ _ P H4)].
  - right. right. exact H.
Qed.
Lemma add_match_spec rs b res ri m64 b' res' : add_match (k_valid K) repl rs b res = (ri, m64, b', res') ->
  later b b' /\ prefix res res' /\ matches b' res' rs ri m64 /\ (buf_ok b -> bfit b' -> buf_ok b').
Proof.
  unfold add_match. fold (chosen rs). destruct (is_regex rs) eqn:E.
  - assert (Np : ~ plain rs) by (rewrite <- plain_spec; congruence). destruct (k_valid K (chosen rs)) eqn:V; intros H; injection H as H1 H2 H3 H4; subst.
    + split; [apply later_refl|]. split; [apply prefix_snoc|]. split; [|auto]. right. left. split; [exact Np|]. split; [exact V|].
      split; [lia|]. rewrite Nat2Z.id, nth_error_app2, Nat.sub_diag by lia. reflexivity.
    + split; [apply later_refl|]. split; [apply prefix_refl|]. split; [|auto]. right. right. auto.
  - apply plain_spec in E. pose proof (buf_add_later rs b) as L. pose proof (add_interned rs b) as I. pose proof (buf_add_ok rs b) as K1.
    destruct (buf_add rs b) as [e b1]. cbn [fst snd] in *. intros H; injection H as H1 H2 H3 H4; subst.
    split; [exact L|]. split; [apply prefix_refl|]. split; [left; auto|exact K1].
Qed.

Variable wrap : bytes -> bytes.
Lemma pattern_chosen rs r : pattern_for K repl wrap rs r <-> ~ plain rs /\ k_valid K (chosen rs) = true /\ r = compile (wrap (chosen rs)).
Proof.
  unfold pattern_for. rewrite norm_normalize. split.
  - intros (N & n & E & V & ->). injection E as E. subst n. auto.
  - intros (N & V & ->). split; [exact N|]. exists (norm rs). auto.
Qed.
Lemma matches_applies b res rs ri m64 ua : buf_ok b -> matches b res rs ri m64 ->
  (applies (map (fun p => compile (wrap p)) res) (b_buf b) ri m64 ua <-> db_applies K repl wrap rs ua).
Proof.
  intros Kb [(H1 & -> & H3)|[(H1 & H2 & H3 & H4)|(H1 & H2 & -> & ->)]]; unfold applies, db_applies, db_finds.
  - pose proof (interned_text _ _ _ Kb H3) as Tx. split.
    + intros [[L _]|(_ & s & Ts & O)]; [lia|]. left. split; [exact H1|]. rewrite (text_fun _ _ _ _ Tx Ts). exact O.
    + intros [[_ O]|(m & r & P & _)].
      * right. split; [lia|]. exists rs. auto.
      * apply pattern_chosen in P as [P _]. contradiction.
  - assert (Nr : nth_error (map (fun p => compile (wrap p)) res) (Z.to_nat ri) = Some (compile (wrap (chosen rs)))).
    { rewrite nth_error_map, H4. reflexivity. }
    split.
    + intros [(_ & r & E & F)|[L _]]; [|lia]. right. rewrite Nr in E. injection E as <-. destruct (re_find _ ua) as [m|] eqn:Fm; [|contradiction].
      exists m, (compile (wrap (chosen rs))). split; [apply pattern_chosen; auto|exact Fm].
    + intros [[P _]|(m & r & P & F)]; [contradiction|]. apply pattern_chosen in P as (_ & _ & ->). left. split; [exact H3|].
      eexists. split; [exact Nr|]. congruence.
  - split.
    + intros [[L _]|(_ & s & Ts & O)]; [lia|]. apply text_zero in Ts as ->. destruct O as [O _]. contradiction.
    + intros [[P _]|(m & r & P & _)]; [contradiction|]. apply pattern_chosen in P as (_ & P & _). congruence.
Qed.
(** What the pattern of an entry finds. *)
Lemma matches_finds b res rs ri m64 ua m : matches b res rs ri m64 ->
  ((0 <= ri)%Z /\ (exists r, nth_error (map (fun p => compile (wrap p)) res) (Z.to_nat ri) = Some r /\ re_find r ua = Some m) <->
   db_finds K repl wrap rs ua m).
Proof.
  intros [(H1 & -> & H3)|[(H1 & H2 & H3 & H4)|(H1 & H2 & -> & ->)]]; unfold db_finds.
  - split; [intros [L _]; lia|]. intros (r & P & _). apply pattern_chosen in P as [P _]. contradiction.
  - rewrite nth_error_map, H4. cbn [option_map]. split.
    + intros (_ & r & [= <-] & F). eexists. split; [apply pattern_chosen; auto|exact F].
    + intros (r & P & F). apply pattern_chosen in P as (_ & _ & ->). split; [exact H3|]. eauto.
  - split; [intros [L _]; lia|]. intros (r & P & _). apply pattern_chosen in P as (_ & P & _). congruence.
Qed.
(** An entry that applies has a negative pattern number exactly when it is a fixed text. *)
Lemma matches_plain b res rs ri m64 ua : matches b res rs ri m64 -> db_applies K repl wrap rs ua -> ((ri < 0)%Z <-> plain rs).
Proof.
  intros [(H1 & -> & H3)|[(H1 & H2 & H3 & H4)|(H1 & H2 & -> & ->)]] A.
  - split; [auto|lia].
  - split; [lia|contradiction].
  - destruct A as [[P _]|(m & r & P & _)]; [contradiction|]. apply pattern_chosen in P as (_ & P & _). congruence.
Qed.
End Match.

(** ** Moving between database entries and table entries *)
Lemma first_forward {Y X} (R : Y -> X -> Prop) (P : Y -> Prop) (Q : X -> Prop) l xs : Forall2 R l xs ->
  (forall y x, In y l -> In x xs -> R y x -> (P y <-> Q x)) -> forall y, first P l y -> exists x, first Q xs x /\ R y x.
Proof.
  intros F. induction F as [|y0 x0 l xs Ry F IH]; intros H y (l1 & l2 & E & Py & B); [destruct l1; discriminate|].
  destruct l1 as [|z l1]; cbn [app] in E; injection E as E1 E2; subst.
  - exists x0. split; [|exact Ry]. exists [], xs. split; [reflexivity|]. split; [|intros ? []].
    apply (H y x0 (or_introl eq_refl) (or_introl eq_refl) Ry). exact Py.
  - destruct (IH ltac:(intros y' x' I1 I2; apply H; right; assumption) y) as (x & (m1 & m2 & -> & Qx & Bx) & Rx).
    { exists l1, l2. split; [reflexivity|]. split; [exact Py|]. intros w I. apply B. right. exact I. }
    exists x. split; [|exact Rx]. exists (x0 :: m1), m2. split; [reflexivity|]. split; [exact Qx|]. intros w [<-|I]; [|exact (Bx w I)].
    rewrite <- (H z x0 (or_introl eq_refl) (or_introl eq_refl) Ry). apply B. left. reflexivity.
Qed.
Lemma Forall2_flip {Y X} (R : Y -> X -> Prop) l xs : Forall2 R l xs -> Forall2 (fun x y => R y x) xs l.
Proof. induction 1; constructor; assumption. Qed.
Lemma first_backward {Y X} (R : Y -> X -> Prop) (P : Y -> Prop) (Q : X -> Prop) l xs : Forall2 R l xs ->
  (forall y x, In y l -> In x xs -> R y x -> (P y <-> Q x)) -> forall x, first Q xs x -> exists y, first P l y /\ R y x.
Proof.
  intros F H x Fx. destruct (first_forward (fun x y => R y x) Q P xs l (Forall2_flip _ _ _ F)) with (y := x) as (y & F1 & F2); [|exact Fx|eauto].
  intros x' y' I1 I2 Rx. symmetry. apply H; assumption.
Qed.
Lemma none_iff {Y X} (R : Y -> X -> Prop) (P : Y -> Prop) (Q : X -> Prop) l xs : Forall2 R l xs ->
  (forall y x, In y l -> In x xs -> R y x -> (P y <-> Q x)) -> (none P l <-> none Q xs).
Proof.
  intros F H. split; intros N z I Hz.
  - induction F as [|y0 x0 l xs Ry F IH]; [destruct I|]. destruct I as [<-|I].
    + apply (N y0 (or_introl eq_refl)). apply (H y0 x0 (or_introl eq_refl) (or_introl eq_refl) Ry). exact Hz.
    + apply IH; [intros; apply H; try right; assumption|intros w Iw; apply N; right; exact Iw|exact I].
  - induction F as [|y0 x0 l xs Ry F IH]; [destruct I|]. destruct I as [<-|I].
    + apply (N x0 (or_introl eq_refl)). apply (H y0 x0 (or_introl eq_refl) (or_introl eq_refl) Ry). exact Hz.
    + apply IH; [intros; apply H; try right; assumption|intros w Iw; apply N; right; exact Iw|exact I].
Qed.

(** ** References to groups *)
Lemma digits_val_app a : forall b acc, digits_val (a ++ b) acc = match digits_val a acc with Some v => digits_val b v | None => None end.
Proof.
  induction a as [|c a IH]; intros b acc; [reflexivity|]. cbn [app digits_val]. destruct (_ && _)%bool; [apply IH|reflexivity].
Qed.
Lemma digit_bn c k : Digit c k -> bn c = N.of_nat (48 + k) /\ k < 10.
Proof.
  unfold Digit. intros H. assert (L : k < 10). { change 10 with (length (bs "0123456789")). apply nth_error_Some. congruence. }
  split; [|exact L]. do 10 (destruct k as [|k]; [injection H as <-; reflexivity|]). lia.
Qed.
Lemma decimal_val d n : Decimal d n -> digits_val d 0 = Some n.
Proof.
  assert (One : forall c k acc, Digit c k -> digits_val [c] acc = Some (10 * acc + Z.of_nat k)%Z).
  { intros c k acc H. apply digit_bn in H as [B L]. cbn [digits_val]. rewrite B.
    replace (Z.of_N (N.of_nat (48 + k)) - 48)%Z with (Z.of_nat k) by lia.
    destruct (Z.leb_spec 0 (Z.of_nat k)); [|lia]. destruct (Z.leb_spec (Z.of_nat k) 9); [|lia]. reflexivity. }
  induction 1 as [c k H|s n c k _ IH H].
  - rewrite (One _ _ _ H). reflexivity.
  - rewrite digits_val_app, IH. apply One. exact H.
Qed.
Lemma parse_decimal d n : Decimal d n -> (0 <= n < 64)%Z -> parse_int d = (n, false).
Proof.
  intros H B. pose proof (decimal_val _ _ H) as V. unfold parse_int. destruct d as [|c r]; [inversion H as [|s ? ? ? ? ? E]; destruct s; discriminate|].
  assert (X : c <> x2b /\ c <> x2d).
  { cbn [digits_val] in V. split; intros ->; cbn in V; discriminate. }
  destruct X as [X1 X2]. assert (Ln : (9223372036854775807 <? n)%Z = false) by lia.
  destruct c; try contradiction; rewrite V, Ln; reflexivity.
Qed.
Lemma decimal_nonneg d n : Decimal d n -> (0 <= n)%Z.
Proof. induction 1; lia. Qed.
Definition refers (b : cbuf) (v : bytes) (vi : Z) (v64 : N) : Prop :=
  (v = [] /\ vi = (-1)%Z /\ v64 = 0%N) \/ (constant v /\ vi = (-1)%Z /\ interned b v v64) \/
  (group_ref v vi /\ (0 <= vi < 64)%Z /\ v64 = 0%N).
Lemma refers_later b b' v vi v64 : later b b' -> refers b v vi v64 -> refers b' v vi v64.
Proof. intros L [H|[(H1 & H2 & H3)|H]]; [left; exact H| |right; right; exact H]. right. left. split; [exact H1|]. split; [exact H2|exact (interned_later _ _ _ _ L H3)]. Qed.
Lemma ref_cases v : proper_ref v -> v = [] \/ constant v \/ exists n, group_ref v n /\ (0 <= n < 64)%Z.
Proof.
  intros [H|(n & G & L)].
  - destruct v as [|c v]; [auto|]. right. left. split; [discriminate|exact H].
  - right. right. exists n. split; [exact G|]. destruct G as (d & _ & Dd). apply decimal_nonneg in Dd. lia.
Qed.
Lemma constant_case {A} (v : bytes) (x : A) (y : bytes -> A) z : constant v ->
  match v with [] => x | x24 :: r => y r | _ :: _ => z end = z.
Proof. intros [N C]. destruct v as [|c v]; [contradiction|]. destruct c; try reflexivity. contradiction (C v). reflexivity. Qed.
Lemma client_version64_spec v b vi v64 b' : proper_ref v -> client_version64 v b = (vi, v64, b') ->
  later b b' /\ refers b' v vi v64 /\ (buf_ok b -> bfit b' -> buf_ok b').
Proof.
  intros P H. apply ref_cases in P as [->|[C|(n & (d & -> & Dd) & B)]].
  - injection H as H1 H2 H3; subst. split; [apply later_refl|]. split; [left; auto|auto].
  - unfold client_version64 in H. rewrite (constant_case v _ (fun r => (wrap_i8 (fst (parse_int r)), 0%N, b))) in H by exact C.
    pose proof (buf_add_later v b) as L. pose proof (add_interned v b) as I. pose proof (buf_add_ok v b) as K1.
    destruct (buf_add v b) as [e b1]. cbn [fst snd] in *. injection H as H1 H2 H3; subst.
    split; [exact L|]. split; [right; left; auto|exact K1].
  - cbn [client_version64] in H. rewrite (parse_decimal _ _ Dd B) in H. cbn [fst] in H. injection H as H1 H2 H3; subst.
    assert (W : wrap_i8 n = n) by (unfold wrap_i8; rewrite Z.mod_small; lia). rewrite W.
    split; [apply later_refl|]. split; [right; right|auto]. split; [exists d; auto|auto].
Qed.
Lemma parse_inx_spec v b vi v64 b' : proper_ref v -> parse_inx v b = (vi, v64, b') ->
  later b b' /\ refers b' v vi v64 /\ (buf_ok b -> bfit b' -> buf_ok b').
Proof.
  intros P H. apply ref_cases in P as [->|[C|(n & (d & -> & Dd) & B)]].
  - injection H as H1 H2 H3; subst. split; [apply later_refl|]. split; [left; auto|auto].
  - unfold parse_inx in H.
    rewrite (constant_case v _ (fun r => let '(i, err) := parse_int r in ((if err then 1 else wrap_i8 i)%Z, 0%N, b))) in H by exact C.
    pose proof (buf_add_later v b) as L. pose proof (add_interned v b) as I. pose proof (buf_add_ok v b) as K1.
    destruct (buf_add v b) as [e b1]. cbn [fst snd] in *. injection H as H1 H2 H3; subst.
    split; [exact L|]. split; [right; left; auto|exact K1].
  - cbn [parse_inx] in H. rewrite (parse_decimal _ _ Dd B) in H. injection H as H1 H2 H3; subst.
    assert (W : wrap_i8 n = n) by (unfold wrap_i8; rewrite Z.mod_small; lia). rewrite W.
    split; [apply later_refl|]. split; [right; right|auto]. split; [exists d; auto|auto].
Qed.

(** ** Clients *)
Section Client.
Variable K : compiler.

Definition kext (k k' : ktables) : Prop :=
  later (k_buf k) (k_buf k') /\ prefix (k_re k) (k_re k') /\ prefix (k_ef k) (k_ef k') /\ incl (k_eng k) (k_eng k').
Definition kfit (k : ktables) : Prop := bfit (k_buf k).
Definition kok (k : ktables) : Prop := buf_ok (k_buf k).

(** The engine function of an entry. *)
Definition rules_mean (b : cbuf) (vs : list (bytes * bytes)) (r : list (bytes * N)) : Prop :=
  Forall2 (fun ve te => fst ve = fst te /\ interned b (snd ve) (snd te)) (sort_keys vs) r.
Definition engine_means (k : ktables) (o : option yengine) (e64 : N) (fi : Z) : Prop :=
  match o with
  | None => e64 = 0%N /\ fi = (-1)%Z
  | Some e =>
      optional (k_buf k) (ye_default e) e64 /\ (ye_default e <> [] -> In (ye_default e) (k_eng k)) /\
      (forall v w, In (v, w) (ye_versions e) -> In w (k_eng k)) /\
      (ye_versions e = [] /\ fi = (-1)%Z \/
       ye_versions e <> [] /\ (0 <= fi)%Z /\ exists r, nth_error (k_ef k) (Z.to_nat fi) = Some (r, e64) /\
         rules_mean (k_buf k) (ye_versions e) r)
  end.
Definition client_means (k : ktables) (y : yclient) (x : clientTuple) : Prop :=
  matches K (k_client K) (k_buf k) (k_re k) (yc_regex y) (ct_matchRI x) (ct_match64 x) /\
  optional (k_buf k) (yc_name y) (ct_browser64 x) /\
  refers (k_buf k) (yc_version y) (ct_browserVI x) (ct_version64 x) /\
  engine_means k (yc_engine y) (ct_engine64 x) (ct_engineFI x).

Lemma kext_refl k : kext k k.
Proof. split; [apply later_refl|]. split; [apply prefix_refl|]. split; [apply prefix_refl|apply incl_refl]. Qed.
Lemma kext_trans a b c : kext a b -> kext b c -> kext a c.
Proof.
  intros (A1 & A2 & A3 & A4) (B1 & B2 & B3 & B4). split; [exact (later_trans _ _ _ A1 B1)|]. split; [exact (prefix_trans _ _ _ A2 B2)|].
  split; [exact (prefix_trans _ _ _ A3 B3)|exact (incl_tran A4 B4)].
Qed.
Lemma kfit_back a b : kext a b -> kfit b -> kfit a.
Proof. intros (A1 & _) F. exact (bfit_back _ _ A1 F). Qed.
Lemma rules_mean_later b b' vs r : later b b' -> rules_mean b vs r -> rules_mean b' vs r.
Proof.
  intros L. unfold rules_mean. intros F. induction F as [|ve te l l' [H1 H2] F IH]; constructor; [|exact IH].
  split; [exact H1|exact (interned_later _ _ _ _ L H2)].
Qed.
Lemma engine_means_ext k k' o e64 fi : kext k k' -> engine_means k o e64 fi -> engine_means k' o e64 fi.
Proof.
  intros (A1 & A2 & A3 & A4) H. destruct o as [e|]; [|exact H]. destruct H as (H1 & H2 & H3 & H4).
  split; [exact (optional_later _ _ _ _ A1 H1)|]. split; [intros N; apply A4; exact (H2 N)|]. split; [intros v w I; apply A4; exact (H3 v w I)|].
  destruct H4 as [H4|(H4 & H5 & r & H6 & H7)]; [left; exact H4|right]. split; [exact H4|]. split; [exact H5|]. exists r.
  split; [exact (prefix_nth _ _ _ _ A3 H6)|exact (rules_mean_later _ _ _ _ A1 H7)].
Qed.
Lemma client_means_ext k k' y x : kext k k' -> client_means k y x -> client_means k' y x.
Proof.
  intros E (H1 & H2 & H3 & H4). pose proof E as (A1 & A2 & A3 & A4). split; [exact (matches_later _ _ _ _ _ _ _ _ _ A1 A2 H1)|].
  split; [exact (optional_later _ _ _ _ A1 H2)|]. split; [exact (refers_later _ _ _ _ _ A1 H3)|exact (engine_means_ext _ _ _ _ _ E H4)].
Qed.

Lemma ef_rules_means l : forall b r b', ef_rules l b = (r, b') -> later b b' /\ (buf_ok b -> bfit b' -> buf_ok b') /\
  Forall2 (fun ve te => fst ve = fst te /\ interned b' (snd ve) (snd te)) l r.
Proof.
  induction l as [|[v e] l IH]; intros b r b' H; cbn [ef_rules] in H.
  - injection H as H1 H2; subst. split; [apply later_refl|]. split; [auto|constructor].
  - pose proof (buf_add_later e b) as L1. pose proof (add_interned e b) as I1. pose proof (buf_add_ok e b) as K1.
    destruct (buf_add e b) as [e1 b1]. cbn [fst snd] in *. destruct (ef_rules l b1) as [r2 b2] eqn:E2. injection H as H1 H2; subst.
    destruct (IH _ _ _ E2) as (L2 & K2 & F2). split; [exact (later_trans _ _ _ L1 L2)|]. split.
    + intros Kb F. apply K2; [apply K1; [exact Kb|exact (bfit_back _ _ L2 F)]|exact F].
    + constructor; [|exact F2]. split; [reflexivity|exact (interned_later _ _ _ _ L2 I1)].
Qed.
Lemma ef_means e def b f b' : ef e def b = (f, b') -> later b b' /\ (buf_ok b -> bfit b' -> buf_ok b') /\
  exists r, f = (r, def) /\ rules_mean b' (ye_versions e) r.
Proof.
  unfold ef. destruct (ef_rules _ b) as [r b1] eqn:E. intros H; injection H as H1 H2; subst. destruct (ef_rules_means _ _ _ _ E) as (L & K1 & F).
  split; [exact L|]. split; [exact K1|]. exists r. auto.
Qed.

Definition engine_step (o : option yengine) (b3 : cbuf) (ef0 : list engineFn) (eng0 : list bytes) : N * Z * cbuf * list engineFn * list bytes :=
  match o with
  | None => (0%N, (-1)%Z, b3, ef0, eng0)
  | Some e =>
      let '(d64, c1) := add_opt (ye_default e) b3 in
      let g1 := match ye_default e with [] => eng0 | _ :: _ => ye_default e :: eng0 end in
      match ye_versions e with
      | [] => (d64, (-1)%Z, c1, ef0, g1)
      | _ :: _ =>
          let '(fn, c2) := ef e d64 c1 in
          (d64, Z.of_nat (length ef0), c2, ef0 ++ [fn], map snd (ye_versions e) ++ g1)
      end
  end.
Lemma engine_step_spec o b3 re0 ef0 eng0 e64 fi b4 ef4 eng4 : engine_step o b3 ef0 eng0 = (e64, fi, b4, ef4, eng4) ->
  later b3 b4 /\ (buf_ok b3 -> bfit b4 -> buf_ok b4) /\ prefix ef0 ef4 /\ incl eng0 eng4 /\ engine_means (mkK b4 re0 ef4 eng4) o e64 fi.
Proof.
  unfold engine_step. destruct o as [e|].
  2: { intros H; injection H as H1 H2 H3 H4 H5; subst. split; [apply later_refl|]. split; [auto|]. split; [apply prefix_refl|]. split; [apply incl_refl|]. cbn. auto. }
  pose proof (add_opt_later (ye_default e) b3) as L1. pose proof (add_opt_optional (ye_default e) b3) as O1. pose proof (add_opt_ok (ye_default e) b3) as K1.
  destruct (add_opt (ye_default e) b3) as [d64 c1]. cbn [fst snd] in *. set (g1 := match ye_default e with [] => eng0 | _ :: _ => ye_default e :: eng0 end).
  assert (G1 : incl eng0 g1). { unfold g1. destruct (ye_default e); [apply incl_refl|apply incl_tl, incl_refl]. }
  assert (G2 : ye_default e <> [] -> In (ye_default e) g1). { unfold g1. destruct (ye_default e); [contradiction|intros _; left; reflexivity]. }
  destruct (ye_versions e) as [|ve vs] eqn:V.
  - intros H; injection H as H1 H2 H3 H4 H5; subst. split; [exact L1|]. split; [exact K1|]. split; [apply prefix_refl|]. split; [exact G1|].
    cbn [engine_means k_buf k_eng k_ef]. split; [exact O1|]. split; [exact G2|]. rewrite V. split; [intros v w []|]. left. auto.
  - rewrite <- V. destruct (ef e d64 c1) as [fn c2] eqn:E. destruct (ef_means _ _ _ _ _ E) as (L2 & K2 & r & -> & Rm).
    intros H; injection H as H1 H2 H3 H4 H5; subst. split; [exact (later_trans _ _ _ L1 L2)|].
    split; [intros Kb F; apply K2; [apply K1; [exact Kb|exact (bfit_back _ _ L2 F)]|exact F]|]. split; [apply prefix_snoc|].
    split; [apply incl_appr; exact G1|]. cbn [engine_means k_buf k_eng k_ef]. split; [exact (optional_later _ _ _ _ L2 O1)|].
    split; [intros N; apply in_or_app; right; exact (G2 N)|]. split.
    + intros v w I. apply in_or_app. left. apply (in_map snd) in I. exact I.
    + right. split; [rewrite V; discriminate|]. split; [lia|]. exists r. split; [|exact Rm]. rewrite Nat2Z.id, nth_error_app2, Nat.sub_diag by lia. reflexivity.
Qed.

Lemma client1_spec y k x k' : proper_ref (yc_version y) -> compile_client1 (k_valid K) (k_client K) y k = (x, k') ->
  kext k k' /\ (kok k -> kfit k' -> kok k') /\ client_means k' y x.
Proof.
  intros P H. unfold compile_client1 in H.
  destruct (add_match _ _ (yc_regex y) (k_buf k) (k_re k)) as [[[ri m64] b1] re1] eqn:E1.
  destruct (add_match_spec _ _ _ _ _ _ _ _ _ E1) as (L1 & P1 & M1 & K1).
  pose proof (add_opt_later (yc_name y) b1) as L2. pose proof (add_opt_optional (yc_name y) b1) as O2. pose proof (add_opt_ok (yc_name y) b1) as K2.
  destruct (add_opt (yc_name y) b1) as [br64 b2]. cbn [fst snd] in *.
  destruct (client_version64 (yc_version y) b2) as [[vi v64] b3] eqn:E3. destruct (client_version64_spec _ _ _ _ _ P E3) as (L3 & R3 & K3).
  fold (engine_step (yc_engine y) b3 (k_ef k) (k_eng k)) in H.
  destruct (engine_step (yc_engine y) b3 (k_ef k) (k_eng k)) as [[[[en64 fi] b4] ef4] eng4] eqn:E4.
  destruct (engine_step_spec _ _ re1 _ _ _ _ _ _ _ E4) as (L4 & K4 & P4 & I4 & M4).
  pose proof (add_opt_later (yc_url y) b4) as L5. pose proof (add_opt_ok (yc_url y) b4) as K5.
  destruct (add_opt (yc_url y) b4) as [u64 b5]. cbn [fst snd] in *.
  pose proof (add_opt_later (yc_type y) b5) as L6. pose proof (add_opt_ok (yc_type y) b5) as K6.
  destruct (add_opt (yc_type y) b5) as [t64 b6]. cbn [fst snd] in *. injection H as H1 H2. subst x k'.
  pose proof (later_trans _ _ _ L5 L6) as L46. pose proof (later_trans _ _ _ L4 L46) as L36. pose proof (later_trans _ _ _ L3 L36) as L26.
  pose proof (later_trans _ _ _ L2 L26) as L16. split; [|split].
  - split; [exact (later_trans _ _ _ L1 L16)|]. cbn [k_buf k_re k_ef k_eng]. auto.
  - unfold kok, kfit. cbn [k_buf]. intros Kb F. apply K6; [|exact F]. pose proof (bfit_back _ _ L6 F) as F5. apply K5; [|exact F5].
    pose proof (bfit_back _ _ L5 F5) as F4. apply K4; [|exact F4]. pose proof (bfit_back _ _ L4 F4) as F3. apply K3; [|exact F3].
    pose proof (bfit_back _ _ L3 F3) as F2. apply K2; [|exact F2]. pose proof (bfit_back _ _ L2 F2) as F1. apply K1; [exact Kb|exact F1].
  - unfold client_means. cbn [ct_matchRI ct_match64 ct_browser64 ct_browserVI ct_version64 ct_engine64 ct_engineFI k_buf k_re].
    split; [exact (matches_later _ _ _ _ _ _ _ _ _ L16 (prefix_refl _) M1)|]. split; [exact (optional_later _ _ _ _ L26 O2)|].
    split; [exact (refers_later _ _ _ _ _ L36 R3)|]. apply (engine_means_ext (mkK b4 re1 ef4 eng4)); [|exact M4].
    split; [exact L46|]. split; [apply prefix_refl|]. split; [apply prefix_refl|apply incl_refl].
Qed.

Definition one := compile_client1 (k_valid K) (k_client K).
Definition proper1 (y : yclient) : Prop := proper_ref (yc_version y).
Lemma one_ext y k : proper1 y -> kext k (snd (one y k)).
Proof. intros P. destruct (one y k) as [x k'] eqn:E. exact (proj1 (client1_spec _ _ _ _ P E)). Qed.
Lemma one_step y k : proper1 y -> kok k -> kfit (snd (one y k)) -> kok (snd (one y k)) /\ client_means (snd (one y k)) y (fst (one y k)).
Proof.
  intros P Kk F. destruct (one y k) as [x k'] eqn:E. destruct (client1_spec _ _ _ _ P E) as (_ & K1 & M1). cbn [fst snd] in *. auto.
Qed.
Lemma file_ext f k : Forall proper1 f -> kext k (snd (compile_entries one f k)).
Proof. intros P. apply (entries_ext one kext proper1 kext_refl kext_trans one_ext f k P). Qed.
Lemma file_step f k : Forall proper1 f -> kok k -> kfit (snd (compile_entries one f k)) ->
  kok (snd (compile_entries one f k)) /\ Forall2 (client_means (snd (compile_entries one f k))) f (fst (compile_entries one f k)).
Proof. apply (entries_ok one kext kfit kok proper1 client_means kext_refl kext_trans kfit_back one_ext one_step client_means_ext). Qed.
Lemma Forall2_impl {Y X} (R R' : Y -> X -> Prop) l xs : (forall y x, R y x -> R' y x) -> Forall2 R l xs -> Forall2 R' l xs.
Proof. intros H. induction 1; constructor; auto. Qed.
Lemma files_ext files k : Forall (Forall proper1) files -> kext k (snd (compile_entries (compile_entries one) files k)).
Proof. intros P. apply (entries_ext (compile_entries one) kext (Forall proper1) kext_refl kext_trans file_ext files k P). Qed.
Lemma files_step files k : Forall (Forall proper1) files -> kok k -> kfit (snd (compile_entries (compile_entries one) files k)) ->
  kok (snd (compile_entries (compile_entries one) files k)) /\
  Forall2 (Forall2 (client_means (snd (compile_entries (compile_entries one) files k)))) files (fst (compile_entries (compile_entries one) files k)).
Proof.
  apply (entries_ok (compile_entries one) kext kfit kok (Forall proper1) (fun k => Forall2 (client_means k)) kext_refl kext_trans kfit_back file_ext file_step).
  intros s s' y x E. apply Forall2_impl. intros y0 x0. apply client_means_ext. exact E.
Qed.
End Client.

(** Names of engines. *)
Lemma uniq_in {A} (l : list (bytes * A)) k : In k (map fst (uniq l)) <-> In k (map fst l).
Proof.
  induction l as [|x l IH]; [reflexivity|]. cbn [uniq]. destruct l as [|y l]; [reflexivity|]. destruct (beqs (fst x) (fst y)) eqn:E.
  - rewrite IH. apply beqs_eq in E. cbn [map In]. rewrite E. tauto.
  - cbn [map In] in *. rewrite IH. reflexivity.
Qed.
Lemma uniq_nodup {A} (l : list (bytes * A)) : ascending l -> NoDup (map fst (uniq l)).
Proof.
  induction l as [|x l IH]; intros S; [constructor|]. cbn [uniq]. destruct (ascending_tail _ _ S) as [S1 S2].
  destruct l as [|y l]; [cbn; constructor; [intros []|constructor]|]. destruct (beqs (fst x) (fst y)) eqn:E; [exact (IH S1)|].
  cbn [map]. constructor; [|exact (IH S1)]. intros I. apply (uniq_in (y :: l)) in I. cbn [map In] in I.
  destruct I as [I|I]; [rewrite I, beqs_refl in E; discriminate|].
  apply in_map_iff in I as (z & Ez & Iz). destruct (ascending_tail _ _ S1) as [_ S3].
  assert (X : fst x = fst y).
  { apply str_leb_anti; [apply S2; left; reflexivity|]. rewrite <- Ez. exact (S3 _ Iz). }
  rewrite X, beqs_refl in E. discriminate.
Qed.
Lemma engine_names_in g en : In en (engine_names g) <-> en <> [] /\ In en g.
Proof.
  unfold engine_names. rewrite filter_In, uniq_in.
  assert (X : In en (map fst (sort_keys (map (fun e => (e, tt)) g))) <-> In en g).
  { split; intros H.
    - apply (Permutation_in _ (Permutation_map fst (sort_perm _))) in H. rewrite map_map in H. cbn [fst] in H. rewrite map_id in H. exact H.
    - apply (Permutation_in _ (Permutation_map fst (Permutation_sym (sort_perm _)))). rewrite map_map. cbn [fst]. rewrite map_id. exact H. }
  rewrite X. destruct en as [|c en]; split; intros [H1 H2]; split; try assumption; try discriminate; try reflexivity. contradiction.
Qed.
Lemma engine_names_nodup g : NoDup (engine_names g).
Proof. unfold engine_names. apply NoDup_filter. apply uniq_nodup. apply sort_ascending. Qed.

Lemma compile_ev_spec l : forall i b ev b', compile_ev l i b = (ev, b') -> later b b' /\ (buf_ok b -> bfit b' -> buf_ok b') /\
  length ev = length l /\
  forall n en, nth_error l n = Some en -> exists e, nth_error ev n = Some (e, (i + Z.of_nat n)%Z) /\ interned b' en e.
Proof.
  induction l as [|w l IH]; intros i b ev b' H; cbn [compile_ev] in H.
  - injection H as H1 H2; subst. split; [apply later_refl|]. split; [auto|]. split; [reflexivity|]. intros [|n] en; discriminate.
  - pose proof (buf_add_later w b) as L1. pose proof (add_interned w b) as I1. pose proof (buf_add_ok w b) as K1.
    destruct (buf_add w b) as [e1 b1]. cbn [fst snd] in *. destruct (compile_ev l (i + 1) b1) as [r b2] eqn:E2. injection H as H1 H2; subst.
    destruct (IH _ _ _ _ E2) as (L2 & K2 & N2 & F2). split; [exact (later_trans _ _ _ L1 L2)|]. split.
    { intros Kb F. apply K2; [apply K1; [exact Kb|exact (bfit_back _ _ L2 F)]|exact F]. }
    split; [cbn [length]; congruence|]. intros [|n] en; cbn [nth_error].
    + intros [= <-]. exists e1. split; [f_equal; f_equal; lia|exact (interned_later _ _ _ _ L2 I1)].
    + intros Hn. destruct (F2 n en Hn) as (e & E & I). exists e. split; [rewrite E; f_equal; f_equal; lia|exact I].
Qed.
Lemma interned_inj b s s' e : buf_ok b -> interned b s e -> interned b s' e -> s = s'.
Proof. intros K H1 H2. pose proof (K _ _ H1). pose proof (K _ _ H2). congruence. Qed.
(** Looking an engine up by its range. *)
Lemma ev_lookup l b ev b' en e : compile_ev l 0 b = (ev, b') -> buf_ok b' -> NoDup l -> interned b' en e ->
  (forall ri, bound ev e ri -> exists n, ri = Z.of_nat n /\ nth_error l n = Some en) /\ (unbound ev e <-> ~ In en l).
Proof.
  intros H K ND I. destruct (compile_ev_spec _ _ _ _ _ H) as (_ & _ & Len & F). split.
  - intros ri (l1 & l2 & E & _ & _). assert (N : nth_error ev (length l1) = Some (e, ri)).
    { rewrite E, nth_error_app2, Nat.sub_diag by lia. reflexivity. }
    destruct (nth_error l (length l1)) as [en'|] eqn:Nl.
    + destruct (F _ _ Nl) as (e' & N' & I'). rewrite N in N'. injection N' as N1 N2. subst e'. exists (length l1). split; [lia|].
      rewrite Nl. f_equal. exact (interned_inj _ _ _ _ K I' I).
    + apply nth_error_None in Nl. assert (length l1 < length ev) by (apply nth_error_Some; congruence). lia.
  - split.
    + intros U In_. apply In_nth_error in In_ as [n Nn]. destruct (F _ _ Nn) as (e' & N' & I').
      assert (e' = e) by (unfold interned in *; congruence). subst e'. apply nth_error_In in N'. exact (U _ N' eq_refl).
    + intros Nin [e' ri] Iev Ek. cbn [fst] in Ek. subst e'. apply In_nth_error in Iev as [n Nn].
      destruct (nth_error l n) as [en'|] eqn:Nl.
      * destruct (F _ _ Nl) as (e' & N' & I'). rewrite Nn in N'. injection N' as N1 N2. subst e'.
        apply Nin. rewrite <- (interned_inj _ _ _ _ K I' I). exact (nth_error_In _ _ Nl).
      * apply nth_error_None in Nl. assert (n < length ev) by (apply nth_error_Some; congruence). lia.
Qed.

(** Where the names of engines come from. *)
Section Origin.
Variable K : compiler.
Definition origin (ys : list yclient) (w : bytes) : Prop :=
  exists y e, In y ys /\ yc_engine y = Some e /\ (ye_default e = w \/ exists v, In (v, w) (ye_versions e)).
Lemma origin_incl a b w : incl a b -> origin a w -> origin b w.
Proof. intros I (y & e & H & R). exists y, e. split; [exact (I _ H)|exact R]. Qed.
Lemma one_eng y k w : In w (k_eng (snd (one K y k))) -> In w (k_eng k) \/ origin [y] w.
Proof.
  unfold one, compile_client1. destruct (add_match _ _ _ _ _) as [[[ri m64] b1] re1]. destruct (add_opt (yc_name y) b1) as [br64 b2].
  destruct (client_version64 _ b2) as [[vi v64] b3]. fold (engine_step (yc_engine y) b3 (k_ef k) (k_eng k)).
  destruct (engine_step (yc_engine y) b3 (k_ef k) (k_eng k)) as [[[[en64 fi] b4] ef4] eng4] eqn:E.
  destruct (add_opt (yc_url y) b4) as [u64 b5]. destruct (add_opt (yc_type y) b5) as [t64 b6]. cbn [snd k_eng].
  unfold engine_step in E. destruct (yc_engine y) as [e|] eqn:Ye; [|injection E as _ _ _ _ <-; auto].
  destruct (add_opt (ye_default e) b3) as [d64 c1].
  assert (G : forall z, In z (match ye_default e with [] => k_eng k | _ :: _ => ye_default e :: k_eng k end) -> In z (k_eng k) \/ origin [y] z).
  { intros z. destruct (ye_default e) as [|c r] eqn:De; [auto|]. intros [<-|I]; [right|auto]. exists y, e. split; [left; reflexivity|].
    split; [exact Ye|left; exact De]. }
  destruct (ye_versions e) as [|ve vs] eqn:V.
  - injection E as _ _ _ _ <-. apply G.
  - destruct (ef e d64 c1) as [fn c2]. injection E as _ _ _ _ <-. intros I. apply (in_app_or (map snd (ve :: vs))) in I as [I|I]; [|exact (G _ I)].
    right. apply in_map_iff in I as ([v w'] & <- & I). exists y, e. split; [left; reflexivity|]. split; [exact Ye|]. right. exists v. rewrite V. exact I.
Qed.
Lemma file_eng f : forall k w, In w (k_eng (snd (compile_entries (one K) f k))) -> In w (k_eng k) \/ origin f w.
Proof.
  induction f as [|y f IH]; intros k w; cbn [compile_entries]; [auto|]. pose proof (one_eng y k) as O. destruct (one K y k) as [x k1].
  pose proof (IH k1) as I1. destruct (compile_entries (one K) f k1) as [r k2]. cbn [snd] in *. intros I. apply I1 in I as [I|I].
  - apply O in I as [I|I]; [auto|]. right. apply (origin_incl [y]); [|exact I]. intros z [<-|[]]. left. reflexivity.
  - right. apply (origin_incl f); [|exact I]. apply incl_tl, incl_refl.
Qed.
Lemma files_eng fs : forall k w, In w (k_eng (snd (compile_entries (compile_entries (one K)) fs k))) -> In w (k_eng k) \/ origin (concat fs) w.
Proof.
  induction fs as [|f fs IH]; intros k w; cbn [compile_entries]; [auto|]. pose proof (file_eng f k) as O. destruct (compile_entries (one K) f k) as [x k1].
  pose proof (IH k1) as I1. destruct (compile_entries (compile_entries (one K)) fs k1) as [r k2]. cbn [snd] in *. cbn [concat]. intros I. apply I1 in I as [I|I].
  - apply O in I as [I|I]; [auto|]. right. apply (origin_incl f); [|exact I]. apply incl_appl, incl_refl.
  - right. apply (origin_incl (concat fs)); [|exact I]. apply incl_appr, incl_refl.
Qed.
End Origin.

(** The client tables of a built program. *)
Record client_facts (K : compiler) (D : database) (T : tables) (k : ktables) : Prop := {
  cf_ok : buf_ok (k_buf k);
  cf_buf : cr_buf T = b_buf (k_buf k);
  cf_re : cr_re T = map (fun p => compile (client_re p)) (k_re k);
  cf_ef : cr_ef T = k_ef k;
  cf_idx : Forall2 (Forall2 (client_means K k)) (db_client D) (cr_idx T);
  cf_known : forall en, In en (engine_names (k_eng k)) <-> known_engine D en;
  cf_evre : cr_evre T = map engine_regex (engine_names (k_eng k));
  cf_bound : forall en e ri, interned (k_buf k) en e -> bound (cr_ev T) e ri -> exists n, ri = Z.of_nat n /\ nth_error (engine_names (k_eng k)) n = Some en;
  cf_unbound : forall en e, interned (k_buf k) en e -> (unbound (cr_ev T) e <-> ~ In en (engine_names (k_eng k)));
  cf_blink : re_blink T = compile src_blink;
  cf_ev : Forall (fun p => (0 <= snd p < Z.of_nat (length (cr_evre T)))%Z) (cr_ev T);
  cf_evkeys : Forall (fun p => exists en, interned (k_buf k) en (fst p)) (cr_ev T)
}.
Lemma engines_known K D k : Forall2 (Forall2 (client_means K k)) (db_client D) (fst (compile_entries (compile_entries (one K)) (db_client D) (mkK buf_empty [] [] []))) ->
  k_eng k = k_eng (snd (compile_entries (compile_entries (one K)) (db_client D) (mkK buf_empty [] [] []))) ->
  forall en, In en (engine_names (k_eng k)) <-> known_engine D en.
Proof.
  intros F Ek en. rewrite engine_names_in. unfold known_engine. split; intros [N H]; (split; [exact N|]).
  - rewrite Ek in H. apply files_eng in H as [[]|(y & e & I & R)]. apply in_concat in I as (f & If & Iy). exists f, y, e. auto.
  - destruct H as (f & y & e & If & Iy & Ye & R). assert (X : exists x, client_means K k y x).
    { clear -F If Iy. induction F as [|f0 r0 fs rs H F IH]; [destruct If|]. destruct If as [->|If]; [|exact (IH If)].
      clear -H Iy. induction H as [|y0 x0 ys xs H F IH]; [destruct Iy|]. destruct Iy as [->|Iy]; [exists x0; exact H|exact (IH Iy)]. }
    destruct X as (x & _ & _ & _ & M). rewrite Ye in M. destruct M as (_ & M1 & M2 & _). destruct R as [R|(v & R)].
    + rewrite <- R. apply M1. rewrite R. exact N.
    + exact (M2 _ _ R).
Qed.
Lemma client_built K D : Forall (Forall proper1) (db_client D) -> fits_32 (cr_buf (built K D)) ->
  exists k, client_facts K D (built K D) k.
Proof.
  intros P F. unfold built in *. cbn [cr_buf] in F. unfold compile_client in *. fold (one K) in *.
  pose proof (files_step K (db_client D) (mkK buf_empty [] [] []) P buf_empty_ok) as S.
  pose proof (engines_known K D) as Kn.
  destruct (compile_entries (compile_entries (one K)) (db_client D) (mkK buf_empty [] [] [])) as [idx k] eqn:E. cbn [fst snd] in S, Kn.
  destruct (compile_ev (engine_names (k_eng k)) 0 (k_buf k)) as [ev b] eqn:Ev. cbn [co_buf] in F.
  destruct (compile_ev_spec _ _ _ _ _ Ev) as (L & Kb & Len & Nth). destruct (S (bfit_back _ _ L F)) as [K1 M1].
  pose proof (Kb K1 F) as K2. set (k' := mkK b (k_re k) (k_ef k) (k_eng k)).
  assert (X : kext k k'). { split; [exact L|]. split; [apply prefix_refl|]. split; [apply prefix_refl|apply incl_refl]. }
  assert (M2 : Forall2 (Forall2 (client_means K k')) (db_client D) idx).
  { revert M1. apply Forall2_impl. intros l xs. apply Forall2_impl. intros y x. apply client_means_ext. exact X. }
  exists k'. constructor; cbn [cr_buf cr_re cr_ef cr_idx cr_evre cr_ev re_blink co_idx co_re co_ef co_ev co_evre co_buf].
  - exact K2.
  - reflexivity.
  - apply map_map.
  - reflexivity.
  - exact M2.
  - apply Kn; [exact M2|reflexivity].
  - rewrite map_map. reflexivity.
  - intros en e ri I B. exact (proj1 (ev_lookup _ _ _ _ _ _ Ev K2 (engine_names_nodup _) I) ri B).
  - intros en e I. exact (proj2 (ev_lookup _ _ _ _ _ _ Ev K2 (engine_names_nodup _) I)).
  - reflexivity.
  - apply Forall_forall. intros p I. rewrite !map_length. apply In_nth_error in I as [n Nn].
    assert (n < length ev) by (apply nth_error_Some; congruence). destruct (nth_error (engine_names (k_eng k)) n) as [en|] eqn:Ne.
    + destruct (Nth _ _ Ne) as (e & E' & _). rewrite Nn in E'. injection E' as ->. cbn [snd]. lia.
    + apply nth_error_None in Ne. lia.
  - apply Forall_forall. intros p I. apply In_nth_error in I as [n Nn].
    assert (n < length ev) by (apply nth_error_Some; congruence). destruct (nth_error (engine_names (k_eng k)) n) as [en|] eqn:Ne.
    + destruct (Nth _ _ Ne) as (e & E' & I'). rewrite Nn in E'. injection E' as ->. cbn [fst]. exists en. exact I'.
    + apply nth_error_None in Ne. lia.
Qed.

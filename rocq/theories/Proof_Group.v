(** What a group of a pattern captures. *)
From Verif Require Import Model_Base Model_Ctx Model_Regex Proof_Base Spec_Regex Proof_Pattern.
From Verif Require Spec_Select.
From Coq Require Import Lia ZifyBool ZifyNat ZifyN.
Open Scope nat_scope.

(** Every match goes through group [n]; the expressions in groups numbered [n]; the texts of an expression without
    repetitions, each as a list of classes of characters. *)
Fixpoint sure (n : nat) (r : re) : bool :=
  match r with
  | Cat a b => sure n a || sure n b
  | Alt a b => sure n a && sure n b
  | Grp m a => (m =? n) || sure n a
  | _ => false
  end.
Fixpoint bodies (n : nat) (r : re) : list re :=
  match r with
  | Cat a b | Alt a b => bodies n a ++ bodies n b
  | Star _ a => bodies n a
  | Grp m a => if m =? n then [a] else bodies n a
  | _ => []
  end.
Fixpoint seqs (r : re) : option (list (list (bool * list (N * N)))) :=
  match r with
  | Eps => Some [[]]
  | Cls neg rs => Some [[(neg, rs)]]
  | Cat a b => match seqs a, seqs b with Some l, Some k => Some (flat_map (fun x => map (fun y => x ++ y) k) l) | _, _ => None end
  | Alt a b => match seqs a, seqs b with Some l, Some k => Some (l ++ k) | _, _ => None end
  | Grp _ a => seqs a
  | _ => None
  end.
Definition fits (v : text) (q : list (bool * list (N * N))) : Prop := Forall2 (fun x c => cls_mem (fst c) (snd c) (fst x) = true) v q.

Lemma sure_group n r p t v w : parses r p t v w -> sure n r = true -> group_of n p t <> None.
Proof.
  induction 1; cbn [sure group_of]; intros S; try discriminate.
  - rewrite <- (parses_size _ _ _ _ _ H). apply Bool.orb_prop in S as [S|S].
    + destruct (group_of n (p + width v1) t2); [intros X; discriminate X|]. auto.
    + specialize (IHparses2 S). destruct (group_of n (p + width v1) t2); [intros X; discriminate X|contradiction].
  - apply andb_prop in S as [S _]. auto.
  - apply andb_prop in S as [_ S]. auto.
  - destruct (n0 =? n); [intros X; discriminate X|]. auto.
Qed.
Lemma group_body n r p t v w : parses r p t v w -> forall lo hi, group_of n p t = Some (lo, hi) ->
  exists a ta v1 va w1, In a (bodies n r) /\ v = v1 ++ va ++ w1 /\ lo = (p + width v1)%Z /\ hi = (lo + width va)%Z /\ parses a lo ta va (w1 ++ w).
Proof.
  assert (C : forall r a b p t1 t2 v1 v2 w, (forall x, In x (bodies n a) \/ In x (bodies n b) -> In x (bodies n r)) -> parses a p t1 v1 (v2 ++ w) ->
    (forall lo hi, group_of n p t1 = Some (lo, hi) -> exists x ta u1 va w1, In x (bodies n a) /\ v1 = u1 ++ va ++ w1 /\ lo = (p + width u1)%Z /\ hi = (lo + width va)%Z /\ parses x lo ta va (w1 ++ v2 ++ w)) ->
    (forall lo hi, group_of n (p + width v1) t2 = Some (lo, hi) -> exists x ta u1 va w1, In x (bodies n b) /\ v2 = u1 ++ va ++ w1 /\ lo = (p + width v1 + width u1)%Z /\ hi = (lo + width va)%Z /\ parses x lo ta va (w1 ++ w)) ->
    forall lo hi, match group_of n (p + size t1) t2 with Some x => Some x | None => group_of n p t1 end = Some (lo, hi) ->
    exists x ta u1 va w1, In x (bodies n r) /\ v1 ++ v2 = u1 ++ va ++ w1 /\ lo = (p + width u1)%Z /\ hi = (lo + width va)%Z /\ parses x lo ta va (w1 ++ w)).
  { intros r0 a b p0 t1 t2 v1 v2 w0 I P1 H1 H2 lo hi G. rewrite <- (parses_size _ _ _ _ _ P1) in G.
    destruct (group_of n (p0 + width v1) t2) as [[lo2 hi2]|].
    - injection G as -> ->. destruct (H2 _ _ eq_refl) as (x & ta & u1 & va & w1 & Ix & -> & L & R & P). exists x, ta, (v1 ++ u1), va, w1.
      split; [apply I; right; exact Ix|]. split; [rewrite <- !app_assoc; reflexivity|]. split; [rewrite width_app; lia|]. auto.
    - destruct (H1 _ _ G) as (x & ta & u1 & va & w1 & Ix & -> & L & R & P). exists x, ta, u1, va, (w1 ++ v2).
      split; [apply I; left; exact Ix|]. split; [rewrite <- !app_assoc; reflexivity|]. split; [exact L|]. split; [exact R|]. rewrite <- app_assoc. exact P. }
  induction 1; cbn [group_of]; intros lo hi G; try discriminate.
  - apply (C (Cat a b) a b p t1 t2 v1 v2 w) with (lo := lo) (hi := hi); auto. intros x. cbn [bodies]. intros Ix. apply in_or_app. exact Ix.
  - destruct (IHparses _ _ G) as (x & ta & u1 & va & w1 & Ix & R). exists x, ta, u1, va, w1. split; [cbn [bodies]; apply in_or_app; left; exact Ix|exact R].
  - destruct (IHparses _ _ G) as (x & ta & u1 & va & w1 & Ix & R). exists x, ta, u1, va, w1. split; [cbn [bodies]; apply in_or_app; right; exact Ix|exact R].
  - apply (C (Star g a) a (Star g a) p t1 t2 v1 v2 w) with (lo := lo) (hi := hi); auto. intros x. cbn [bodies]. tauto.
  - cbn [bodies]. destruct (n0 =? n).
    + injection G as <- <-. exists a, t, [], v, []. split; [left; reflexivity|]. rewrite app_nil_r. split; [reflexivity|]. cbn [width app].
      split; [lia|]. split; [rewrite (parses_size _ _ _ _ _ H); lia|]. exact H.
    + exact (IHparses _ _ G).
Qed.
Lemma seqs_fit r p t v w : parses r p t v w -> forall l, seqs r = Some l -> exists q, In q l /\ fits v q.
Proof.
  induction 1; cbn [seqs]; intros l E; try discriminate.
  - injection E as <-. exists []. split; [left; reflexivity|constructor].
  - injection E as <-. exists [(neg, rs)]. split; [left; reflexivity|]. constructor; [exact H|constructor].
  - destruct (seqs a) as [la|]; [|discriminate]. destruct (seqs b) as [lb|]; [|discriminate]. injection E as <-.
    destruct (IHparses1 _ eq_refl) as (q1 & I1 & F1). destruct (IHparses2 _ eq_refl) as (q2 & I2 & F2). exists (q1 ++ q2). split.
    + apply in_flat_map. exists q1. split; [exact I1|]. apply in_map. exact I2.
    + apply Forall2_app; assumption.
  - destruct (seqs a) as [la|]; [|discriminate]. destruct (seqs b) as [lb|]; [|discriminate]. injection E as <-.
    destruct (IHparses _ eq_refl) as (q1 & I1 & F1). exists q1. split; [apply in_or_app; left; exact I1|exact F1].
  - destruct (seqs a) as [la|]; [|discriminate]. destruct (seqs b) as [lb|]; [|discriminate]. injection E as <-.
    destruct (IHparses _ eq_refl) as (q1 & I1 & F1). exists q1. split; [apply in_or_app; right; exact I1|exact F1].
  - exact (IHparses _ E).
Qed.

(** From runes back to bytes. *)
Lemma runes_skip u : forall s v, runes s = u ++ v -> runes (skipn (Z.to_nat (width u)) s) = v.
Proof.
  induction u as [|[x k] u IH]; intros s v E; [exact E|]. destruct s as [|b s]; [discriminate E|].
  rewrite runes_cons in E. destruct (decode_rune (b :: s)) as [r k'] eqn:D. cbn [app] in E. injection E as -> -> E. cbn [width].
  assert (Wu : (0 <= width u)%Z) by (clear; induction u as [|[? ?] ? ?]; cbn [width]; lia). rewrite Z2Nat.inj_add by lia. rewrite Nat2Z.id. rewrite <- skipn_skipn. exact (IH _ _ E).
Qed.

(** Group 1 of a pattern whose group 1 is always there. *)
Lemma group_one src a k ua m : parse_re src = Some (a, S k) -> re_find (compile src) ua = Some m -> sure 1 a = true ->
  ~ Spec_Select.absent m 1 /\
  forall s, Spec_Select.captured m 1 ua s -> exists b p t v w B, In b (bodies 1 a) /\ parses b p t v w /\ runes (s ++ B) = v ++ w /\ width v = Z.of_nat (length s).
Proof.
  intros Ps F Su. apply (compile_best src a (S k) ua m Ps) in F as (p & t & (u & v & w & E & Ep & P & _) & ->).
  pose proof (sure_group 1 a p t v w P Su) as G. destruct (group_of 1 p t) as [[lo hi]|] eqn:Gr; [clear G|contradiction].
  destruct (group_body 1 a p t v w P lo hi Gr) as (b & tb & v1 & va & w1 & Ib & -> & -> & -> & Pb).
  assert (Wp : forall x, (0 <= width x)%Z) by (clear; intros x; induction x as [|[? ?] ? ?]; cbn [width]; lia).
  assert (M2 : nth_error (groups (S k) p t) 2 = Some (p + width v1)%Z) by (unfold groups; cbn [seq flat_map nth_error]; rewrite Gr; reflexivity).
  assert (M3 : nth_error (groups (S k) p t) 3 = Some (p + width v1 + width va)%Z) by (unfold groups; cbn [seq flat_map nth_error]; rewrite Gr; reflexivity).
  subst p. split.
  - intros [_ Ab]. pose proof (Wp u). pose proof (Wp v1). pose proof (Wp va). destruct (Ab _ _ M2 M3); lia.
  - intros s (A & B & -> & _ & C2 & C3). change (2 * Z.to_nat 1) with 2 in C2. change (2 * Z.to_nat 1 + 1) with 3 in C3. rewrite M2 in C2. rewrite M3 in C3.
    injection C2 as C2. injection C3 as C3.
    exists b, (width u + width v1)%Z, tb, va, (w1 ++ w), B. split; [exact Ib|]. split; [exact Pb|]. split; [|lia].
    assert (R : runes (A ++ s ++ B) = (u ++ v1) ++ va ++ w1 ++ w) by (rewrite E, <- !app_assoc; reflexivity).
    apply runes_skip in R. rewrite width_app, C2, Nat2Z.id, skipn_app, skipn_all, Nat.sub_diag in R. exact R.
Qed.

(** Texts which start with two characters that are neither a space nor "UN". *)
Definition two_heads (q : list (bool * list (N * N))) : bool :=
  match q with
  | c :: d :: _ => negb (cls_mem (fst c) (snd c) 32) && negb (cls_mem (fst c) (snd c) 85 && cls_mem (fst d) (snd d) 78)
  | _ => false
  end.
Definition body_named (r : re) : bool := match seqs r with Some l => forallb two_heads l | None => false end.
Definition group_named (src : bytes) : bool :=
  match parse_re src with Some (a, S _) => sure 1 a && forallb body_named (bodies 1 a) | _ => false end.
Lemma group_named_ok src ua m : group_named src = true -> re_find (compile src) ua = Some m ->
  ~ Spec_Select.absent m 1 /\
  forall s out, Spec_Select.captured m 1 ua s -> Spec_Select.trimmed s out -> out <> [] /\ out <> bs "UNK".
Proof.
  unfold group_named. destruct (parse_re src) as [[a [|k]]|] eqn:Ps; try discriminate. intros G F. apply andb_prop in G as [Su Fb].
  destruct (group_one src a k ua m Ps F Su) as [Na Cp]. split; [exact Na|]. intros s out C (i & j & E & _ & _).
  destruct (Cp s C) as (b & p & t & v & w & B & Ib & P & R & Wv). rewrite forallb_forall in Fb. specialize (Fb b Ib). unfold body_named in Fb.
  destruct (seqs b) as [l|] eqn:Sq; [|discriminate]. rewrite forallb_forall in Fb. destruct (seqs_fit b p t v w P l Sq) as (q & Iq & Fq).
  specialize (Fb q Iq). destruct q as [|c [|d q]]; try discriminate. inversion Fq as [|x c' v1 q1 Fx Fq1]; subst. inversion Fq1 as [|y d' v2 q2 Fy Fq2]; subst.
  unfold two_heads in Fb. apply andb_prop in Fb as [B1 B2]. apply Bool.negb_true_iff in B1, B2.
  assert (Ns : exists b0 s0, repeat x20 i ++ out ++ repeat x20 j = b0 :: s0 /\ b0 <> x20).
  { destruct (repeat x20 i ++ out ++ repeat x20 j) as [|b0 s0].
    - exfalso. pose proof (runes_proper ([] ++ B)) as Pr. rewrite R in Pr. cbn [app] in Pr. inversion Pr as [|? ? L _]; subst. destruct x as [x kx]. cbn [width snd length] in *.
      assert (Wp : (0 <= width (y :: v2))%Z) by (clear; generalize (y :: v2); intros z; induction z as [|[? ?] ? ?]; cbn [width]; lia). cbn [width] in Wp. lia.
    - exists b0, s0. split; [reflexivity|]. intros ->. cbn [app] in R. rewrite runes_ascii in R by reflexivity. cbn [app] in R. injection R as <- _. cbn [fst] in Fx. change (bn x20) with 32%N in Fx. congruence. }
  destruct Ns as (b0 & s0 & Es & Nb). destruct i as [|i]; [|cbn [repeat app] in Es; injection Es as <- _; contradiction].
  cbn [repeat app] in Es. split; intros ->.
  - cbn [app] in Es. destruct j as [|j]; [discriminate Es|]. cbn [repeat] in Es. injection Es as <- _. contradiction.
  - cbn [repeat app] in R. change (bs "UNK" ++ repeat x20 j) with (x55 :: x4e :: x4b :: repeat x20 j) in R. cbn [app] in R.
    rewrite runes_ascii in R by reflexivity. rewrite runes_ascii in R by reflexivity. cbn [app] in R. injection R as <- <- _.
    cbn [fst] in Fx, Fy. change (bn x55) with 85%N in Fx. change (bn x4e) with 78%N in Fy. rewrite Fx, Fy in B2. discriminate B2.
Qed.

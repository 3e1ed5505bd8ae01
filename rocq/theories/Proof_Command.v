(** The command line of [uaxpl]. *)
From Coq Require Import Lia ZifyBool ZifyNat ZifyN Strings.Byte Permutation.
From Verif Require Import Model_Base Model_CacheEntry Model_Ctx Model_Parse Model_Single Model_Cli Model_Main Model_Uaxplc Model_Command Spec_Uaxplc Spec_Command Proof_Base Proof_Uaxplc.
Open Scope nat_scope.

(** ** Numbers *)
Lemma numeral_digit base c d : (base <= 36)%N -> numeral base c d <-> digit_of c = Some d /\ (d < base)%N.
Proof.
  intros B. unfold numeral, digit_of. cbv zeta. split.
  - intros (L & [(D & E)|(D & [E|E])]); (split; [|exact L]).
    + replace ((48 <=? bn c) && (bn c <=? 57))%N with true by lia. f_equal. lia.
    + replace ((48 <=? bn c) && (bn c <=? 57))%N with false by lia. replace ((97 <=? bn c) && (bn c <=? 122))%N with true by lia. f_equal. lia.
    + replace ((48 <=? bn c) && (bn c <=? 57))%N with false by lia. replace ((97 <=? bn c) && (bn c <=? 122))%N with false by lia.
      replace ((65 <=? bn c) && (bn c <=? 90))%N with true by lia. f_equal. lia.
  - intros (E & L). split; [exact L|].
    destruct ((48 <=? bn c) && (bn c <=? 57))%N eqn:E1; [injection E as <-; left; lia|].
    destruct ((97 <=? bn c) && (bn c <=? 122))%N eqn:E2; [injection E as <-; right; lia|].
    destruct ((65 <=? bn c) && (bn c <=? 90))%N eqn:E3; [injection E as <-; right; lia|discriminate E].
Qed.
Lemma digit_not_gap c d : digit_of c = Some d -> beq c x5f = false.
Proof. intros E. destruct (beq c x5f) eqn:B; [|reflexivity]. apply beq_eq in B. subst c. vm_compute in E. discriminate E. Qed.

(** Underscores stand between digits; [p]: a digit (or a prefix) precedes. *)
Fixpoint gaps (p : bool) (s : bytes) : bool :=
  match s with [] => p | c :: r => if beq c x5f then p && gaps false r else gaps true r end.
Lemma gaps_mono s : gaps false s = true -> gaps true s = true.
Proof. destruct s as [|c r]; [discriminate|]. cbn [gaps]. destruct (beq c x5f); [discriminate|auto]. Qed.
Lemma from_loop base : (base <= 36)%N -> forall a s v, digits_from base a s v -> forall us, (exists us', digits_loop base a us s = Some (v, us')) /\ gaps false s = true.
Proof.
  intros B a s v D. induction D as [a c d N|a c d s v N _ IH|a c d s v N _ IH]; intros us; apply (numeral_digit base c d B) in N; destruct N as [N L]; cbn [digits_loop gaps];
    rewrite (digit_not_gap c d N), N; apply N.ltb_lt in L; rewrite L.
  - split; [exists us; reflexivity|reflexivity].
  - destruct (IH us) as [X G]. split; [exact X|apply gaps_mono; exact G].
  - change (beq x5f x5f) with true. destruct (IH true) as [X G]. split; [exact X|exact G].
Qed.
Lemma loop_from base : (base <= 36)%N -> forall n s a v us us', length s <= n -> digits_loop base a us s = Some (v, us') -> gaps false s = true -> digits_from base a s v.
Proof.
  intros B. induction n as [|n IH]; intros s a v us us' LN L G; (destruct s as [|c r]; [discriminate G|]); [cbn in LN; lia|].
  cbn [digits_loop gaps] in L, G. destruct (beq c x5f) eqn:E; [discriminate G|]. destruct (digit_of c) as [d|] eqn:D; [|discriminate L]. destruct (d <? base)%N eqn:LT; [|discriminate L].
  assert (N : numeral base c d) by (apply (numeral_digit base c d B); split; [exact D|lia]). cbn [length] in LN. destruct r as [|c' r].
  - cbn in L. injection L as <- _. apply D_last. exact N.
  - cbn [gaps] in G. destruct (beq c' x5f) eqn:E'.
    + assert (E2 : c' = x5f) by (apply beq_eq; exact E'). subst c'. cbn [digits_loop] in L. change (beq x5f x5f) with true in L. cbn [andb] in G. cbn [length] in LN.
      eapply D_gap; [exact N|]. eapply IH; [|exact L|exact G]. lia.
    + eapply D_next; [exact N|]. eapply IH; [|exact L|]; [cbn [length] in *; lia|]. cbn [gaps]. rewrite E'. exact G.
Qed.
Lemma loop_plain base : forall s a v, digits_loop base a false s = Some (v, false) -> forall p, s <> [] -> gaps p s = true.
Proof.
  assert (U : forall s a v, digits_loop base a true s = Some (v, false) -> False).
  { induction s as [|c r IH]; intros a v L; [discriminate L|]. cbn [digits_loop] in L. destruct (beq c x5f); [exact (IH _ _ L)|].
    destruct (digit_of c) as [d|]; [|discriminate L]. destruct (d <? base)%N; [exact (IH _ _ L)|discriminate L]. }
  induction s as [|c r IH]; intros a v L p NE; [contradiction|]. cbn [digits_loop gaps] in L |- *. destruct (beq c x5f); [destruct (U _ _ _ L)|].
  destruct (digit_of c) as [d|]; [|discriminate L]. destruct (d <? base)%N; [|discriminate L]. destruct r as [|c' r]; [reflexivity|]. apply (IH _ _ L). discriminate.
Qed.
Lemma loop_underscores base hex : (base <= 10)%N \/ ((base <= 16)%N /\ hex = true) -> forall s a us v us' prev, (prev = 0 \/ prev = 1 \/ prev = 2) -> digits_loop base a us s = Some (v, us') ->
  underscores hex prev s = match s with [] => negb (Nat.eqb prev 2) | _ => gaps (Nat.eqb prev 1) s end.
Proof.
  intros B. induction s as [|c r IH]; intros a us v us' prev P L; [reflexivity|]. cbn [underscores gaps digits_loop] in L |- *. cbv zeta. destruct (beq c x5f) eqn:E.
  - assert (E2 : c = x5f) by (apply beq_eq; exact E). subst c. change (bn x5f) with 95%N. cbn [N.leb N.compare Pos.compare Pos.compare_cont andb orb]. rewrite Bool.andb_false_r.
    destruct (prev =? 1)%nat; [|reflexivity]. cbn [andb]. rewrite (IH _ _ _ _ 2 ltac:(auto) L). destruct r; reflexivity.
  - destruct (digit_of c) as [d|] eqn:D; [|discriminate L]. destruct (d <? base)%N eqn:LT; [|discriminate L].
    assert (C : (((48 <=? bn c) && (bn c <=? 57))%N || hex && ((97 <=? bn c) && (bn c <=? 102) || (65 <=? bn c) && (bn c <=? 70))%N)%bool = true).
    { unfold digit_of in D. cbv zeta in D. destruct ((48 <=? bn c) && (bn c <=? 57))%N eqn:E1; [reflexivity|].
      destruct ((97 <=? bn c) && (bn c <=? 122))%N eqn:E2; [injection D as <-; destruct B as [B|[B ->]]; lia|].
      destruct ((65 <=? bn c) && (bn c <=? 90))%N eqn:E3; [injection D as <-; destruct B as [B|[B ->]]; lia|discriminate D]. }
    rewrite C. rewrite (IH _ _ _ _ 1 ltac:(auto) L). destruct r; reflexivity.
Qed.
(** A text in a base, underscores seen to. *)
Definition body_ok (base : N) (p : bool) (s : bytes) (v : N) : Prop := s <> [] /\ exists us, digits_loop base 0 false s = Some (v, us) /\ gaps p s = true.
Lemma body_digits base s v : (base <= 36)%N -> body_ok base false s v <-> digits base s v.
Proof.
  intros B. split.
  - intros (NE & us & L & G). exact (loop_from base B (length s) s 0 v false us (le_n _) L G).
  - intros D. destruct (from_loop base B 0 s v D false) as [(us & L) G]. split; [destruct D; discriminate|]. exists us. auto.
Qed.
Lemma body_after base s v : (base <= 36)%N -> body_ok base true s v <-> digits base s v \/ exists r, s = x5f :: r /\ digits base r v.
Proof.
  intros B. split.
  - intros (NE & us & L & G). destruct s as [|c r]; [contradiction|]. destruct (beq c x5f) eqn:E.
    + right. assert (E2 : c = x5f) by (apply beq_eq; exact E). subst c. exists r. split; [reflexivity|]. cbn [digits_loop gaps] in L, G. change (beq x5f x5f) with true in L, G. cbn [andb] in G.
      exact (loop_from base B (length r) r 0 v true us (le_n _) L G).
    + left. apply (body_digits base (c :: r) v B). split; [discriminate|]. exists us. split; [exact L|]. cbn [gaps] in G |- *. rewrite E in G |- *. exact G.
  - intros [D|(r & -> & D)].
    + apply (body_digits base s v B) in D. destruct D as (NE & us & L & G). split; [exact NE|]. exists us. split; [exact L|apply gaps_mono; exact G].
    + destruct (from_loop base B 0 r v D true) as [(us & L) G]. split; [discriminate|]. exists us. cbn [digits_loop gaps]. change (beq x5f x5f) with true. split; [exact L|exact G].
Qed.
Lemma uint_body base p hex prev s t v : (base <= 10)%N \/ ((base <= 16)%N /\ hex = true) -> (prev = 0 \/ prev = 1) -> p = Nat.eqb prev 1 -> s <> [] ->
  (forall us, digits_loop base 0 false s = Some (v, us) -> underscore_ok t = underscores hex prev s) ->
  (match digits_loop base 0 false s with Some (n, us) => if us && negb (underscore_ok t) then None else Some n | None => None end = Some v <-> body_ok base p s v).
Proof.
  intros B P -> NE U. unfold body_ok. destruct (digits_loop base 0 false s) as [[n us]|] eqn:L; [|split; [discriminate|intros (_ & us & E & _); discriminate E]].
  assert (K : n = v -> underscore_ok t = gaps (Nat.eqb prev 1) s).
  { intros ->. rewrite (U us eq_refl), (loop_underscores base hex B s 0 false v us prev ltac:(tauto) L). destruct s; [contradiction|reflexivity]. }
  split.
  - intros H. assert (n = v) by (destruct (us && negb (underscore_ok t)); [discriminate H|injection H as H; exact H]). subst n. rewrite (K eq_refl) in H.
    split; [exact NE|]. exists us. split; [reflexivity|]. destruct us; [cbn [andb] in H; destruct (gaps _ s); [reflexivity|discriminate H]|]. exact (loop_plain base s 0 v L _ NE).
  - intros (_ & us' & E & G). injection E as -> ->. rewrite (K eq_refl), G, Bool.andb_false_r. reflexivity.
Qed.
Lemma not_prefix_letter c (b : bool) : (beq c x62 || beq c x42 || beq c x6f || beq c x4f)%bool = false -> (beq c x78 || beq c x58)%bool = false ->
  forall r, underscore_ok (x30 :: c :: r) = underscores false 0 (x30 :: c :: r).
Proof. intros E1 E2 r. unfold underscore_ok. rewrite E1, E2. reflexivity. Qed.
Lemma octal_zero r : digits_loop 8 0 false (x30 :: r) = digits_loop 8 0 false r.
Proof. reflexivity. Qed.
Lemma octal_letter c r v us : digits_loop 8 0 false (c :: r) = Some (v, us) -> (beq c x62 || beq c x42 || beq c x6f || beq c x4f)%bool = false /\ (beq c x78 || beq c x58)%bool = false.
Proof.
  intros L. cbn [digits_loop] in L. destruct (beq c x5f) eqn:E; [apply beq_eq in E; subst c; split; reflexivity|]. destruct (digit_of c) as [d|] eqn:D; [|discriminate L].
  destruct (d <? 8)%N eqn:LT; [|discriminate L]. split; (destruct (_ || _)%bool eqn:X; [|reflexivity]); exfalso;
  repeat (apply Bool.orb_prop in X; destruct X as [X|X]); apply beq_eq in X; subst c; vm_compute in D; injection D as <-; vm_compute in LT; discriminate LT.
Qed.
Lemma octal_case s v : digits_loop 8 0 false s = Some (v, false) \/ True -> 
  (match digits_loop 8 0 false s with Some (n, us) => if us && negb (underscore_ok (x30 :: s)) then None else Some n | None => None end = Some v <-> digits 8 (x30 :: s) v).
Proof.
  intros _. rewrite <- (body_digits 8 (x30 :: s) v ltac:(lia)), <- (octal_zero s).
  apply (uint_body 8 false false 0 (x30 :: s) (x30 :: s) v); [left; lia|auto|reflexivity|discriminate|]. intros us L. rewrite octal_zero in L.
  destruct s as [|c r]; [reflexivity|]. destruct (octal_letter c r v us L) as [E1 E2]. apply (not_prefix_letter c true E1 E2).
Qed.
Lemma prefix_case base hex c d r v : (base <= 10)%N \/ ((base <= 16)%N /\ hex = true) -> underscore_ok (x30 :: c :: d :: r) = underscores hex 1 (d :: r) ->
  (match digits_loop base 0 false (d :: r) with Some (n, us) => if us && negb (underscore_ok (x30 :: c :: d :: r)) then None else Some n | None => None end = Some v <->
   digits base (d :: r) v \/ exists r', d :: r = x5f :: r' /\ digits base r' v).
Proof.
  intros B U. rewrite <- (body_after base (d :: r) v ltac:(destruct B as [B|[B _]]; lia)). apply (uint_body base true hex 1 (d :: r)); [exact B|auto|reflexivity|discriminate|].
  intros us _. exact U.
Qed.
Lemma decimal_digit c s v : digits 10 (c :: s) v -> exists d, numeral 10 c d.
Proof. intros D. inversion D; subst; eauto. Qed.
Lemma prefix_in p base : In (p, base) prefixes <-> (exists c, p = [x30; c] /\ ((base = 2%N /\ (c = x62 \/ c = x42)) \/ (base = 8%N /\ (c = x6f \/ c = x4f)) \/ (base = 16%N /\ (c = x78 \/ c = x58)))).
Proof.
  unfold prefixes. split.
  - intros H. repeat (destruct H as [H|H]; [injection H as <- <-; eexists; split; [reflexivity|tauto]|]). destruct H.
  - intros (c & -> & [(-> & [->| ->])|[(-> & [->| ->])|(-> & [->| ->])]]); cbn; tauto.
Qed.
Lemma digits_some base s v : digits base s v -> exists d r, s = d :: r.
Proof. intros D. destruct D; eauto. Qed.
Lemma uint_unsigned s v : parse_uint0 s = Some v <-> unsigned s v.
Proof.
  unfold parse_uint0. destruct s as [|c0 s0]; [split; [discriminate|intros U; inversion U; subst; destruct (prefix_in p base) as [F _]; destruct (F ltac:(eassumption)) as (c & -> & _); discriminate]|].
  destruct (beq c0 x30) eqn:Z.
  - apply beq_eq in Z. subst c0. destruct s0 as [|c s1].
    + cbn [base_of]. rewrite (octal_case [] v (or_intror I)). split; [apply U_octal|]. intros U. inversion U; subst; try congruence; try assumption;
        match goal with X : In _ prefixes |- _ => apply prefix_in in X; destruct X as (c & -> & _) end; discriminate.
    + destruct s1 as [|d r].
      * change (base_of [x30; c]) with (8%N, [c]). cbn iota. rewrite (octal_case [c] v (or_intror I)). split; [apply U_octal|]. intros U. inversion U; subst; try congruence; try assumption.
        -- match goal with X : In _ prefixes |- _ => apply prefix_in in X; destruct X as (c' & -> & _) end.
           match goal with X : digits _ _ _ |- _ => destruct (digits_some _ _ _ X) as (d & r & ->) end. discriminate.
        -- match goal with X : In _ prefixes |- _ => apply prefix_in in X; destruct X as (c' & -> & _) end. discriminate.
      * assert (G : forall base hex, (base <= 10)%N \/ ((base <= 16)%N /\ hex = true) -> base_of (x30 :: c :: d :: r) = (base, d :: r) -> underscore_ok (x30 :: c :: d :: r) = underscores hex 1 (d :: r) ->
          In ([x30; c], base) prefixes -> (forall base', In ([x30; c], base') prefixes -> base' = base) -> (forall us v, digits_loop 8 0 false (c :: d :: r) <> Some (v, us)) ->
          (let '(base, body) := base_of (x30 :: c :: d :: r) in match digits_loop base 0 false body with Some (n, us) => if us && negb (underscore_ok (x30 :: c :: d :: r)) then None else Some n | None => None end) = Some v <-> unsigned (x30 :: c :: d :: r) v).
        { intros base hex B E U P ONE NO. rewrite E. rewrite (prefix_case base hex c d r v B U). split.
          - intros [D|(r' & E' & D)]; [exact (U_prefix [x30; c] base (d :: r) v P D)|]. rewrite E'. exact (U_prefix_gap [x30; c] base r' v P D).
          - intros UN. inversion UN; subst; try congruence.
            + exfalso. match goal with X : digits 8 _ _ |- _ => apply (body_digits 8 _ v ltac:(lia)) in X; destruct X as (_ & us & L & _) end. rewrite octal_zero in L. exact (NO _ _ L).
            + match goal with X : In _ prefixes |- _ => pose proof X as X'; apply prefix_in in X; destruct X as (c' & -> & _) end.
              match goal with X : _ ++ _ = _ |- _ => cbn [app] in X; injection X as -> -> end. rewrite (ONE _ X') in *. left. assumption.
            + match goal with X : In _ prefixes |- _ => pose proof X as X'; apply prefix_in in X; destruct X as (c' & -> & _) end.
              match goal with X : _ ++ _ = _ |- _ => cbn [app] in X; injection X as -> -> -> end. rewrite (ONE _ X') in *. right. eexists. split; [reflexivity|assumption]. }
        assert (NOL : forall c, (beq c x62 || beq c x42 || beq c x6f || beq c x4f || beq c x78 || beq c x58)%bool = true -> forall us v, digits_loop 8 0 false (c :: d :: r) <> Some (v, us)).
        { intros e X us w L. destruct (octal_letter _ _ _ _ L) as [E1 E2]. rewrite <- Bool.orb_assoc, E1, E2 in X. discriminate X. }
        assert (ONE : forall c base base', In ([x30; c], base) prefixes -> In ([x30; c], base') prefixes -> base' = base).
        { intros e b b' H1 H2. apply prefix_in in H1, H2. destruct H1 as (e1 & X1 & H1), H2 as (e2 & X2 & H2). injection X1 as <-. injection X2 as <-.
          destruct H1 as [(-> & [->| ->])|[(-> & [->| ->])|(-> & [->| ->])]], H2 as [(-> & [X|X])|[(-> & [X|X])|(-> & [X|X])]]; try reflexivity; discriminate X. }
        destruct (beq c x62 || beq c x42)%bool eqn:C1; [|destruct (beq c x6f || beq c x4f)%bool eqn:C2; [|destruct (beq c x78 || beq c x58)%bool eqn:C3]].
        -- assert (P : In ([x30; c], 2%N) prefixes).
           { apply Bool.orb_prop in C1. apply prefix_in. exists c. split; [reflexivity|]. destruct C1 as [C1|C1]; apply beq_eq in C1; tauto. }
           refine (G 2%N false _ _ _ P (fun b' => ONE c 2%N b' P) _).
           ++ left; lia.
           ++ apply Bool.orb_prop in C1. destruct C1 as [C1|C1]; apply beq_eq in C1; subst c; reflexivity.
           ++ apply Bool.orb_prop in C1. destruct C1 as [C1|C1]; apply beq_eq in C1; subst c; reflexivity.
           ++ apply NOL. apply Bool.orb_prop in C1. destruct C1 as [C1|C1]; rewrite C1, ?Bool.orb_true_r; reflexivity.
        -- assert (P : In ([x30; c], 8%N) prefixes).
           { apply Bool.orb_prop in C2. apply prefix_in. exists c. split; [reflexivity|]. destruct C2 as [C2|C2]; apply beq_eq in C2; tauto. }
           refine (G 8%N false _ _ _ P (fun b' => ONE c 8%N b' P) _).
           ++ left; lia.
           ++ apply Bool.orb_prop in C2. destruct C2 as [C2|C2]; apply beq_eq in C2; subst c; reflexivity.
           ++ apply Bool.orb_prop in C2. destruct C2 as [C2|C2]; apply beq_eq in C2; subst c; reflexivity.
           ++ apply NOL. apply Bool.orb_prop in C2. destruct C2 as [C2|C2]; rewrite C2, ?Bool.orb_true_r; reflexivity.
        -- assert (P : In ([x30; c], 16%N) prefixes).
           { apply Bool.orb_prop in C3. apply prefix_in. exists c. split; [reflexivity|]. destruct C3 as [C3|C3]; apply beq_eq in C3; tauto. }
           refine (G 16%N true _ _ _ P (fun b' => ONE c 16%N b' P) _).
           ++ right; split; [lia|reflexivity].
           ++ apply Bool.orb_prop in C3. destruct C3 as [C3|C3]; apply beq_eq in C3; subst c; reflexivity.
           ++ apply Bool.orb_prop in C3. destruct C3 as [C3|C3]; apply beq_eq in C3; subst c; reflexivity.
           ++ apply NOL. apply Bool.orb_prop in C3. destruct C3 as [C3|C3]; rewrite C3, ?Bool.orb_true_r; reflexivity.
        -- assert (E : base_of (x30 :: c :: d :: r) = (8%N, c :: d :: r)) by (cbn [base_of]; rewrite C1, C2, C3; reflexivity). rewrite E.
           rewrite (octal_case (c :: d :: r) v (or_intror I)). split; [apply U_octal|]. intros U. inversion U; subst; try congruence; try assumption.
           ++ match goal with X : In _ prefixes |- _ => apply prefix_in in X; destruct X as (c' & -> & PX) end. match goal with X : _ ++ _ = _ |- _ => cbn [app] in X; injection X as -> _ end. exfalso. clear G.
              destruct PX as [(_ & [->| ->])|[(_ & [->| ->])|(_ & [->| ->])]]; first [discriminate C1|discriminate C2|discriminate C3].
           ++ match goal with X : In _ prefixes |- _ => apply prefix_in in X; destruct X as (c' & -> & PX) end. match goal with X : _ ++ _ = _ |- _ => cbn [app] in X; injection X as -> _ end. exfalso. clear G.
              destruct PX as [(_ & [->| ->])|[(_ & [->| ->])|(_ & [->| ->])]]; first [discriminate C1|discriminate C2|discriminate C3].
  - assert (NZ : c0 <> x30) by (intros ->; discriminate Z).
    assert (E : base_of (c0 :: s0) = (10%N, c0 :: s0)) by (destruct c0; try reflexivity; contradiction NZ; reflexivity).
    assert (U : underscore_ok (c0 :: s0) = underscores false 0 (c0 :: s0)) by (destruct c0; try reflexivity; contradiction NZ; reflexivity).
    rewrite E. rewrite (uint_body 10 false false 0 (c0 :: s0) (c0 :: s0) v ltac:(left; lia) ltac:(auto) eq_refl ltac:(discriminate) (fun us _ => U)).
    rewrite (body_digits 10 (c0 :: s0) v ltac:(lia)). split; [apply U_decimal; exact NZ|]. intros X. inversion X; subst; try assumption; try congruence.
    + match goal with X : In _ prefixes |- _ => apply prefix_in in X; destruct X as (c' & -> & X) end. match goal with X : _ ++ _ = _ |- _ => cbn [app] in X; injection X as <- _ end. contradiction NZ. reflexivity.
    + match goal with X : In _ prefixes |- _ => apply prefix_in in X; destruct X as (c' & -> & X) end. match goal with X : _ ++ _ = _ |- _ => cbn [app] in X; injection X as <- _ end. contradiction NZ. reflexivity.
Qed.
Lemma int_number s z : parse_int0 s = Some z <-> number s z.
Proof.
  assert (P : forall t, (forall a b, t = a :: b -> a <> x2b /\ a <> x2d) -> parse_int0 t = Some z <-> exists v, unsigned t v /\ (Z.of_N v < 2 ^ 63)%Z /\ z = Z.of_N v).
  { intros t NT. assert (E : parse_int0 t = match parse_uint0 t with Some n => if (n <? 9223372036854775808)%N then Some (Z.of_N n) else None | None => None end).
    { unfold parse_int0. destruct t as [|a b]; [reflexivity|]. destruct (NT a b eq_refl) as [N1 N2]. destruct a; try reflexivity; [contradiction N1|contradiction N2]; reflexivity. }
    rewrite E. destruct (parse_uint0 t) as [n|] eqn:U.
    - apply uint_unsigned in U. destruct (n <? 9223372036854775808)%N eqn:L; split.
      + intros [= <-]. exists n. split; [exact U|]. split; [lia|reflexivity].
      + intros (v & V & B & ->). apply uint_unsigned in U, V. rewrite U in V. injection V as ->. reflexivity.
      + discriminate.
      + intros (v & V & B & ->). apply uint_unsigned in U, V. rewrite U in V. injection V as ->. lia.
    - split; [discriminate|]. intros (v & V & _). apply uint_unsigned in V. rewrite U in V. discriminate V. }
  assert (H0 : forall c t v, unsigned (c :: t) v -> c <> x2b /\ c <> x2d).
  { intros c t v U. inversion U; subst; try (split; discriminate).
    - match goal with X : digits 10 _ _ |- _ => destruct (decimal_digit _ _ _ X) as (d & _ & N) end. split; intros ->; vm_compute in N; destruct N as [(N1 & N2)|(N1 & [N2|N2])];
        destruct d as [|d]; try discriminate; repeat (destruct d as [d|d|]; try discriminate).
    - match goal with X : In _ prefixes |- _ => apply prefix_in in X; destruct X as (c' & -> & _) end. match goal with X : _ ++ _ = _ |- _ => cbn [app] in X; injection X as <- _ end. split; discriminate.
    - match goal with X : In _ prefixes |- _ => apply prefix_in in X; destruct X as (c' & -> & _) end. match goal with X : _ ++ _ = _ |- _ => cbn [app] in X; injection X as <- _ end. split; discriminate. }
  destruct s as [|c t].
  { split; [discriminate|]. intros N. inversion N; subst. match goal with X : unsigned [] _ |- _ => apply uint_unsigned in X end. discriminate. }
  destruct (beq c x2b) eqn:E1; [|destruct (beq c x2d) eqn:E2].
  - apply beq_eq in E1. subst c. cbn [parse_int0]. destruct (parse_uint0 t) as [n|] eqn:U.
    + apply uint_unsigned in U. destruct (n <? 9223372036854775808)%N eqn:L; split.
      * intros [= <-]. apply N_plus; [exact U|lia].
      * intros N. inversion N; subst; [exfalso; match goal with X : unsigned (x2b :: _) _ |- _ => destruct (H0 _ _ _ X) as [X1 _]; apply X1; reflexivity end|].
        match goal with X : unsigned t _ |- _ => apply uint_unsigned in X; apply uint_unsigned in U; rewrite U in X; injection X as -> end. reflexivity.
      * discriminate.
      * intros N. inversion N; subst; [exfalso; match goal with X : unsigned (x2b :: _) _ |- _ => destruct (H0 _ _ _ X) as [X1 _]; apply X1; reflexivity end|].
        match goal with X : unsigned t _ |- _ => apply uint_unsigned in X; apply uint_unsigned in U; rewrite U in X; injection X as -> end. lia.
    + split; [discriminate|]. intros N. inversion N; subst; [exfalso; match goal with X : unsigned (x2b :: _) _ |- _ => destruct (H0 _ _ _ X) as [X1 _]; apply X1; reflexivity end|].
      match goal with X : unsigned t _ |- _ => apply uint_unsigned in X; rewrite U in X; discriminate X end.
  - apply beq_eq in E2. subst c. cbn [parse_int0]. destruct (parse_uint0 t) as [n|] eqn:U.
    + apply uint_unsigned in U. destruct (n <=? 9223372036854775808)%N eqn:L; split.
      * intros [= <-]. apply N_minus; [exact U|lia].
      * intros N. inversion N; subst; [exfalso; match goal with X : unsigned (x2d :: _) _ |- _ => destruct (H0 _ _ _ X) as [_ X1]; apply X1; reflexivity end|].
        match goal with X : unsigned t _ |- _ => apply uint_unsigned in X; apply uint_unsigned in U; rewrite U in X; injection X as -> end. reflexivity.
      * discriminate.
      * intros N. inversion N; subst; [exfalso; match goal with X : unsigned (x2d :: _) _ |- _ => destruct (H0 _ _ _ X) as [_ X1]; apply X1; reflexivity end|].
        match goal with X : unsigned t _ |- _ => apply uint_unsigned in X; apply uint_unsigned in U; rewrite U in X; injection X as -> end. lia.
    + split; [discriminate|]. intros N. inversion N; subst; [exfalso; match goal with X : unsigned (x2d :: _) _ |- _ => destruct (H0 _ _ _ X) as [_ X1]; apply X1; reflexivity end|].
      match goal with X : unsigned t _ |- _ => apply uint_unsigned in X; rewrite U in X; discriminate X end.
  - rewrite P.
    + split.
      * intros (v & U & L & ->). apply N_plain; assumption.
      * intros N. inversion N; subst; [eexists; split; [eassumption|]; split; [assumption|reflexivity]|discriminate E1|discriminate E2].
    + intros a b [= <- _]. split; intros ->; [discriminate E1|discriminate E2].
Qed.

(** ** Flags *)
Lemma value_reads k s v : read_value k s = Some v <-> reads k s v.
Proof.
  destruct k; cbn [read_value].
  - split; [intros [= <-]; constructor|]. intros R. inversion R; subst. reflexivity.
  - destruct (parse_int0 s) as [z|] eqn:E.
    + apply int_number in E. split; [intros [= <-]; constructor; exact E|]. intros R. inversion R as [|s' z' N| |]; subst. apply int_number in E, N. rewrite E in N. injection N as ->. reflexivity.
    + split; [discriminate|]. intros R. inversion R as [|s' z' N| |]; subst. apply int_number in N. rewrite E in N. discriminate N.
  - unfold parse_bool. destruct (existsb (beqs s) _) eqn:T; [|destruct (existsb (beqs s) [_;_;_;_;_;_]) eqn:F in |- *].
    + apply known_in in T. split; [intros [= <-]; constructor; exact T|]. intros R. inversion R as [| |s' I|s' I]; subst; [reflexivity|]. exfalso.
      repeat (destruct T as [<-|T]; [repeat (destruct I as [I|I]; [discriminate I|]); exact I|]). exact T.
    + apply known_in in F. split; [intros [= <-]; constructor; exact F|]. intros R. inversion R as [| |s' I|s' I]; subst; [|reflexivity]. apply known_in in I. rewrite I in T. discriminate T.
    + split; [discriminate|]. intros R. inversion R as [| |s' I|s' I]; subst; apply known_in in I; [rewrite I in T; discriminate T|rewrite I in F; discriminate F].
Qed.
Lemma kind_in known n k : NoDup (map fst known) -> kind_of known n = Some k <-> In (n, k) known.
Proof.
  induction known as [|[m j] known IH]; intros ND; cbn [kind_of In]; [split; [discriminate|intros []]|]. cbn [map fst] in ND. inversion ND as [|x l NI ND']; subst. destruct (beqs n m) eqn:E.
  - apply beqs_eq in E. subst m. split; [intros [= ->]; left; reflexivity|]. intros [[= ->]|I]; [reflexivity|]. exfalso. apply NI. exact (in_map fst _ _ I).
  - rewrite (IH ND'). split; [intros I; right; exact I|]. intros [[= -> ->]|I]; [|exact I]. exfalso. assert (X : beqs n n = true) by (apply beqs_eq; reflexivity). rewrite X in E. discriminate E.
Qed.
Lemma read_bare n : proper_name n -> read_arg (bs "-" ++ n) = Flag n None.
Proof. intros P. destruct n as [|b r]; [destruct P|]. change (bs "-" ++ b :: r) with (x2d :: b :: r). rewrite read_dash by exact (proj1 P). apply flag_body_name, P. Qed.
Lemma read_bare_long n : proper_name n -> read_arg (bs "--" ++ n) = Flag n None.
Proof. intros P. destruct n as [|b r]; [destruct P|]. change (bs "--" ++ b :: r) with (x2d :: x2d :: b :: r). rewrite read_dashes. apply flag_body_name, P. Qed.
Lemma read_given n v : proper_name n -> read_arg (bs "-" ++ n ++ bs "=" ++ v) = Flag n (Some v).
Proof.
  intros P. change (bs "=" ++ v) with (x3d :: v). destruct n as [|b r]; [destruct P|]. change (bs "-" ++ (b :: r) ++ x3d :: v) with (x2d :: b :: (r ++ x3d :: v)).
  rewrite read_dash by exact (proj1 P). exact (flag_body_value (b :: r) v P).
Qed.
Lemma read_given_long n v : proper_name n -> read_arg (bs "--" ++ n ++ bs "=" ++ v) = Flag n (Some v).
Proof.
  intros P. change (bs "=" ++ v) with (x3d :: v). destruct n as [|b r]; [destruct P|]. change (bs "--" ++ (b :: r) ++ x3d :: v) with (x2d :: x2d :: b :: (r ++ x3d :: v)).
  rewrite read_dashes. exact (flag_body_value (b :: r) v P).
Qed.
Section Flags.
Variable known : list (bytes * kind).
Hypothesis PN : Forall proper_name (map fst known).
Hypothesis ND : NoDup (map fst known).
Lemma known_proper n k : In (n, k) known -> proper_name n.
Proof. intros I. rewrite Forall_forall in PN. apply PN. exact (in_map fst _ _ I). Qed.
Lemma spells_command args l : spells known args l -> parse_command known args = CParsed l.
Proof.
  intros H. induction H as [args E|n k v a args l I S _ IH].
  - destruct E as [->|(a & r & -> & E)]; [reflexivity|]. apply read_arg_end in E. cbn [parse_command]. destruct E as [-> | ->]; reflexivity.
  - pose proof (known_proper n k I) as P. apply (kind_in known n k ND) in I. destruct S as [n k s v a NS R S|n s v R|n s v R|n|n].
    + apply value_reads in R. destruct S as [n s|n s|n s|n s]; cbn [List.app parse_command];
        [rewrite (read_bare n P)|rewrite (read_bare_long n P)|rewrite (read_given n s P)|rewrite (read_given_long n s P)]; rewrite I; (destruct k; [| |contradiction NS; reflexivity]); rewrite R, IH; reflexivity.
    + apply value_reads in R. cbn [List.app parse_command]. rewrite (read_given n s P), I, R, IH. reflexivity.
    + apply value_reads in R. cbn [List.app parse_command]. rewrite (read_given_long n s P), I, R, IH. reflexivity.
    + cbn [List.app parse_command]. rewrite (read_bare n P), I, IH. reflexivity.
    + cbn [List.app parse_command]. rewrite (read_bare_long n P), I, IH. reflexivity.
Qed.
Lemma and_set_parsed n v p l : and_set n v p = CParsed l -> exists v' l', v = Some v' /\ p = CParsed l' /\ l = (n, v') :: l'.
Proof. destruct v as [v|]; [|discriminate]. destruct p as [l'| |]; cbn; intros E; try discriminate E. injection E as <-. eauto. Qed.
Lemma command_spells : forall m args l, length args <= m -> parse_command known args = CParsed l -> spells known args l.
Proof.
  induction m as [|m IH]; intros args l Hm E.
  - destruct args; [|cbn in Hm; lia]. cbn in E. injection E as <-. apply Sp_end. left. reflexivity.
  - destruct args as [|a rest].
    { cbn in E. injection E as <-. apply Sp_end. left. reflexivity. }
    cbn [parse_command] in E. cbn [length] in Hm. destruct (read_arg a) as [| | |n v] eqn:R.
    + injection E as <-. apply Sp_end. right. exists a, rest. split; [reflexivity|]. apply read_arg_end. left. exact R.
    + injection E as <-. apply Sp_end. right. exists a, rest. split; [reflexivity|]. apply read_arg_end. right. exact R.
    + discriminate E.
    + destruct (kind_of known n) as [k|] eqn:K; [|destruct (beqs n (bs "help") || beqs n (bs "h")); discriminate E].
      apply (kind_in known n k ND) in K. apply read_arg_back in R as (P & d & Hd & Ea).
      assert (W : k <> KSwitch -> (match v with
              | Some v => and_set n (read_value k v) (parse_command known rest)
              | None => match rest with [] => CRejected | v :: rest' => and_set n (read_value k v) (parse_command known rest') end end) = CParsed l -> spells known (a :: rest) l).
      { intros NS E'. destruct v as [v|].
        - apply and_set_parsed in E' as (v' & l' & V & E' & ->). apply value_reads in V. subst a. change ((d ++ n ++ x3d :: v) :: rest) with ([d ++ n ++ x3d :: v] ++ rest).
          apply (Sp_set known n k v' _ rest l' K); [|apply IH; [lia|exact E']]. apply (F_value n k v v' _ NS V). destruct Hd as [-> | ->]; [apply S_short_eq|apply S_long_eq].
        - destruct rest as [|v rest']; [discriminate E'|]. apply and_set_parsed in E' as (v' & l' & V & E' & ->). apply value_reads in V. subst a.
          change ((d ++ n) :: v :: rest') with ([d ++ n; v] ++ rest'). apply (Sp_set known n k v' _ rest' l' K); [|apply IH; [cbn in Hm; lia|exact E']].
          apply (F_value n k v v' _ NS V). destruct Hd as [-> | ->]; [apply S_short|apply S_long]. }
      destruct k; [apply W; [discriminate|exact E]|apply W; [discriminate|exact E]|]. clear W.
      apply and_set_parsed in E as (v' & l' & V & E & ->). change (a :: rest) with ([a] ++ rest). apply (Sp_set known n KSwitch v' _ rest l' K); [|apply IH; [lia|exact E]].
      subst a. destruct v as [v|].
      * apply value_reads in V. destruct Hd as [-> | ->]; [apply (F_switch n v v' V)|apply (F_switch_long n v v' V)].
      * injection V as <-. destruct Hd as [-> | ->]; [apply F_bare|apply F_bare_long].
Qed.
End Flags.
Lemma flags_proper : Forall proper_name (map fst uaxpl_flags).
Proof. repeat constructor; cbn; try discriminate; intros H; repeat destruct H as [H|H]; try discriminate H; exact H. Qed.
Lemma flags_nodup : NoDup (map fst uaxpl_flags).
Proof. repeat constructor; cbn; intros H; repeat destruct H as [H|H]; try discriminate H; exact H. Qed.
Lemma command_iff args l : parse_command uaxpl_flags args = CParsed l <-> spells flags args l.
Proof. split; [apply (command_spells uaxpl_flags flags_nodup (length args)); lia|apply (spells_command uaxpl_flags flags_proper flags_nodup)]. Qed.

(** ** The variables *)
Definition kinds_ok (l : list (bytes * value)) : Prop :=
  forall n v, In (n, v) l -> match v with VText _ => In (n, KText) flags | VNumber _ => In (n, KNumber) flags | VSwitch _ => In (n, KSwitch) flags end.
Lemma spells_kinds args l : spells flags args l -> kinds_ok l.
Proof.
  intros S. induction S as [args E|n k v a args l I S _ IH]; intros m w J; [destruct J|]. destruct J as [[= <- <-]|J]; [|exact (IH m w J)].
  destruct S as [n k s v a NS R _|n s v R|n s v R|n|n]; [destruct R; try (contradiction NS; reflexivity); exact I|inversion R; subst; exact I..|exact I|exact I].
Qed.
Lemma last_value_set {A} (n : bytes) (get : value -> option A) (put : A -> value) : (forall v a, get v = Some a -> v = put a) -> forall l (def : A),
  (forall v, In (n, v) l -> exists a, get v = Some a) ->
  last_set n (put def) l (put (fold_left (fun a s => if beqs (fst s) n then match get (snd s) with Some v => v | None => a end else a) l def)).
Proof.
  intros GP. induction l as [|[m v] l IH]; intros def G; [right; split; [reflexivity|intros []]|]. cbn [fold_left fst snd].
  assert (G' : forall v, In (n, v) l -> exists a, get v = Some a) by (intros w J; apply G; right; exact J). destruct (beqs m n) eqn:E.
  - apply beqs_eq in E. subst m. destruct (G v (or_introl eq_refl)) as [a Ga]. rewrite Ga. apply GP in Ga. destruct (IH a G') as [(l1 & l2 & EL & N)|(EV & N)].
    + left. exists ((n, v) :: l1), l2. cbn [app]. split; [f_equal; exact EL|exact N].
    + left. exists [], l. rewrite EV. cbn [app]. split; [f_equal; f_equal; exact Ga|exact N].
  - destruct (IH def G') as [(l1 & l2 & EL & N)|(EV & N)].
    + left. exists ((m, v) :: l1), l2. cbn [app]. split; [f_equal; exact EL|exact N].
    + right. split; [exact EV|]. cbn [map fst]. intros [->|X]; [|exact (N X)]. assert (X : beqs n n = true) by (apply beqs_eq; reflexivity). rewrite X in E. discriminate E.
Qed.
Definition get_text (v : value) : option bytes := match v with VText s => Some s | _ => None end.
Definition get_number (v : value) : option Z := match v with VNumber s => Some s | _ => None end.
Lemma text_var_fold n l : forall def, text_var n def l = fold_left (fun a s => if beqs (fst s) n then match get_text (snd s) with Some v => v | None => a end else a) l def.
Proof. unfold text_var. induction l as [|[m v] l IH]; intros def; [reflexivity|]. cbn [fold_left fst snd]. rewrite IH. destruct v; reflexivity. Qed.
Lemma number_var_fold n l : forall def, number_var n def l = fold_left (fun a s => if beqs (fst s) n then match get_number (snd s) with Some v => v | None => a end else a) l def.
Proof. unfold number_var. induction l as [|[m v] l IH]; intros def; [reflexivity|]. cbn [fold_left fst snd]. rewrite IH. destruct v; reflexivity. Qed.
Lemma text_set n def l : kinds_ok l -> In (n, KText) flags -> last_set n (VText def) l (VText (text_var n def l)).
Proof.
  intros K I. rewrite text_var_fold. apply (last_value_set n get_text VText).
  - intros v a. destruct v; try discriminate. intros [= ->]. reflexivity.
  - intros v J. specialize (K n v J). apply (kind_in flags n KText flags_nodup) in I. destruct v; [eexists; reflexivity|..]; apply (kind_in flags n _ flags_nodup) in K; rewrite I in K; discriminate K.
Qed.
Lemma number_set n def l : kinds_ok l -> In (n, KNumber) flags -> last_set n (VNumber def) l (VNumber (number_var n def l)).
Proof.
  intros K I. rewrite number_var_fold. apply (last_value_set n get_number VNumber).
  - intros v a. destruct v; try discriminate. intros [= ->]. reflexivity.
  - intros v J. specialize (K n v J). apply (kind_in flags n KNumber flags_nodup) in I. destruct v; [|eexists; reflexivity|]; apply (kind_in flags n _ flags_nodup) in K; rewrite I in K; discriminate K.
Qed.
Lemma options_ok args l : spells flags args l -> options_are l (options_of l).
Proof.
  intros S. apply spells_kinds in S. unfold options_are, options_of. cbn [op_ua op_file op_url op_out op_threads].
  repeat split; first [apply text_set|apply number_set]; try exact S; cbn; tauto.
Qed.
Lemma last_set_fun n def l v w : last_set n def l v -> last_set n def l w -> v = w.
Proof.
  assert (H : forall l1 l2 m1 m2 (v w : value), l1 ++ (n, v) :: l2 = m1 ++ (n, w) :: m2 -> ~ In n (map fst l2) -> ~ In n (map fst m2) -> v = w).
  { clear. induction l1 as [|x l1 IH]; intros l2 m1 m2 v w E N1 N2; destruct m1 as [|y m1]; cbn in E; injection E; clear E.
    - intros _ ->. reflexivity.
    - intros -> _. exfalso. apply N1. rewrite map_app. apply in_or_app. right. left. reflexivity.
    - intros <- _. exfalso. apply N2. rewrite map_app. apply in_or_app. right. left. reflexivity.
    - intros E _. exact (IH l2 m1 m2 v w E N1 N2). }
  intros [(l1 & l2 & -> & N)|(-> & N)] [(m1 & m2 & E & M)|(-> & M)].
  - exact (H _ _ _ _ _ _ E N M).
  - exfalso. apply M. rewrite map_app. apply in_or_app. right. left. reflexivity.
  - exfalso. apply N. rewrite E, map_app. apply in_or_app. right. left. reflexivity.
  - reflexivity.
Qed.
Lemma options_fun l o o' : options_are l o -> options_are l o' -> o = o'.
Proof.
  intros (A1 & A2 & A3 & A4 & A5) (B1 & B2 & B3 & B4 & B5). destruct o, o'. cbn in *.
  pose proof (last_set_fun _ _ _ _ _ A1 B1) as E1. pose proof (last_set_fun _ _ _ _ _ A2 B2) as E2. pose proof (last_set_fun _ _ _ _ _ A3 B3) as E3.
  pose proof (last_set_fun _ _ _ _ _ A4 B4) as E4. pose proof (last_set_fun _ _ _ _ _ A5 B5) as E5. congruence.
Qed.
(** ** Runs *)
Section Runs.
Variable T : tables.
Variable lower : bytes -> bytes.
Variable ans : row -> option (list bytes) -> Prop.
Variable json : bytes -> option (list row).
Variable net : bytes -> option bytes.
Variable wr : bool.
Lemma command_runs args l o opens fs fs' e : spells flags args l -> options_are l o ->
  command T lower ans json net wr args opens fs fs' e <-> exists v, e = Ended v /\ uaxpl T lower ans json net wr o (opens (op_out o)) fs fs' v.
Proof.
  intros S O. pose proof (options_fun _ _ _ O (options_ok args l S)) as ->. apply command_iff in S. split.
  - intros C. destruct C as [E|E|sets fs' v E U]; rewrite S in E; try discriminate E. injection E as <-. exists v. auto.
  - intros (v & -> & U). exact (CM_run T lower ans json net wr args opens fs l fs' v S U).
Qed.
Lemma command_refused args opens fs fs' e : (forall l, ~ spells flags args l) -> command T lower ans json net wr args opens fs fs' e -> fs' = fs /\ (e = UsageShown \/ e = HelpShown).
Proof. intros N C. destruct C as [E|E|sets fs' v E U]; [auto|auto|]. exfalso. apply command_iff in E. exact (N _ E). Qed.
Lemma command_ends args : (exists l, spells flags args l) \/ ((forall l, ~ spells flags args l) /\ forall opens fs, exists e, command T lower ans json net wr args opens fs fs e).
Proof.
  destruct (parse_command uaxpl_flags args) as [l| |] eqn:E.
  - left. exists l. apply command_iff. exact E.
  - right. split; [intros l S; apply command_iff in S; rewrite E in S; discriminate S|]. intros opens fs. exists UsageShown. constructor. exact E.
  - right. split; [intros l S; apply command_iff in S; rewrite E in S; discriminate S|]. intros opens fs. exists HelpShown. constructor. exact E.
Qed.
Lemma skip_var {A} n (f : A -> value -> A) l : (beqs n (bs "format") || beqs n (bs "verbose"))%bool = false -> forall def,
  fold_left (fun a (s : bytes * value) => if beqs (fst s) n then f a (snd s) else a) (filter matters l) def = fold_left (fun a s => if beqs (fst s) n then f a (snd s) else a) l def.
Proof.
  intros N. induction l as [|[m v] l IH]; intros def; [reflexivity|]. cbn [filter]. unfold matters at 1. cbn [fst]. destruct (beqs m (bs "format") || beqs m (bs "verbose"))%bool eqn:E; cbn [negb].
  - cbn [fold_left fst snd]. destruct (beqs m n) eqn:Q; [|apply IH]. apply beqs_eq in Q. subst m. rewrite N in E. discriminate E.
  - cbn [fold_left fst snd]. apply IH.
Qed.
Lemma options_matter l : options_of (filter matters l) = options_of l.
Proof.
  unfold options_of, text_var, number_var. f_equal;
    first [exact (skip_var (bs "ua") (fun a v => match v with VText s => s | _ => a end) l eq_refl _)|exact (skip_var (bs "file") (fun a v => match v with VText s => s | _ => a end) l eq_refl _)
      |exact (skip_var (bs "url") (fun a v => match v with VText s => s | _ => a end) l eq_refl _)|exact (skip_var (bs "out") (fun a v => match v with VText s => s | _ => a end) l eq_refl _)
      |exact (skip_var (bs "threads") (fun a v => match v with VNumber s => s | _ => a end) l eq_refl _)].
Qed.
Lemma command_silent args args' l l' opens fs fs' e : spells flags args l -> spells flags args' l' -> filter matters l = filter matters l' ->
  command T lower ans json net wr args opens fs fs' e <-> command T lower ans json net wr args' opens fs fs' e.
Proof.
  intros S S' E. rewrite (command_runs args l _ opens fs fs' e S (options_ok _ _ S)), (command_runs args' l' _ opens fs fs' e S' (options_ok _ _ S')).
  rewrite <- (options_matter l), <- (options_matter l'), E. tauto.
Qed.
End Runs.

(** ** Examples *)
Lemma verbose_value v rest : (~ exists s, v = bs "-" ++ s) -> spells flags (bs "-verbose" :: v :: rest) [(bs "verbose", VSwitch true)].
Proof.
  intros N. change (bs "-verbose" :: v :: rest) with ([bs "-" ++ bs "verbose"] ++ (v :: rest)). apply (Sp_set flags (bs "verbose") KSwitch).
  - cbn. tauto.
  - apply F_bare.
  - apply Sp_end. right. exists v, rest. auto.
Qed.
Lemma verbose_ends T lower ans json net wr v rest opens fs fs' e : (~ exists s, v = bs "-" ++ s) ->
  command T lower ans json net wr (bs "-verbose" :: v :: rest) opens fs fs' e -> fs' = fs /\ e = Ended Failed.
Proof.
  intros N C. pose proof (verbose_value v rest N) as S. apply (command_runs T lower ans json net wr _ _ _ opens fs fs' e S (options_ok _ _ S)) in C. destruct C as (w & -> & U).
  inversion U as [E1 E2 E3|O X|ev out c b O|fs1 O1 O2|fs1 contents out w' O1 O2]; subst.
  - auto.
  - auto.
  - contradiction O. reflexivity.
  - destruct O2 as [O2|O2]; contradiction O2; reflexivity.
  - destruct O2 as [O2|O2]; contradiction O2; reflexivity.
Qed.
Lemma usual_spells : spells flags [bs "--file"; bs "in.json"; bs "-threads=0x1_0"; bs "-verbose"; bs "-out=a=b"; bs "rest"; bs "-file"]
  [(bs "file", VText (bs "in.json")); (bs "threads", VNumber 16); (bs "verbose", VSwitch true); (bs "out", VText (bs "a=b"))].
Proof. apply command_iff. vm_compute. reflexivity. Qed.
Lemma usual_options : options_are [(bs "file", VText (bs "in.json")); (bs "threads", VNumber 16); (bs "verbose", VSwitch true); (bs "out", VText (bs "a=b"))]
  (mkOptions [] (bs "in.json") [] (bs "a=b") 16).
Proof. exact (options_ok _ _ usual_spells). Qed.
Lemma octal_number : number (bs "010") 8 /\ number (bs "-0b1_1") (-3) /\ forall z, ~ number (bs "1__0") z /\ ~ number (bs "08") z /\ ~ number (bs "9223372036854775808") z.
Proof.
  split; [apply int_number; vm_compute; reflexivity|]. split; [apply int_number; vm_compute; reflexivity|].
  intros z. repeat split; intros N; apply int_number in N; vm_compute in N; discriminate N.
Qed.
Lemma misspelt l : ~ spells flags [bs "-threads"; bs "two"; bs "-file"; bs "in.json"] l.
Proof. intros S. apply command_iff in S. vm_compute in S. discriminate S. Qed.
Lemma one_reading args l l' o o' : spells flags args l -> spells flags args l' -> options_are l o -> options_are l' o' -> l = l' /\ o = o'.
Proof.
  intros S S' O O'. apply command_iff in S, S'. rewrite S in S'. injection S' as <-. split; [reflexivity|exact (options_fun l o o' O O')].
Qed.
Lemma refused T lower ans json net wr args : (exists l, spells flags args l) \/
  ((exists opens fs fs' e, command T lower ans json net wr args opens fs fs' e) /\
   forall opens fs fs' e, command T lower ans json net wr args opens fs fs' e -> fs' = fs /\ (e = UsageShown \/ e = HelpShown)).
Proof.
  destruct (command_ends T lower ans json net wr args) as [S|[N H]]; [left; exact S|right]. split.
  - destruct (H (fun _ => true) (fun _ => None)) as [e C]. exists (fun _ => true), (fun _ => None), (fun _ => None), e. exact C.
  - intros opens fs fs' e C. exact (command_refused T lower ans json net wr args opens fs fs' e N C).
Qed.

(** Proofs about version.go. *)
From Verif Require Import Proof_Base Model_Version Spec_Version.

Lemma digit_iff c : is_digit c = true <-> exists k, Digit c k.
Proof.
  unfold Digit. split.
  - destruct c; cbn; intros H; try discriminate;
      [exists 0|exists 1|exists 2|exists 3|exists 4|exists 5|exists 6|exists 7|exists 8|exists 9]; reflexivity.
  - intros (k & H).
    do 10 (destruct k as [|k]; [cbn in H; injection H as <-; reflexivity|]).
    destruct k; discriminate.
Qed.

Lemma digit_val_spec c k : Digit c k -> digit_val c = Z.of_nat k /\ k < 10.
Proof.
  unfold Digit. intros H.
  do 10 (destruct k as [|k]; [cbn in H; injection H as <-; split; [reflexivity|lia]|]).
  destruct k; discriminate.
Qed.

Lemma digits_value_snoc s c acc :
  digits_value acc (s ++ [c]) =
  match digits_value acc s with
  | Some n => if is_digit c then Some (n * 10 + digit_val c)%Z else None
  | None => None
  end.
Proof.
  revert acc; induction s as [|x s IH]; intros acc; cbn; [reflexivity|].
  destruct (is_digit x); [apply IH|reflexivity].
Qed.

Lemma digits_value_Decimal s n : s <> [] -> (digits_value 0 s = Some n <-> Decimal s n).
Proof.
  revert n. induction s as [|c s IH] using rev_ind; intros n Hne; [congruence|].
  rewrite digits_value_snoc. destruct s as [|x s'].
  - cbn [digits_value]. split.
    + destruct (is_digit c) eqn:D; [|congruence]. intros [= <-].
      apply digit_iff in D as (k & D). destruct (digit_val_spec c k D) as [-> _].
      cbn [app]. replace (0 * 10 + Z.of_nat k)%Z with (Z.of_nat k) by lia. now constructor.
    + intros H. inversion H as [c' k D E1 E2 | s0 n0 c' k H0 D E1 E2]; subst.
      * assert (is_digit c = true) as -> by (apply digit_iff; eauto).
        destruct (digit_val_spec c k D) as [-> _]. f_equal; lia.
      * destruct s0; [inversion H0|destruct s0; discriminate].
        exfalso. destruct s; discriminate.
  - assert (Hx : x :: s' <> []) by congruence. split.
    + destruct (digits_value 0 (x :: s')) as [m|] eqn:E; [|congruence].
      destruct (is_digit c) eqn:D; [|congruence]. intros [= <-].
      apply digit_iff in D as (k & D). destruct (digit_val_spec c k D) as [-> _].
      replace (m * 10 + Z.of_nat k)%Z with (10 * m + Z.of_nat k)%Z by lia.
      constructor; [|exact D]. apply IH; [exact Hx|reflexivity].
    + intros H. inversion H as [c' k D E1 E2 | s0 n0 c' k H0 D E1 E2].
      * destruct s'; discriminate.
      * change (x :: s' ++ [c]) with ((x :: s') ++ [c]) in E1. apply app_inj_tail in E1 as [-> ->].
        apply (IH n0 Hx) in H0. rewrite H0.
        assert (is_digit c = true) as -> by (apply digit_iff; eauto).
        destruct (digit_val_spec c k D) as [-> _]. f_equal; lia.
Qed.

Lemma Decimal_nonempty s n : Decimal s n -> s <> [].
Proof. intros H. destruct H; [congruence|]. destruct s; discriminate. Qed.

Lemma Decimal_nonneg s n : Decimal s n -> (0 <= n)%Z.
Proof. induction 1; lia. Qed.

Lemma Decimal_digits s n : Decimal s n -> forall x, In x s -> exists k, Digit x k.
Proof.
  induction 1 as [c k D|s n c k H IH D]; intros x Hx.
  - destruct Hx as [<-|[]]. eauto.
  - apply in_app_or in Hx as [Hx|[<-|[]]]; eauto.
Qed.

Lemma Digit_not c k : Digit c k -> c <> x2e /\ c <> x2d /\ c <> x2b /\ c <> x20.
Proof.
  unfold Digit. intros H.
  do 10 (destruct k as [|k]; [cbn in H; injection H as <-; repeat split; discriminate|]).
  destruct k; discriminate.
Qed.

Lemma atoi_IsInt s z : atoi s = Some z <-> IsInt s z.
Proof.
  unfold atoi, IsInt.
  set (body := fun (neg : bool) ds => match ds with
      | [] => None
      | _ :: _ => match digits_value 0 ds with
         | None => None
         | Some n => let z := (if neg then - n else n)%Z in
             if ((-9223372036854775808 <=? z) && (z <=? 9223372036854775807))%Z then Some z else None
         end end).
  assert (B : forall neg ds, body neg ds = Some z <->
             ((- 2 ^ 63 <= z < 2 ^ 63)%Z /\ exists n, Decimal ds n /\ z = if neg then (- n)%Z else n)).
  { intros neg ds. unfold body. destruct ds as [|d ds].
    - split; [congruence|]. intros (_ & n & D & _). apply Decimal_nonempty in D. congruence.
    - assert (Hne : d :: ds <> []) by congruence.
      destruct (digits_value 0 (d :: ds)) as [n|] eqn:E.
      + pose proof (proj1 (digits_value_Decimal _ n Hne) E) as D. cbv zeta.
        change (2 ^ 63)%Z with 9223372036854775808%Z.
        split.
        * destruct ((-9223372036854775808 <=? (if neg then - n else n)) && ((if neg then - n else n) <=? 9223372036854775807))%Z eqn:R;
            [|congruence].
          intros [= <-]. split; [lia|]. exists n. tauto.
        * intros (R & m & Dm & Ez). apply (digits_value_Decimal _ m Hne) in Dm.
          assert (m = n) by congruence. subst m. rewrite <- Ez.
          assert (((-9223372036854775808 <=? z) && (z <=? 9223372036854775807))%Z = true) as -> by lia.
          reflexivity.
      + split; [congruence|]. intros (_ & m & Dm & _).
        apply (digits_value_Decimal _ m Hne) in Dm. congruence. }
  assert (F : forall ds n, Decimal ds n -> forall c t, ds = c :: t -> c <> x2d /\ c <> x2b).
  { intros ds n D c t ->. destruct (Decimal_digits _ _ D c (or_introl eq_refl)) as (k & Dk).
    pose proof (Digit_not c k Dk). tauto. }
  destruct s as [|c s].
  - cbn. split; [congruence|].
    intros (_ & ds & n & D & [[E _]|[[E _]|[E _]]]); try discriminate.
    symmetry in E. apply Decimal_nonempty in D. congruence.
  - destruct (beq_spec c x2d) as [->|N1].
    + change (body true s = Some z <-> (- 2 ^ 63 <= z < 2 ^ 63)%Z /\ (exists ds n, Decimal ds n /\
        (x2d :: s = ds /\ z = n \/ x2d :: s = bs "+" ++ ds /\ z = n \/ x2d :: s = bs "-" ++ ds /\ z = (- n)%Z))).
      rewrite B. split.
      * intros (R & n & D & E). split; [exact R|]. exists s, n. split; [exact D|]. right; right. split; [reflexivity|exact E].
      * intros (R & ds & n & D & [[E _]|[[E _]|[E Ez]]]).
        -- exfalso. symmetry in E. destruct (F ds n D _ _ E). congruence.
        -- discriminate.
        -- injection E as ->. split; [exact R|]. exists n. tauto.
    + destruct (beq_spec c x2b) as [->|N2].
      * change (body false s = Some z <-> (- 2 ^ 63 <= z < 2 ^ 63)%Z /\ (exists ds n, Decimal ds n /\
          (x2b :: s = ds /\ z = n \/ x2b :: s = bs "+" ++ ds /\ z = n \/ x2b :: s = bs "-" ++ ds /\ z = (- n)%Z))).
        rewrite B. split.
        -- intros (R & n & D & E). split; [exact R|]. exists s, n. split; [exact D|]. right; left. split; [reflexivity|exact E].
        -- intros (R & ds & n & D & [[E _]|[[E Ez]|[E _]]]).
           ++ exfalso. symmetry in E. destruct (F ds n D _ _ E). congruence.
           ++ injection E as ->. split; [exact R|]. exists n. tauto.
           ++ discriminate.
      * change (body false (c :: s) = Some z <-> (- 2 ^ 63 <= z < 2 ^ 63)%Z /\ (exists ds n, Decimal ds n /\
          (c :: s = ds /\ z = n \/ c :: s = bs "+" ++ ds /\ z = n \/ c :: s = bs "-" ++ ds /\ z = (- n)%Z))).
        rewrite B. split.
        -- intros (R & n & D & E). split; [exact R|]. exists (c :: s), n. tauto.
        -- intros (R & ds & n & D & [[E Ez]|[[E _]|[E _]]]).
           ++ subst ds. split; [exact R|]. exists n. tauto.
           ++ cbn in E. congruence.
           ++ cbn in E. congruence.
Qed.

Lemma wrap32_Int32Of z : Int32Of z (wrap32 z).
Proof.
  unfold Int32Of, wrap32. change (2 ^ 31)%Z with 2147483648%Z. change (2 ^ 32)%Z with 4294967296%Z.
  split; [lia|]. exists (- ((z + 2147483648) / 4294967296))%Z. lia.
Qed.

(** Peel: existence and uniqueness. *)
Lemma Peel_total n s : exists cs rest, Peel n s cs rest.
Proof.
  revert s; induction n as [|n IH]; intros s.
  - exists [], s. constructor.
  - destruct (index_byte s x2e) as [k|] eqn:E.
    + apply index_byte_Some in E as (a & b & -> & _ & Hn).
      destruct (IH b) as (cs & rest & H). exists (a :: cs), rest. now constructor.
    + apply index_byte_None in E. destruct s as [|x s].
      * exists [], []. constructor.
      * exists [x :: s], []. constructor; [congruence|exact E].
Qed.

Lemma split_dot_unique (a b a' b' : bytes) c :
  ~ In c a -> ~ In c a' -> a ++ c :: b = a' ++ c :: b' -> a = a' /\ b = b'.
Proof.
  revert a'; induction a as [|x a IH]; intros [|y a'] Ha Ha' E; cbn in *.
  - split; congruence.
  - injection E as -> _. tauto.
  - injection E as -> _. tauto.
  - injection E as -> E. destruct (IH a') as [-> ->]; tauto.
Qed.

Lemma Peel_unique n s cs rest : Peel n s cs rest -> forall cs' rest', Peel n s cs' rest' -> cs = cs' /\ rest = rest'.
Proof.
  induction 1 as [s|n|n s Hs Hn|n c s cs rest Hn H IH]; intros cs' rest' H';
    inversion H' as [s1 E1|n1 E1 E2|n1 s1 Hs1 Hn1 E1 E2|n1 c1 s1 cs1 rest1 Hn1 P1 E1 E2]; subst; try tauto.
  - destruct c1; discriminate.
  - exfalso. apply Hn. apply in_or_app. right. now left.
  - destruct c; discriminate.
  - exfalso. apply Hn1. apply in_or_app. right. now left.
  - apply split_dot_unique in E2 as [-> ->]; [|assumption|assumption].
    apply IH in P1 as [-> ->]. tauto.
Qed.

(** One iteration of the loop on the three shapes. *)
Lemma index_byte_app_dot c s : ~ In x2e c -> index_byte (c ++ x2e :: s) x2e = Some (length c).
Proof. apply index_byte_app. Qed.

Fixpoint sets (is : list nat) (zs : list Z) (v : version) : version :=
  match is, zs with
  | i :: is', z :: zs' => sets is' zs' (set_component i (wrap32 z) v)
  | _, _ => v
  end.

Lemma parse_loop_ok is : forall v s cs rest zs,
  Peel (length is) s cs rest -> Forall2 IsInt cs zs ->
  parse_loop is v s = (sets is zs v, Some rest).
Proof.
  induction is as [|i is IH]; intros v s cs rest zs P F; cbn [length] in P.
  - inversion P; subst. inversion F; subst. reflexivity.
  - inversion P; subst.
    + inversion F; subst. cbn [parse_loop index_byte length Nat.ltb Nat.leb orb].
      rewrite (IH v [] [] [] []); [destruct is; reflexivity| |constructor].
      destruct is; constructor.
    + inversion F as [|c z cs zs' Hc F' E1 E2]; subst. inversion F'; subst.
      cbn [parse_loop]. rewrite (proj2 (index_byte_None s x2e)) by assumption.
      assert (Hl : 0 < length s) by (destruct s; [congruence|cbn; lia]).
      apply Nat.ltb_lt in Hl. rewrite Hl. cbn [orb].
      rewrite firstn_all. rewrite (proj2 (atoi_IsInt s z) Hc).
      rewrite Nat.ltb_irrefl. cbn [sets].
      rewrite (IH _ [] [] [] []); [destruct is; reflexivity| |constructor].
      destruct is; constructor.
    + inversion F as [|c' z cs' zs' Hc F' E1 E2]; subst.
      cbn [parse_loop]. rewrite index_byte_app_dot by assumption. cbn [orb].
      rewrite firstn_app, Nat.sub_diag, firstn_all, firstn_O, app_nil_r.
      rewrite (proj2 (atoi_IsInt c z) Hc).
      rewrite app_length. cbn [length].
      assert (length c <? length c + S (length s0) = true) as -> by (apply Nat.ltb_lt; lia).
      rewrite skipn_app, skipn_all2 by lia.
      replace (length c + 1 - length c) with 1 by lia. cbn [app skipn sets].
      eapply IH; eassumption.
Qed.

Lemma parse_loop_fail is : forall v s pre c post rest zs,
  Peel (length is) s (pre ++ c :: post) rest -> Forall2 IsInt pre zs -> (forall z, ~ IsInt c z) ->
  parse_loop is v s = (sets is zs v, None).
Proof.
  induction is as [|i is IH]; intros v s pre c post rest zs P F Hc; cbn [length] in P.
  - inversion P. destruct pre; discriminate.
  - assert (Hn : atoi c = None).
    { destruct (atoi c) as [z|] eqn:E; [|reflexivity]. apply atoi_IsInt in E. now apply Hc in E. }
    destruct pre as [|p pre]; cbn [app] in P.
    + inversion F; subst. inversion P as [| |n s0 Hs Hd|n c0 s0 cs0 rest0 Hd P']; subst.
      * cbn [parse_loop]. rewrite (proj2 (index_byte_None c x2e)) by assumption.
        assert (Hl : 0 < length c) by (destruct c; [congruence|cbn; lia]).
        apply Nat.ltb_lt in Hl. rewrite Hl. cbn [orb]. rewrite firstn_all, Hn. reflexivity.
      * cbn [parse_loop]. rewrite index_byte_app_dot by assumption. cbn [orb].
        rewrite firstn_app, Nat.sub_diag, firstn_all, firstn_O, app_nil_r, Hn. reflexivity.
    + inversion F as [|p' z pre' zs' Hp F']; subst. inversion P as [| |n s0 Hs Hd|n c0 s0 cs0 rest0 Hd P']; subst.
      * destruct pre; discriminate.
      * cbn [parse_loop]. rewrite index_byte_app_dot by assumption. cbn [orb].
        rewrite firstn_app, Nat.sub_diag, firstn_all, firstn_O, app_nil_r.
        rewrite (proj2 (atoi_IsInt p z) Hp). rewrite app_length. cbn [length].
        assert (length p <? length p + S (length s0) = true) as -> by (apply Nat.ltb_lt; lia).
        rewrite skipn_app, skipn_all2 by lia.
        replace (length p + 1 - length p) with 1 by lia. cbn [app skipn sets].
        eapply IH; eassumption.
Qed.

Lemma Forall2_or_first (cs : list bytes) :
  (exists zs, Forall2 IsInt cs zs) \/
  (exists pre c post zs, cs = pre ++ c :: post /\ Forall2 IsInt pre zs /\ forall z, ~ IsInt c z).
Proof.
  induction cs as [|c cs IH].
  - left. exists []. constructor.
  - destruct (atoi c) as [z|] eqn:E.
    + apply atoi_IsInt in E. destruct IH as [(zs & F)|(pre & c' & post & zs & -> & F & H)].
      * left. exists (z :: zs). now constructor.
      * right. exists (c :: pre), c', post, (z :: zs). split; [reflexivity|]. split; [now constructor|exact H].
    + right. exists [], c, cs, []. split; [reflexivity|]. split; [constructor|].
      intros z H. apply atoi_IsInt in H. congruence.
Qed.

Lemma sets_p is zs v : v_p (sets is zs v) = v_p v /\ v_suffix (sets is zs v) = v_suffix v.
Proof.
  revert zs v; induction is as [|i is IH]; intros [|z zs] v; cbn; try tauto.
  destruct (IH zs (set_component i (wrap32 z) v)) as [-> ->].
  destruct i as [|[|[|[|i]]]]; tauto.
Qed.

Lemma sets_fields zs v : FieldsFrom v zs (sets [0; 1; 2; 3] zs v).
Proof.
  unfold FieldsFrom, fields. intros i Hi.
  destruct zs as [|z0 [|z1 [|z2 [|z3 zs]]]]; cbn [sets set_component v_major v_minor v_patch v_revision v_suffix];
    destruct i as [|[|[|[|i]]]]; try lia; cbn [nth nth_error v_major v_minor v_patch v_revision];
    first [reflexivity | apply wrap32_Int32Of].
Qed.

Lemma sep_iff c : beq c x20 || beq c x2d = true <-> is_sep c.
Proof. unfold is_sep. rewrite orb_true_iff, !beq_eq. tauto. Qed.

Lemma index_space_hyphen_spec s :
  match index_space_hyphen s with
  | Some k => exists a c b, s = a ++ c :: b /\ is_sep c /\ (forall x, In x a -> ~ is_sep x) /\ k = length a
  | None => forall x, In x s -> ~ is_sep x
  end.
Proof.
  induction s as [|c s IH]; cbn; [tauto|].
  destruct (beq c x20 || beq c x2d) eqn:E.
  - apply sep_iff in E. exists [], c, s. cbn. tauto.
  - assert (Hn : ~ is_sep c) by (intros H; apply sep_iff in H; congruence).
    destruct (index_space_hyphen s) as [k|].
    + destruct IH as (a & c' & b & -> & Hc & Ha & ->).
      exists (c :: a), c', b. split; [reflexivity|]. split; [exact Hc|]. split; [|reflexivity].
      intros x [<-|Hx]; auto.
    + intros x [<-|Hx]; auto.
Qed.

Definition add_suffix (v : version) (rest : bytes) : version :=
  if 0 <? length rest then
    match index_space_hyphen rest with Some idx => set_suffix (skipn (idx + 1) rest) v | None => v end
  else v.

Lemma add_suffix_spec v rest :
  SuffixFrom (v_suffix v) rest (v_suffix (add_suffix v rest)) /\
  fields (add_suffix v rest) = fields v.
Proof.
  unfold add_suffix. destruct rest as [|x rest]; cbn [length Nat.ltb Nat.leb].
  - split; [|reflexivity]. right. split; [intros ? []|reflexivity].
  - pose proof (index_space_hyphen_spec (x :: rest)) as H.
    destruct (index_space_hyphen (x :: rest)) as [k|].
    + destruct H as (a & c & b & E & Hc & Ha & ->). split; [|reflexivity].
      left. exists a, c. rewrite E. cbn [set_suffix v_suffix].
      rewrite skipn_app, skipn_all2 by lia. replace (length a + 1 - length a) with 1 by lia.
      cbn [app skipn]. tauto.
    + split; [|reflexivity]. right. tauto.
Qed.

Lemma parse_fresh_eq v s :
  v_p v = false ->
  parse v s = match parse_loop [0; 1; 2; 3] v s with
              | (v', None) => (v', false)
              | (v', Some rest) => (set_parsed (add_suffix v' rest), true)
              end.
Proof.
  intros Hp. unfold parse. rewrite Hp.
  destruct s as [|x s]; [reflexivity|]. cbn [length Nat.ltb Nat.leb].
  destruct (parse_loop [0; 1; 2; 3] v (x :: s)) as [v' [rest|]]; reflexivity.
Qed.

Lemma parse_spec v s cs rest :
  v_p v = false -> Peel 4 s cs rest ->
  (forall zs, Forall2 IsInt cs zs ->
     exists v', parse v s = (v', true) /\ v_p v' = true /\ FieldsFrom v zs v' /\ SuffixFrom (v_suffix v) rest (v_suffix v')) /\
  (forall pre c post zs, cs = pre ++ c :: post -> Forall2 IsInt pre zs -> (forall z, ~ IsInt c z) ->
     exists v', parse v s = (v', false) /\ v_p v' = false /\ FieldsFrom v zs v' /\ v_suffix v' = v_suffix v).
Proof.
  intros Hp P. rewrite parse_fresh_eq by exact Hp. split.
  - intros zs F. rewrite (parse_loop_ok [0; 1; 2; 3] v s cs rest zs P F).
    eexists. split; [reflexivity|]. split; [reflexivity|].
    destruct (add_suffix_spec (sets [0; 1; 2; 3] zs v) rest) as [S1 S2].
    destruct (sets_p [0; 1; 2; 3] zs v) as [_ S3].
    split.
    + pose proof (sets_fields zs v) as Hf. unfold FieldsFrom in *.
      change (fields (set_parsed (add_suffix (sets [0; 1; 2; 3] zs v) rest)))
        with (fields (add_suffix (sets [0; 1; 2; 3] zs v) rest)).
      rewrite S2. exact Hf.
    + rewrite S3 in S1. exact S1.
  - intros pre c post zs -> F Hc.
    rewrite (parse_loop_fail [0; 1; 2; 3] v s pre c post rest zs P F Hc).
    eexists. split; [reflexivity|].
    destruct (sets_p [0; 1; 2; 3] zs v) as [S1 S2].
    split; [congruence|]. split; [apply sets_fields|exact S2].
Qed.

(** C06 *)
Lemma parse_parsed v s : v_p v = true -> parse v s = (v, true).
Proof. unfold parse. intros ->. reflexivity. Qed.

Lemma parse_success_p v s v' : parse v s = (v', true) -> v_p v' = true.
Proof.
  destruct (v_p v) eqn:Hp.
  - rewrite parse_parsed by exact Hp. congruence.
  - rewrite parse_fresh_eq by exact Hp.
    destruct (parse_loop [0; 1; 2; 3] v s) as [v1 [rest|]]; [|congruence].
    intros [= <-]. reflexivity.
Qed.

Lemma sets_idem is zs v : NoDup is -> sets is zs (sets is zs v) = sets is zs v.
Proof.
  assert (C : forall i j x y v, i <> j -> set_component i x (set_component j y v) = set_component j y (set_component i x v)).
  { intros i j x y w Hij. destruct i as [|[|[|[|i]]]], j as [|[|[|[|j]]]]; try reflexivity; congruence. }
  assert (D : forall i x y v, set_component i x (set_component i y v) = set_component i x v).
  { intros i x y w. destruct i as [|[|[|[|i]]]]; reflexivity. }
  assert (Cs : forall is zs i x v, ~ In i is -> set_component i x (sets is zs v) = sets is zs (set_component i x v)).
  { induction is0 as [|j is0 IH]; intros [|z zs0] i x w Hi; cbn; try reflexivity.
    rewrite IH by (intros ?; apply Hi; now right). rewrite C; [reflexivity|].
    intros ->. apply Hi. now left. }
  revert zs v; induction is as [|i is IH]; intros [|z zs] v Hnd; cbn; try reflexivity.
  inversion Hnd; subst. rewrite Cs by assumption. rewrite D. apply IH. assumption.
Qed.

Lemma parse_fail_again v s v' : parse v s = (v', false) -> parse v' s = (v', false).
Proof.
  destruct (v_p v) eqn:Hp; [rewrite parse_parsed by exact Hp; congruence|].
  destruct (Peel_total 4 s) as (cs & rest & P).
  destruct (Forall2_or_first cs) as [(zs & F)|(pre & c & post & zs & -> & F & Hc)].
  - rewrite parse_fresh_eq by exact Hp. rewrite (parse_loop_ok [0; 1; 2; 3] v s cs rest zs P F). congruence.
  - rewrite parse_fresh_eq by exact Hp. rewrite (parse_loop_fail [0; 1; 2; 3] v s pre c post rest zs P F Hc).
    intros E. assert (v' = sets [0; 1; 2; 3] zs v) by congruence. subst v'.
    rewrite parse_fresh_eq by (rewrite (proj1 (sets_p _ _ _)); exact Hp).
    rewrite (parse_loop_fail [0; 1; 2; 3] _ s pre c post rest zs P F Hc).
    f_equal. apply (sets_idem [0; 1; 2; 3]).
    repeat constructor; cbn; intuition discriminate.
Qed.

Lemma parse_many v s v' ss :
  parse v s = (v', true) -> fold_left (fun w t => fst (parse w t)) ss v' = v' /\ Forall (fun t => parse v' t = (v', true)) ss.
Proof.
  intros H. apply parse_success_p in H.
  split.
  - induction ss as [|t ss IH]; cbn; [reflexivity|]. rewrite (parse_parsed v' t H). exact IH.
  - apply Forall_forall. intros t _. apply parse_parsed. exact H.
Qed.

(** Decimal printing. *)
Lemma digit_Digit n : (n < 10)%N -> Digit (digit n) (N.to_nat n).
Proof.
  intros H. assert (E : (n = 0 \/ n = 1 \/ n = 2 \/ n = 3 \/ n = 4 \/ n = 5 \/ n = 6 \/ n = 7 \/ n = 8 \/ n = 9)%N) by lia.
  repeat destruct E as [->|E]; try subst n; reflexivity.
Qed.

Lemma ndigits_Decimal f : forall n, (n < 2 ^ N.of_nat f)%N -> Decimal (ndigits (S f) n) (Z.of_N n).
Proof.
  induction f as [|f IH]; intros n H.
  - cbn in H. assert (n = 0)%N by lia. subst. cbn. apply (Decimal_one _ 0). reflexivity.
  - cbn [ndigits]. destruct (N.ltb_spec n 10) as [Hs|Hs].
    + replace (Z.of_N n) with (Z.of_nat (N.to_nat n)) by lia. constructor. now apply digit_Digit.
    + fold (ndigits (S f) (n / 10)).
      rewrite Nat2N.inj_succ, N.pow_succ_r' in H.
      assert (H' : (n / 10 < 2 ^ N.of_nat f)%N) by (apply N.div_lt_upper_bound; lia).
      replace (Z.of_N n) with (10 * Z.of_N (n / 10) + Z.of_nat (N.to_nat (n mod 10)))%Z by lia.
      constructor; [apply IH; exact H'|]. apply digit_Digit. lia.
Qed.

Lemma size_nat_bound n : (n < 2 ^ N.of_nat (N.size_nat n))%N.
Proof.
  destruct n as [|p]; [cbn; lia|]. cbn [N.size_nat].
  induction p as [p IH|p IH|]; cbn [Pos.size_nat]; rewrite ?Nat2N.inj_succ, ?N.pow_succ_r'; lia.
Qed.

Lemma itoa_Decimal z : (0 <= z)%Z -> Decimal (itoa z) z.
Proof.
  intros H. unfold itoa. destruct (Z.ltb_spec z 0); [lia|]. cbn [app].
  replace z with (Z.of_N (Z.to_N (Z.abs z))) at 3 by lia.
  apply ndigits_Decimal. apply size_nat_bound.
Qed.

Lemma itoa_IsInt z : (0 <= z < 2 ^ 63)%Z -> IsInt (itoa z) z.
Proof.
  intros H. split; [lia|]. exists (itoa z), z. split; [apply itoa_Decimal; lia|]. left. tauto.
Qed.

Lemma itoa_nodot z : (0 <= z)%Z -> ~ In x2e (itoa z).
Proof.
  intros H Hi. destruct (Decimal_digits _ _ (itoa_Decimal z H) _ Hi) as (k & D).
  apply Digit_not in D. tauto.
Qed.

(** C07 *)
Definition text4 (v : version) : bytes :=
  itoa (v_major v) ++ x2e :: itoa (v_minor v) ++ x2e :: itoa (v_patch v) ++ x2e :: itoa (v_revision v).

Lemma itoa_nonempty z : (0 <= z)%Z -> itoa z <> [].
Proof. intros H. eapply Decimal_nonempty, itoa_Decimal, H. Qed.

Lemma version_write_pos v dst :
  (0 < v_major v)%Z ->
  version_write v dst = dst ++ text4 v ++ (if 0 <? length (v_suffix v) then x20 :: v_suffix v else []).
Proof.
  intros H. unfold version_write, text4.
  assert ((0 <? v_major v)%Z = true) as -> by lia. rewrite !orb_true_r.
  set (d := ((dst ++ itoa (v_major v)) ++ _) ++ _).
  assert (Hd : forall t, length (((d ++ [x2e] ++ itoa (v_revision v))) ++ t) <> 0).
  { intros t. rewrite !app_length. cbn. lia. }
  destruct (0 <? length (v_suffix v)).
  - destruct (Nat.eqb_spec (length ((d ++ [x2e] ++ itoa (v_revision v)) ++ [x20] ++ v_suffix v)) 0) as [E|_].
    + now apply Hd in E.
    + unfold d. rewrite <- !app_assoc. cbn [app]. repeat (rewrite <- !app_assoc; cbn [app]). reflexivity.
  - destruct (Nat.eqb_spec (length (d ++ [x2e] ++ itoa (v_revision v))) 0) as [E|_].
    + specialize (Hd []). rewrite app_nil_r in Hd. contradiction.
    + unfold d. rewrite <- !app_assoc. cbn [app]. repeat (rewrite <- !app_assoc; cbn [app]). rewrite app_nil_r. reflexivity.
Qed.

Lemma peel_text4 v t :
  nonneg32 v -> ~ In x2e t ->
  Peel 4 (text4 v ++ t) [itoa (v_major v); itoa (v_minor v); itoa (v_patch v); itoa (v_revision v) ++ t] [].
Proof.
  intros (H1 & H2 & H3 & H4) Ht. unfold text4.
  rewrite <- app_assoc. cbn [app]. constructor; [apply itoa_nodot; lia|].
  rewrite <- app_assoc. cbn [app]. constructor; [apply itoa_nodot; lia|].
  rewrite <- app_assoc. cbn [app]. constructor; [apply itoa_nodot; lia|].
  constructor.
  - intros E. apply app_eq_nil in E as [E _]. revert E. apply itoa_nonempty. lia.
  - intros Hi. apply in_app_or in Hi as [Hi|Hi]; [|tauto]. revert Hi. apply itoa_nodot. lia.
Qed.

Lemma round_trip_ok v :
  nonneg32 v -> v_suffix v = [] -> (0 < v_major v)%Z -> parse version_zero (version_string v) = (set_parsed v, true).
Proof.
  intros Hn Hs Hm. unfold version_string. rewrite version_write_pos by exact Hm. rewrite Hs.
  cbn [length Nat.ltb Nat.leb app].
  pose proof (peel_text4 v [] Hn (fun x => x)) as P. rewrite app_nil_r in P.
  destruct Hn as (H1 & H2 & H3 & H4).
  rewrite parse_fresh_eq by reflexivity. rewrite app_nil_r.
  rewrite (parse_loop_ok [0; 1; 2; 3] _ _ _ _ [v_major v; v_minor v; v_patch v; v_revision v] P).
  - cbn [sets set_component version_zero v_major v_minor v_patch v_revision v_suffix v_p].
    rewrite !wrap32_id by lia. destruct v; cbn in Hs; subst. reflexivity.
  - rewrite app_nil_r. repeat constructor; apply itoa_IsInt; lia.
Qed.

Lemma round_trip_zero v :
  v_major v = 0%Z -> v_minor v = 0%Z -> v_patch v = 0%Z -> v_revision v = 0%Z -> v_suffix v = [] ->
  parse version_zero (version_string v) = (set_parsed v, true).
Proof. destruct v; cbn. intros -> -> -> -> ->. reflexivity. Qed.

Lemma not_IsInt_empty z : ~ IsInt [] z.
Proof. intros H. apply atoi_IsInt in H. discriminate. Qed.

Lemma IsInt_no_space c z : IsInt c z -> ~ In x20 c.
Proof.
  intros (_ & ds & n & D & H) Hi.
  assert (Hd : ~ In x20 ds).
  { intros Hx. destruct (Decimal_digits _ _ D _ Hx) as (k & Dk). apply Digit_not in Dk. tauto. }
  destruct H as [[-> _]|[[-> _]|[-> _]]]; cbn in Hi; intuition discriminate.
Qed.

Lemma parse_false_bad_first v c s :
  v_p v = false -> ~ In x2e c -> (forall z, ~ IsInt c z) -> snd (parse v (c ++ x2e :: s)) = false.
Proof.
  intros Hp Hd Hc.
  destruct (Peel_total 3 s) as (cs & rest & P).
  rewrite parse_fresh_eq by exact Hp.
  rewrite (parse_loop_fail [0;1;2;3] v _ [] c cs rest []); [reflexivity| |constructor|exact Hc].
  constructor; assumption.
Qed.

Lemma parse_false_leading_space v t : v_p v = false -> snd (parse v (x20 :: t)) = false.
Proof.
  intros Hp. destruct (Peel_total 4 (x20 :: t)) as (cs & rest & P).
  rewrite parse_fresh_eq by exact Hp.
  inversion P as [| |n s Hs Hd|n c s cs0 rest0 Hd P' E0 E1]; subst.
  - rewrite (parse_loop_fail [0;1;2;3] v _ [] (x20 :: t) [] [] []); [reflexivity|exact P|constructor|].
    intros z Hz. apply IsInt_no_space in Hz. apply Hz. now left.
  - rewrite E1. rewrite (parse_loop_fail [0;1;2;3] v (x20 :: t) [] c cs0 rest []); [reflexivity|exact P|constructor|].
    intros z Hz. destruct c as [|y c]; [now apply not_IsInt_empty in Hz|].
    injection E1 as -> _. apply IsInt_no_space in Hz. apply Hz. now left.
Qed.

Lemma round_trip_suffix_fails v :
  nonneg32 v -> (0 < v_major v)%Z -> v_suffix v <> [] -> snd (parse version_zero (version_string v)) = false.
Proof.
  intros Hn Hm Hs. unfold version_string. rewrite version_write_pos by exact Hm. cbn [app].
  assert (0 <? length (v_suffix v) = true) as -> by (destruct (v_suffix v); [congruence|reflexivity]).
  destruct Hn as (H1 & H2 & H3 & H4).
  set (sf := v_suffix v).
  assert (P : exists c post rest, Peel 4 (text4 v ++ x20 :: sf)
      ([itoa (v_major v); itoa (v_minor v); itoa (v_patch v)] ++ c :: post) rest /\ In x20 c).
  { destruct (Peel_total 1 (itoa (v_revision v) ++ x20 :: sf)) as (cs & rest & P).
    assert (exists c post, cs = c :: post /\ In x20 c) as (c & post & -> & Hi).
    { assert (Hnd : ~ In x2e (itoa (v_revision v))) by (apply itoa_nodot; lia).
      inversion P as [|n E0 E1|n s Hs0 Hd E0 E1|n c s cs0 rest0 Hd P' E0 E1]; subst.
      - exfalso. destruct (itoa (v_revision v)); discriminate.
      - eexists _, []. split; [reflexivity|]. apply in_or_app. right. now left.
      - eexists c, _. split; [reflexivity|].
        clear - E1 Hnd Hd. revert c E1 Hd. induction (itoa (v_revision v)) as [|x l IH]; intros c E Hd; cbn in *.
        + destruct c as [|y c]; cbn in E; [congruence|]. injection E as E0 _. left. congruence.
        + destruct c as [|y c]; cbn in E; injection E as E0 E; [exfalso; apply Hnd; left; congruence|].
          right. apply IH; [tauto|exact E|]. intros ?; apply Hd; now right. }
    exists c, post, rest. split; [|exact Hi].
    unfold text4. cbn [app].
    rewrite <- app_assoc. cbn [app]. constructor; [apply itoa_nodot; lia|].
    rewrite <- app_assoc. cbn [app]. constructor; [apply itoa_nodot; lia|].
    rewrite <- app_assoc. cbn [app]. constructor; [apply itoa_nodot; lia|]. exact P. }
  destruct P as (c & post & rest & P & Hi).
  rewrite parse_fresh_eq by reflexivity.
  erewrite (parse_loop_fail [0;1;2;3]); [reflexivity|exact P| |].
  - repeat constructor; apply itoa_IsInt; lia.
  - intros z Hz. apply IsInt_no_space in Hz. tauto.
Qed.

Lemma round_trip_major0_fails v :
  nonneg32 v -> v_major v = 0%Z ->
  (v_minor v <> 0 \/ v_patch v <> 0 \/ v_revision v <> 0)%Z \/ v_suffix v <> [] ->
  snd (parse version_zero (version_string v)) = false.
Proof.
  intros (H1 & H2 & H3 & H4) Hm H. unfold version_string, version_write. rewrite Hm. cbn [Z.ltb Z.compare app orb].
  rewrite !orb_false_r.
  destruct (Z.ltb_spec 0 (v_minor v)) as [P2|P2]; cbn [orb].
  - rewrite !orb_true_r. cbn [app].
    assert (K : forall t, snd (parse version_zero (x2e :: t)) = false).
    { intros t. apply (parse_false_bad_first version_zero [] t); [reflexivity|tauto|apply not_IsInt_empty]. }
    destruct (0 <? length (v_suffix v)); cbn [length Nat.eqb app]; apply K.
  - rewrite !orb_false_r. destruct (Z.ltb_spec 0 (v_patch v)) as [P3|P3]; cbn [orb].
    + rewrite !orb_true_r. cbn [app].
      assert (K : forall t, snd (parse version_zero (x2e :: t)) = false).
      { intros t. apply (parse_false_bad_first version_zero [] t); [reflexivity|tauto|apply not_IsInt_empty]. }
      destruct (0 <? length (v_suffix v)); cbn [length Nat.eqb app]; apply K.
    + rewrite !orb_false_r. destruct (Z.ltb_spec 0 (v_revision v)) as [P4|P4]; cbn [orb].
      * cbn [app].
        assert (K : forall t, snd (parse version_zero (x2e :: t)) = false).
        { intros t. apply (parse_false_bad_first version_zero [] t); [reflexivity|tauto|apply not_IsInt_empty]. }
        destruct (0 <? length (v_suffix v)); cbn [length Nat.eqb app]; apply K.
      * destruct (v_suffix v) as [|x sf] eqn:Es; [exfalso; destruct H as [H|H]; [lia|congruence]|].
        cbn [length Nat.ltb Nat.leb app Nat.eqb]. apply parse_false_leading_space. reflexivity.
Qed.

Lemma round_trip_iff v :
  nonneg32 v ->
  (parse version_zero (version_string v) = (set_parsed v, true) <->
   v_suffix v = [] /\ ((0 < v_major v)%Z \/ (v_minor v = 0 /\ v_patch v = 0 /\ v_revision v = 0)%Z)).
Proof.
  intros Hn. pose proof Hn as (H1 & H2 & H3 & H4). split.
  - intros E.
    assert (Hf : snd (parse version_zero (version_string v)) <> false) by (rewrite E; discriminate).
    destruct (Z.ltb_spec 0 (v_major v)) as [Hm|Hm].
    + split; [|tauto]. destruct (v_suffix v) eqn:Es; [reflexivity|].
      exfalso. apply Hf. apply round_trip_suffix_fails; [exact Hn|exact Hm|congruence].
    + assert (Hm0 : v_major v = 0%Z) by lia.
      assert (K : ~ ((v_minor v <> 0 \/ v_patch v <> 0 \/ v_revision v <> 0)%Z \/ v_suffix v <> [])).
      { intros K. apply Hf. apply round_trip_major0_fails; assumption. }
      destruct (v_suffix v) eqn:Es.
      * split; [reflexivity|]. right. lia.
      * exfalso. apply K. right. congruence.
  - intros [Hs [Hm|(E2 & E3 & E4)]].
    + apply round_trip_ok; assumption.
    + destruct (Z.ltb_spec 0 (v_major v)) as [Hm|Hm].
      * apply round_trip_ok; assumption.
      * apply round_trip_zero; [lia|assumption..].
Qed.

(** C09 *)
Definition blank (v : version) : Prop :=
  (v_major v <= 0 /\ v_minor v <= 0 /\ v_patch v <= 0 /\ v_revision v <= 0)%Z /\ v_suffix v = [].

Lemma version_write_blank v dst : blank v -> version_write v dst = if length dst =? 0 then bs "0" else dst.
Proof.
  intros ((H1 & H2 & H3 & H4) & Hs). unfold version_write. rewrite Hs.
  destruct (Z.ltb_spec 0 (v_major v)); [lia|].
  destruct (Z.ltb_spec 0 (v_minor v)); [lia|].
  destruct (Z.ltb_spec 0 (v_patch v)); [lia|].
  destruct (Z.ltb_spec 0 (v_revision v)); [lia|]. cbn [orb length Nat.ltb Nat.leb].
  destruct dst; reflexivity.
Qed.

Lemma version_write_append v dst : ~ blank v -> version_write v dst = dst ++ version_string v.
Proof.
  intros Hb. unfold version_string, version_write.
  destruct (Z.ltb_spec 0 (v_major v)); cbn [orb app]; rewrite ?orb_true_r;
    [|destruct (Z.ltb_spec 0 (v_minor v)); cbn [orb app]; rewrite ?orb_true_r;
      [|destruct (Z.ltb_spec 0 (v_patch v)); cbn [orb app]; rewrite ?orb_true_r;
        [|destruct (Z.ltb_spec 0 (v_revision v)); cbn [orb app]; rewrite ?orb_true_r]]].
  all: destruct (v_suffix v) as [|sx sf] eqn:Es; cbn [length Nat.ltb Nat.leb app].
  all: repeat match goal with |- context [length ?l =? 0] =>
         let E := fresh in destruct (Nat.eqb_spec (length l) 0) as [E|E];
         [exfalso; rewrite ?app_length in E; cbn [length] in E; lia|clear E] end.
  all: try (rewrite <- ?app_assoc; cbn [app]; repeat (rewrite <- ?app_assoc; cbn [app]); reflexivity).
  exfalso. apply Hb. unfold blank. rewrite Es. split; [lia|reflexivity].
Qed.

(** C08 *)
Lemma Int32Of_small z w : Int32Of z w -> (- 2 ^ 31 <= z < 2 ^ 31)%Z -> w = z.
Proof.
  unfold Int32Of. change (2 ^ 31)%Z with 2147483648%Z. change (2 ^ 32)%Z with 4294967296%Z.
  intros (R & k & E) Hz. assert (k = 0)%Z by lia. lia.
Qed.

Lemma parse_components_exact s cs rest zs :
  Peel 4 s cs rest -> Forall2 IsInt cs zs -> Forall (fun z => - 2 ^ 31 <= z < 2 ^ 31)%Z zs ->
  exists v, parse version_zero s = (v, true) /\ fields v = firstn 4 (zs ++ [0; 0; 0; 0]%Z).
Proof.
  intros P F R.
  destruct (parse_spec version_zero s cs rest eq_refl P) as [K _].
  destruct (K zs F) as (v & E & _ & Hf & _). exists v. split; [exact E|].
  unfold FieldsFrom in Hf. pose proof (Hf 0 ltac:(lia)) as H0. pose proof (Hf 1 ltac:(lia)) as H1.
  pose proof (Hf 2 ltac:(lia)) as H2. pose proof (Hf 3 ltac:(lia)) as H3.
  unfold fields in *. cbn [nth version_zero v_major v_minor v_patch v_revision] in *.
  assert (K0 : forall i z w, nth_error zs i = Some z -> Int32Of z w -> w = z).
  { intros i z w Hi Hw. apply Int32Of_small; [exact Hw|].
    rewrite Forall_forall in R. apply R. eapply nth_error_In, Hi. }
  destruct zs as [|z0 [|z1 [|z2 [|z3 zs]]]]; cbn [nth_error] in H0, H1, H2, H3; cbn [app firstn];
    repeat match goal with
    | H : Int32Of ?z ?w |- _ =>
        first [ rewrite (K0 0 z w eq_refl H) | rewrite (K0 1 z w eq_refl H)
              | rewrite (K0 2 z w eq_refl H) | rewrite (K0 3 z w eq_refl H)]; clear H
    | H : _ = 0%Z |- _ => rewrite H; clear H
    end; reflexivity.
Qed.

Lemma version_write_cases v dst :
  ((0 < v_major v \/ 0 < v_minor v \/ 0 < v_patch v \/ 0 < v_revision v)%Z \/ v_suffix v <> [] ->
     version_write v dst = dst ++ version_string v) /\
  ((v_major v <= 0 /\ v_minor v <= 0 /\ v_patch v <= 0 /\ v_revision v <= 0)%Z /\ v_suffix v = [] ->
     version_write v dst = match dst with [] => bs "0" | _ => dst end).
Proof.
  split.
  - intros H. apply version_write_append. intros (B & Bs). destruct H as [H|H]; [lia|congruence].
  - intros H. rewrite version_write_blank by exact H. destruct dst; reflexivity.
Qed.

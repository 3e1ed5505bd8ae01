(** Proofs for C39: the engine chosen by a function with one threshold. *)
From Coq Require Import ZArith List Bool Lia ZifyBool ZifyNat ZifyN.
Import ListNotations.
From Verif Require Import Model_Base Model_Version Model_CacheEntry Model_Ctx Model_Parse Model_Shipped Spec_Version Spec_Getters
  Spec_Select Spec_Threshold Proof_Base Proof_Select Proof_Version Proof_Agree Proof_Client Proof_Choice Proof_Tables.
Open Scope nat_scope.

Lemma digit_lt x k : Digit x k -> k < 10.
Proof.
  intros H. unfold Digit in H. do 10 (destruct k as [|k]; [lia|]). destruct k; discriminate.
Qed.

Lemma decimal_nonneg s n : Decimal s n -> (0 <= n)%Z.
Proof. induction 1; lia. Qed.

(** The first [length a] digits are the quotient by a power of ten. *)
Lemma decimal_split : forall b a n, a <> [] -> Decimal (a ++ b) n ->
  exists p, Decimal a p /\ p = (n / 10 ^ Z.of_nat (length b))%Z.
Proof.
  induction b as [|y b IH] using rev_ind; intros a n Ne H.
  - rewrite app_nil_r in H. exists n. split; [exact H|]. cbn [length Z.of_nat]. rewrite Z.pow_0_r, Z.div_1_r. reflexivity.
  - rewrite app_assoc in H. inversion H as [c k D E1 E2|s0 n0 c k D0 D E1 E2]; subst.
    + symmetry in E1. destruct a; [congruence|]. cbn in E1. injection E1 as _ E1. destruct a, b; discriminate.
    + apply app_inj_tail in E1 as [-> ->]. destruct (IH a n0 Ne D0) as (p & Da & ->).
      eexists. split; [exact Da|]. pose proof (digit_lt _ _ D).
      rewrite app_length. cbn [length]. replace (Z.of_nat (length b + 1)) with (1 + Z.of_nat (length b))%Z by lia.
      rewrite Z.pow_add_r, Z.pow_1_r by lia. rewrite <- Z.div_div by lia. f_equal.
      rewrite Z.add_comm, Z.mul_comm, Z.div_add by lia. rewrite Z.div_small by lia. reflexivity.
Qed.

Lemma leb_longer : forall a b c, length a = length b -> str_leb a (b ++ c) = str_leb a b.
Proof.
  induction a as [|x a IH]; intros [|y b] c E; try discriminate; cbn [app str_leb]; [destruct c; reflexivity|].
  injection E as E. rewrite (IH b c E). reflexivity.
Qed.

Lemma leb_shorter : forall a b c, length a = length b -> c <> [] -> str_leb (a ++ c) b = negb (str_leb b a).
Proof.
  induction a as [|x a IH]; intros [|y b] c E Ne; try discriminate; cbn [app str_leb].
  - destruct c; [congruence|reflexivity].
  - injection E as E. rewrite (IH b c E Ne).
    assert (beq x y = (bn x =? bn y)%N) as -> by reflexivity. assert (beq y x = (bn y =? bn x)%N) as -> by reflexivity.
    destruct (str_leb b a); lia.
Qed.

(** The order of texts on numbers written in decimal. *)
Lemma decimal_order a b n m : Decimal a n -> Decimal b m -> (text_le a b <-> reaches (length a) n (length b) m).
Proof.
  intros Da Db. unfold reaches. destruct (Nat.ltb_spec (length b) (length a)) as [L|L].
  - pose proof (firstn_skipn (length b) a) as Ea. set (p := firstn (length b) a) in *. set (q := skipn (length b) a) in *.
    assert (Lp : length p = length b) by (apply firstn_length_le; lia).
    assert (Lq : length q = length a - length b) by apply skipn_length.
    assert (Np : p <> []).
    { intros E. rewrite E in Lp. destruct b; [|discriminate]. destruct (Decimal_nonempty _ _ Db). reflexivity. }
    rewrite <- Ea in Da. destruct (decimal_split q p n Np Da) as (k & Dk & ->). rewrite <- Lq.
    assert (Nq : q <> []) by (intros E; rewrite E in Lq; cbn in Lq; lia).
    rewrite <- str_leb_text, <- Ea, (leb_shorter p b q Lp Nq).
    pose proof (decimal_text b p _ _ (eq_sym Lp) Db Dk) as H. rewrite <- str_leb_text in H.
    destruct (str_leb b p); cbn [negb]; split; try discriminate; try (intros; reflexivity).
    + intros X. assert (m <= n / 10 ^ Z.of_nat (length q))%Z by (apply H; reflexivity). lia.
    + intros _. destruct (Z.lt_ge_cases (n / 10 ^ Z.of_nat (length q)) m) as [Y|Y]; [exact Y|].
      exfalso. assert (false = true) by (apply H; lia). discriminate.
  - pose proof (firstn_skipn (length a) b) as Eb. set (p := firstn (length a) b) in *. set (q := skipn (length a) b) in *.
    assert (Lp : length p = length a) by (apply firstn_length_le; lia).
    assert (Lq : length q = length b - length a) by apply skipn_length.
    assert (Np : p <> []).
    { intros E. rewrite E in Lp. destruct a; [|discriminate]. destruct (Decimal_nonempty _ _ Da). reflexivity. }
    rewrite <- Eb in Db. destruct (decimal_split q p m Np Db) as (k & Dk & ->). rewrite <- Lq.
    rewrite <- str_leb_text, <- Eb, (leb_longer a p q (eq_sym Lp)), str_leb_text.
    apply (decimal_text a p _ _ (eq_sym Lp) Da Dk).
Qed.

Lemma reaches_dec l k j n : {reaches l k j n} + {~ reaches l k j n}.
Proof. unfold reaches. destruct (j <? l); [apply Z_lt_dec|apply Z_le_dec]. Qed.

Lemma client_fragment_fun T ua x s s' : client_fragment T ua x s -> client_fragment T ua x s' -> s = s'.
Proof.
  intros H H'. destruct H, H'; try congruence; try lia; try (eapply text_fun; eassumption);
    repeat match goal with
    | A : ?a = Some ?b, B : ?a = Some ?c |- _ => rewrite A in B; injection B as B; subst c
    end.
  - eapply captured_fun; eassumption.
  - exfalso. eapply captured_absent; eassumption.
  - exfalso. eapply captured_absent; eassumption.
Qed.

Lemma engine_source_fun T ua x s s' : engine_source T ua x s -> engine_source T ua x s' -> s = s'.
Proof.
  intros H H'. destruct H as [s A B C|s A B], H' as [s' A' B' C'|s' A' B'].
  - exact (text_fun _ _ _ _ C C').
  - destruct A'; [lia|congruence].
  - destruct A; [lia|congruence].
  - exact (client_fragment_fun _ _ _ _ _ B B').
Qed.

(** The engine reported for a browser whose function has one threshold. *)
Lemma one_threshold T mC mD h ua t x th k e d s m n w :
  client_sane T -> small ua -> client_is T mC ua t 1 x ->
  ct_engineFI x <> (-1)%Z -> nth_error (cr_ef T) (Z.to_nat (ct_engineFI x)) = Some ([(th, e)], d) ->
  e <> 0%N -> d <> 0%N -> Decimal th k ->
  engine_source T ua x s -> major_of s m -> Decimal m n ->
  alone T mC mD h ua GEngine = Ok (VB w) ->
  (reaches (length th) k (length m) n /\ text (cr_buf T) e w) \/
  (~ reaches (length th) k (length m) n /\ text (cr_buf T) d w).
Proof.
  intros Sa Sm Cl Fi Ef Ne Nd Dk Es Mj Dn G.
  destruct (proj1 (engine_full T mC mD h ua Sa Sm) w G) as [[Nb _]|(t' & x' & e' & Cl' & Ei & En)].
  { destruct (not_browser_unique _ _ _ _ _ Cl Nb). }
  destruct (client_is_unique _ _ _ _ _ _ _ _ _ Cl Cl') as (_ & _ & <-).
  assert (Own : forall v, own_engine T ua x v ->
     (reaches (length th) k (length m) n /\ v = e) \/ (~ reaches (length th) k (length m) n /\ v = d)).
  { intros v O. destruct O as [O|f s1 m1 v O1 O2 O3 O4 O5]; [congruence|].
    rewrite Ef in O2. injection O2 as <-. rewrite <- (engine_source_fun _ _ _ _ _ Es O3) in O4.
    rewrite <- (major_fun _ _ _ Mj O4) in O5.
    destruct O5 as [(t1 & l1 & l2 & E & H & _)|[H ->]]; cbn [fst snd] in *.
    - left. destruct l1 as [|? [|? ?]]; try discriminate. injection E as <- <- _. split; [|reflexivity].
      apply (decimal_order th m k n Dk Dn). exact H.
    - right. split; [|reflexivity]. intros R. apply (H (th, e)); [left; reflexivity|].
      apply (decimal_order th m k n Dk Dn). exact R. }
  assert (Z0 : ~ own_engine T ua x 0) by (intros O; destruct (Own _ O) as [[_ O']|[_ O']]; congruence).
  destruct Ei as [e' O N0|v O _|O _]; try contradiction.
  destruct En as [[_ En]|[[En _]|[En _]]]; try congruence.
  destruct (Own _ O) as [[R ->]|[R ->]]; auto.
Qed.

Lemma decimal_bound : forall s n, Decimal s n -> (n < 10 ^ Z.of_nat (length s))%Z.
Proof.
  induction 1 as [c k D|s n c k D IH Dg].
  - pose proof (digit_lt _ _ D). cbn [length]. change (10 ^ Z.of_nat 1)%Z with 10%Z. lia.
  - pose proof (digit_lt _ _ Dg). rewrite app_length. cbn [length].
    replace (Z.of_nat (length s + 1)) with (Z.of_nat (length s) + 1)%Z by lia. rewrite Z.pow_add_r, Z.pow_1_r by lia. lia.
Qed.

Lemma decimal_plain : forall s n, Decimal s n -> plain s -> (10 ^ (Z.of_nat (length s) - 1) <= n)%Z.
Proof.
  induction 1 as [c k D|s n c k D IH Dg]; intros (c0 & r & E & N0).
  - injection E as <- <-. cbn [length]. change (10 ^ (Z.of_nat 1 - 1))%Z with 1%Z.
    destruct k; [|lia]. unfold Digit in D. cbn in D. congruence.
  - destruct s as [|a s]; [destruct (Decimal_nonempty _ _ D); reflexivity|]. injection E as <- <-.
    assert (P : plain (a :: s)) by (exists a, s; auto). specialize (IH P).
    rewrite app_length. cbn [length] in *.
    replace (Z.of_nat (S (length s) + 1) - 1)%Z with (Z.of_nat (S (length s)) - 1 + 1)%Z by lia.
    rewrite Z.pow_add_r, Z.pow_1_r by lia. lia.
Qed.

(** Numbers below a thousand against a threshold of two digits. *)
Lemma reaches_two k m n : (10 <= k < 100)%Z -> Decimal m n -> plain m -> (n < 1000)%Z ->
  (reaches 2 k (length m) n <-> (k / 10 < n < 10 \/ k <= n < 100 \/ 10 * k <= n)%Z).
Proof.
  intros K D P L. pose proof (decimal_bound _ _ D) as B. pose proof (decimal_plain _ _ D P) as B'.
  assert (Lm : length m = 1 \/ length m = 2 \/ length m = 3).
  { destruct m as [|a [|b [|c [|d m]]]]; cbn [length]; auto; [destruct (Decimal_nonempty _ _ D); reflexivity|].
    exfalso. cbn [length] in B'.
    assert (10 ^ 3 <= 10 ^ (Z.of_nat (S (S (S (S (length m))))) - 1))%Z by (apply Z.pow_le_mono_r; lia).
    change (10 ^ 3)%Z with 1000%Z in *. lia. }
  unfold reaches. destruct Lm as [E|[E|E]]; rewrite E in *;
    [change (1 <? 2) with true|change (2 <? 2) with false|change (3 <? 2) with false]; cbv iota.
  - change (10 ^ Z.of_nat 1)%Z with 10%Z in *. change (10 ^ (Z.of_nat 1 - 1))%Z with 1%Z in *.
    change (10 ^ Z.of_nat (2 - 1))%Z with 10%Z. lia.
  - change (10 ^ Z.of_nat 2)%Z with 100%Z in *. change (10 ^ (Z.of_nat 2 - 1))%Z with 10%Z in *.
    change (10 ^ Z.of_nat (2 - 2))%Z with 1%Z. rewrite Z.div_1_r. lia.
  - change (10 ^ Z.of_nat 3)%Z with 1000%Z in *. change (10 ^ (Z.of_nat 3 - 1))%Z with 100%Z in *.
    change (10 ^ Z.of_nat (3 - 2))%Z with 10%Z.
    assert (k <= n / 10 <-> 10 * k <= n)%Z by (split; intros; [pose proof (Z.mul_div_le n 10); lia|apply Z.div_le_lower_bound; lia]).
    lia.
Qed.

Lemma two_digits T mC mD h ua t x th k e d s m n w :
  client_sane T -> small ua -> client_is T mC ua t 1 x ->
  ct_engineFI x <> (-1)%Z -> nth_error (cr_ef T) (Z.to_nat (ct_engineFI x)) = Some ([(th, e)], d) ->
  e <> 0%N -> d <> 0%N -> Decimal th k -> length th = 2 -> (10 <= k)%Z ->
  engine_source T ua x s -> major_of s m -> Decimal m n -> plain m -> (n < 1000)%Z ->
  alone T mC mD h ua GEngine = Ok (VB w) ->
  ((k / 10 < n < 10 \/ k <= n < 100 \/ 10 * k <= n)%Z -> text (cr_buf T) e w) /\
  (~ (k / 10 < n < 10 \/ k <= n < 100 \/ 10 * k <= n)%Z -> text (cr_buf T) d w).
Proof.
  intros Sa Sm Cl Fi Ef Ne Nd Dk L2 K Es Mj Dn P Ln G.
  pose proof (decimal_bound _ _ Dk) as B. rewrite L2 in B. change (10 ^ Z.of_nat 2)%Z with 100%Z in B.
  pose proof (reaches_two k m n (conj K B) Dn P Ln) as R.
  destruct (one_threshold T mC mD h ua t x th k e d s m n w Sa Sm Cl Fi Ef Ne Nd Dk Es Mj Dn G) as [[H1 H2]|[H1 H2]];
    rewrite L2, R in H1; split; intros; tauto.
Qed.

(** ** Functions with threshold 28 *)
Lemma decimal_28 : Decimal (bs "28") 28.
Proof. exact (Decimal_snoc [x32] 2 x38 8 (Decimal_one x32 2 eq_refl) eq_refl). Qed.

Lemma text_zero buf s : text buf 0 s -> s = [].
Proof.
  intros H. apply text_slice in H. unfold slice64, slice, e_decode in H. cbn in H.
  destruct buf; cbn in H; congruence.
Qed.

Lemma threshold_28 T mC mD h ua t x e d s m n w :
  client_sane T -> small ua -> client_is T mC ua t 1 x ->
  ct_engineFI x <> (-1)%Z -> nth_error (cr_ef T) (Z.to_nat (ct_engineFI x)) = Some ([(bs "28", e)], d) ->
  text (cr_buf T) e (bs "Blink") -> text (cr_buf T) d (bs "WebKit") ->
  engine_source T ua x s -> major_of s m -> Decimal m n -> plain m -> (n < 1000)%Z ->
  alone T mC mD h ua GEngine = Ok (VB w) ->
  (w = bs "Blink" /\ (2 < n < 10 \/ 28 <= n < 100 \/ 280 <= n)%Z) \/
  (w = bs "WebKit" /\ (n <= 2 \/ 10 <= n < 28 \/ 100 <= n < 280)%Z).
Proof.
  intros Sa Sm Cl Fi Ef Te Td Es Mj Dn P Ln G.
  assert (Ne : e <> 0%N) by (intros ->; apply text_zero in Te; discriminate).
  assert (Nd : d <> 0%N) by (intros ->; apply text_zero in Td; discriminate).
  destruct (two_digits T mC mD h ua t x (bs "28") 28 _ _ s m n w Sa Sm Cl Fi Ef Ne Nd
    decimal_28 eq_refl ltac:(lia) Es Mj Dn P Ln G) as [A B].
  change (28 / 10)%Z with 2%Z in *. change (10 * 28)%Z with 280%Z in *.
  assert (De : (2 < n < 10 \/ 28 <= n < 100 \/ 280 <= n)%Z \/ ~ (2 < n < 10 \/ 28 <= n < 100 \/ 280 <= n)%Z) by lia.
  destruct De as [H|H]; [left|right].
  - split; [exact (text_fun _ _ _ _ (A H) Te)|exact H].
  - split; [exact (text_fun _ _ _ _ (B H) Td)|lia].
Qed.

Lemma shipped_28 mC mD h ua t x e d s m n w :
  small ua -> client_is shipped mC ua t 1 x ->
  ct_engineFI x <> (-1)%Z -> nth_error (cr_ef shipped) (Z.to_nat (ct_engineFI x)) = Some ([(bs "28", e)], d) ->
  text (cr_buf shipped) e (bs "Blink") -> text (cr_buf shipped) d (bs "WebKit") ->
  engine_source shipped ua x s -> major_of s m -> Decimal m n -> plain m -> (n < 1000)%Z ->
  alone shipped mC mD h ua GEngine = Ok (VB w) ->
  (w = bs "Blink" /\ (2 < n < 10 \/ 28 <= n < 100 \/ 280 <= n)%Z) \/
  (w = bs "WebKit" /\ (n <= 2 \/ 10 <= n < 28 \/ 100 <= n < 280)%Z).
Proof. exact (threshold_28 shipped mC mD h ua t x e d s m n w shipped_client_sane). Qed.

(** How many browser entries have such a function. *)
Definition is28 (T : tables) (x : clientTuple) : bool :=
  negb (ct_engineFI x =? -1)%Z &&
  match nth_error (cr_ef T) (Z.to_nat (ct_engineFI x)) with
  | Some ([(th, e)], d) =>
      beqs th (bs "28") &&
      match slice64 (cr_buf T) e, slice64 (cr_buf T) d with
      | Ok a, Ok b => beqs a (bs "Blink") && beqs b (bs "WebKit")
      | _, _ => false
      end
  | _ => false
  end.
Definition count28 (T : tables) : nat := length (filter (is28 T) (nth 1 (cr_idx T) [])).
Lemma shipped_count28 : (N.of_nat (count28 shipped) =? 19)%N = true.
Proof. vm_cast_no_check (eq_refl true). Qed.

(** A user agent that meets the hypotheses. *)
Definition meets28 (T : tables) (ua s m : bytes) (n : Z) : bool :=
  match nth_error (cr_idx T) 1 with
  | Some ir =>
      match search (ctest T ua) ir with
      | Ok (Some x) =>
          is28 T x && (0 <=? ct_matchRI x)%Z && (ct_version64 x =? 0)%N && (0 <=? ct_browserVI x)%Z &&
          match nth_error (cr_re T) (Z.to_nat (ct_matchRI x)) with
          | Some r =>
              match re_find r ua with
              | Some g =>
                  match nth_error g (2 * Z.to_nat (ct_browserVI x)), nth_error g (2 * Z.to_nat (ct_browserVI x) + 1) with
                  | Some a, Some b =>
                      (0 <=? a)%Z && (a <=? b)%Z && (Z.to_nat b <=? length ua) &&
                      beqs s (firstn (Z.to_nat b - Z.to_nat a) (skipn (Z.to_nat a) ua)) &&
                      beqs (get_major s) m && negb (length m =? 0) &&
                      match digits_value 0 m with Some z => (z =? n)%Z | None => false end
                  | _, _ => false
                  end
              | None => false
              end
          | None => false
          end
      | _ => false
      end
  | None => false
  end.

Lemma meets_28 T ua s m n : meets28 T ua s m n = true ->
  exists x e d, client_is T 1 ua 1 1 x /\ ct_engineFI x <> (-1)%Z /\
    nth_error (cr_ef T) (Z.to_nat (ct_engineFI x)) = Some ([(bs "28", e)], d) /\
    text (cr_buf T) e (bs "Blink") /\ text (cr_buf T) d (bs "WebKit") /\
    engine_source T ua x s /\ major_of s m /\ Decimal m n.
Proof.
  unfold meets28. destruct (nth_error (cr_idx T) 1) as [ir|] eqn:I; [|discriminate].
  destruct (search (ctest T ua) ir) as [[x|]|] eqn:Se; try discriminate. intros H.
  apply andb_prop in H as [H R]. apply andb_prop in H as [H Vi]. apply andb_prop in H as [H V6]. apply andb_prop in H as [F Mi].
  unfold is28 in F. apply andb_prop in F as [Fi F].
  destruct (nth_error (cr_ef T) (Z.to_nat (ct_engineFI x))) as [[[|[th e] [|? ?]] d]|] eqn:Ef; try discriminate.
  apply andb_prop in F as [Th F]. apply beqs_eq in Th. subst th.
  destruct (slice64 (cr_buf T) e) as [a|] eqn:Ea; [|discriminate].
  destruct (slice64 (cr_buf T) d) as [b|] eqn:Eb; [|discriminate].
  apply andb_prop in F as [Ta Tb]. apply beqs_eq in Ta. apply beqs_eq in Tb. subst a b.
  destruct (nth_error (cr_re T) (Z.to_nat (ct_matchRI x))) as [r|] eqn:Er; [|discriminate].
  destruct (re_find r ua) as [g|] eqn:Eg; [|discriminate].
  destruct (nth_error g (2 * Z.to_nat (ct_browserVI x))) as [a|] eqn:Ga; [|discriminate].
  destruct (nth_error g (2 * Z.to_nat (ct_browserVI x) + 1)) as [b|] eqn:Gb; [|discriminate].
  apply andb_prop in R as [R Dg]. apply andb_prop in R as [R Nm]. apply andb_prop in R as [R Mj].
  apply andb_prop in R as [R Es]. apply andb_prop in R as [R Lb]. apply andb_prop in R as [A0 Ab].
  apply beqs_eq in Es. apply beqs_eq in Mj.
  exists x, e, d. split; [exact (browser_only T ua ir x I Se)|]. split; [lia|]. split; [exact Ef|].
  split; [apply text_slice; exact Ea|]. split; [apply text_slice; exact Eb|]. split; [|split].
  - apply ES_fragment; [right; lia|]. eapply CF_group; [lia|lia|lia|exact Er|exact Eg|].
    assert (L1 : length (firstn (Z.to_nat a) ua) = Z.to_nat a) by (apply firstn_length_le; lia).
    assert (L2 : length s = Z.to_nat b - Z.to_nat a).
    { rewrite Es. apply firstn_length_le. rewrite skipn_length. lia. }
    exists (firstn (Z.to_nat a) ua), (skipn (Z.to_nat b - Z.to_nat a) (skipn (Z.to_nat a) ua)).
    split; [rewrite Es, firstn_skipn; symmetry; apply firstn_skipn|]. split; [lia|].
    rewrite Ga, Gb, L1, L2. split; f_equal; lia.
  - rewrite <- Mj. apply major_spec.
  - destruct (digits_value 0 m) as [z|] eqn:Ez; [|discriminate]. apply digits_value_Decimal.
    + intros ->. discriminate.
    + rewrite Ez. f_equal. lia.
Qed.

(** Lemmas about Model_Base. *)
From Coq Require Export Lia ZifyBool ZifyNat ZifyN.
From Verif Require Export Model_Base.

Ltac Zify.zify_post_hook ::= Z.div_mod_to_equations.

Lemma bn_lt b : (bn b < 256)%N.
Proof. unfold bn. destruct b; vm_compute; reflexivity. Qed.

Lemma bn_inj a b : bn a = bn b -> a = b.
Proof.
  unfold bn. intros H.
  assert (E : Byte.of_N (Byte.to_N a) = Byte.of_N (Byte.to_N b)) by (rewrite H; reflexivity).
  rewrite !Byte.of_to_N in E. congruence.
Qed.

Lemma bn_nb n : bn (nb n) = (n mod 256)%N.
Proof.
  unfold nb, bn.
  assert (H : (n mod 256 < 256)%N) by lia.
  destruct (Byte.of_N (n mod 256)) eqn:E.
  - apply Byte.to_of_N in E. exact E.
  - apply Byte.of_N_None_iff in E. lia.
Qed.

Lemma nb_bn b : nb (bn b) = b.
Proof. apply bn_inj. rewrite bn_nb. pose proof (bn_lt b). lia. Qed.

Lemma beq_spec a b : reflect (a = b) (beq a b).
Proof.
  unfold beq. destruct (N.eqb_spec (bn a) (bn b)) as [E|E]; constructor.
  - apply bn_inj; exact E.
  - intros ->. apply E. reflexivity.
Qed.

Lemma beq_refl a : beq a a = true.
Proof. unfold beq. apply N.eqb_refl. Qed.

Lemma beq_eq a b : beq a b = true <-> a = b.
Proof. destruct (beq_spec a b); split; congruence. Qed.

Lemma beq_neq a b : beq a b = false <-> a <> b.
Proof. destruct (beq_spec a b); split; congruence. Qed.

Lemma beqs_eq a b : beqs a b = true <-> a = b.
Proof.
  revert b; induction a as [|x a IH]; intros [|y b]; cbn; split; intros H; try congruence.
  - apply andb_true_iff in H as [H1 H2]. apply beq_eq in H1. apply IH in H2. congruence.
  - injection H as -> ->. rewrite beq_refl. cbn. apply IH. reflexivity.
Qed.

Lemma beqs_refl a : beqs a a = true.
Proof. apply beqs_eq. reflexivity. Qed.

(** index_byte *)
Lemma index_byte_None s c : index_byte s c = None <-> ~ In c s.
Proof.
  induction s as [|x s IH]; cbn; [tauto|].
  destruct (beq_spec x c) as [->|Hn].
  - split; [congruence|]. intros H. exfalso. apply H. now left.
  - destruct (index_byte s c) eqn:E; split; try congruence.
    + intros H. exfalso. apply H. right.
      destruct (in_dec Byte.byte_eq_dec c s) as [Hi|Hni]; [exact Hi|].
      apply IH in Hni. congruence.
    + intros _ [H|H]; [congruence|]. apply IH in H; [exact H|reflexivity].
Qed.

Lemma index_byte_Some s c k :
  index_byte s c = Some k <-> (exists a b, s = a ++ c :: b /\ length a = k /\ ~ In c a).
Proof.
  revert k; induction s as [|x s IH]; intros k; cbn.
  - split; [congruence|]. intros ([|y0 l0] & b & E & _); discriminate.
  - destruct (beq_spec x c) as [->|Hn].
    + split.
      * intros [= <-]. exists [], s. cbn. tauto.
      * intros ([|y a] & b & E & Hl & Hni); cbn in *.
        -- subst k. reflexivity.
        -- injection E as -> ->. exfalso. apply Hni. now left.
    + destruct (index_byte s c) as [j|] eqn:E.
      * split.
        -- intros [= <-]. destruct (proj1 (IH j) eq_refl) as (a & b & -> & Hl & Hni).
           exists (x :: a), b. cbn. split; [reflexivity|]. split; [lia|].
           intros [H|H]; [congruence|tauto].
        -- intros ([|y a] & b & E' & Hl & Hni); cbn in *.
           ++ injection E' as -> ->. congruence.
           ++ injection E' as -> ->. subst k. f_equal. f_equal.
              assert (Hj : Some j = Some (length a)).
              { apply IH. exists a, b. split; [reflexivity|]. split; [reflexivity|]. tauto. }
              congruence.
      * split; [congruence|].
        intros ([|y a] & b & E' & Hl & Hni); cbn in *.
        -- injection E' as -> ->. congruence.
        -- injection E' as -> ->. exfalso. apply index_byte_None in E. apply E.
           apply in_or_app. right. now left.
Qed.

Lemma index_byte_lt s c k : index_byte s c = Some k -> k < length s.
Proof.
  intros H. apply index_byte_Some in H as (a & b & -> & <- & _).
  rewrite app_length. cbn. lia.
Qed.

Lemma index_byte_app s c t : ~ In c s -> index_byte (s ++ c :: t) c = Some (length s).
Proof. intros H. apply index_byte_Some. exists s, t. tauto. Qed.

(** has_prefix / bytes_index *)
Lemma has_prefix_iff s pre : has_prefix s pre = true <-> exists t, s = pre ++ t.
Proof.
  revert s; induction pre as [|p pre IH]; intros s.
  - destruct s; (split; [intros _; eexists; reflexivity|reflexivity]).
  - destruct s as [|x s]; cbn.
    + split; [congruence|]. intros (t & E). discriminate.
    + rewrite andb_true_iff, beq_eq, IH. split.
      * intros [-> (t & ->)]. exists t. reflexivity.
      * intros (t & [= -> ->]). split; [reflexivity|]. exists t. reflexivity.
Qed.

Lemma bytes_index_Some s sub k :
  bytes_index s sub = Some k ->
  exists a b, s = a ++ sub ++ b /\ length a = k.
Proof.
  revert k; induction s as [|x s IH]; intros k; cbn [bytes_index].
  - destruct (has_prefix [] sub) eqn:E; [|congruence].
    intros [= <-]. apply has_prefix_iff in E as (t & E). exists [], t. cbn. tauto.
  - destruct (has_prefix (x :: s) sub) eqn:E.
    + intros [= <-]. apply has_prefix_iff in E as (t & E). exists [], t. cbn. tauto.
    + destruct (bytes_index s sub) as [j|] eqn:E'; [|congruence].
      intros [= <-]. destruct (IH j eq_refl) as (a & b & -> & <-).
      exists (x :: a), b. cbn. tauto.
Qed.

Lemma bytes_index_complete a sub b : bytes_index (a ++ sub ++ b) sub <> None.
Proof.
  induction a as [|x a IH]; cbn [app].
  - assert (H : has_prefix (sub ++ b) sub = true) by (apply has_prefix_iff; exists b; reflexivity).
    destruct (sub ++ b); cbn [bytes_index]; rewrite H; congruence.
  - cbn [bytes_index].
    destruct (has_prefix (x :: a ++ sub ++ b) sub); [congruence|].
    destruct (bytes_index (a ++ sub ++ b) sub); congruence.
Qed.

Lemma contains_b_iff s sub : contains_b s sub = true <-> exists a b, s = a ++ sub ++ b.
Proof.
  unfold contains_b. split.
  - destruct (bytes_index s sub) as [k|] eqn:E; [|congruence].
    intros _. destruct (bytes_index_Some s sub k E) as (a & b & H & _). exists a, b. exact H.
  - intros (a & b & ->). pose proof (bytes_index_complete a sub b).
    destruct (bytes_index (a ++ sub ++ b) sub); congruence.
Qed.

(** slice *)
Lemma slice_ok {A} (l : list A) lo hi :
  (lo <= hi)%N -> (hi <= N.of_nat (length l))%N ->
  slice l lo hi = Ok (firstn (N.to_nat (hi - lo)) (skipn (N.to_nat lo) l)).
Proof.
  intros H1 H2. unfold slice.
  apply N.leb_le in H1, H2. rewrite H1, H2. reflexivity.
Qed.

Lemma slice_Ok_inv {A} (l : list A) lo hi x :
  slice l lo hi = Ok x ->
  (lo <= hi)%N /\ (hi <= N.of_nat (length l))%N /\
  exists a b, l = a ++ x ++ b /\ N.of_nat (length a) = lo /\ N.of_nat (length x) = (hi - lo)%N.
Proof.
  unfold slice.
  destruct ((lo <=? hi)%N && (hi <=? N.of_nat (length l))%N) eqn:E; [|congruence].
  apply andb_true_iff in E as [E1 E2]. apply N.leb_le in E1, E2.
  intros [= <-]. split; [exact E1|]. split; [exact E2|].
  exists (firstn (N.to_nat lo) l), (skipn (N.to_nat (hi - lo)) (skipn (N.to_nat lo) l)).
  rewrite firstn_skipn, firstn_skipn. split; [reflexivity|].
  rewrite !firstn_length, skipn_length. lia.
Qed.

Lemma slice_app {A} (a x b : list A) :
  slice (a ++ x ++ b) (N.of_nat (length a)) (N.of_nat (length a + length x)) = Ok x.
Proof.
  rewrite slice_ok.
  - f_equal. replace (N.to_nat (N.of_nat (length a))) with (length a) by lia.
    rewrite skipn_app, skipn_all, Nat.sub_diag. cbn [app skipn].
    replace (N.to_nat (N.of_nat (length a + length x) - N.of_nat (length a))) with (length x) by lia.
    rewrite firstn_app, firstn_all, Nat.sub_diag. cbn. apply app_nil_r.
  - lia.
  - rewrite !app_length. lia.
Qed.

Lemma index_Ok_inv {A} (l : list A) i x : index l i = Ok x -> (i < N.of_nat (length l))%N /\ nth_error l (N.to_nat i) = Some x.
Proof.
  unfold index. destruct (nth_error l (N.to_nat i)) eqn:E; [|congruence].
  intros [= <-]. split; [|reflexivity].
  assert (N.to_nat i < length l) by (apply nth_error_Some; congruence). lia.
Qed.

Lemma index_ok {A} (l : list A) i : (i < N.of_nat (length l))%N -> exists x, index l i = Ok x.
Proof.
  intros H. unfold index. destruct (nth_error l (N.to_nat i)) eqn:E; [eauto|].
  apply nth_error_None in E. lia.
Qed.

(** Entry64 *)
Lemma e_decode_encode lo hi :
  (lo < two32)%N -> (hi < two32)%N -> e_decode (e_encode lo hi) = (lo, hi).
Proof. unfold e_decode, e_encode, two32. intros. f_equal; lia. Qed.

Lemma e_encode_zero lo hi :
  (lo <= hi)%N -> (hi < two32)%N -> e_encode lo hi = 0%N -> hi = 0%N.
Proof. unfold e_encode, two32. intros. lia. Qed.

Lemma e_encode_pos lo hi :
  (hi < two32)%N -> (0 < hi)%N -> (0 < e_encode lo hi)%N.
Proof. unfold e_encode, two32. intros. lia. Qed.

(** bits *)
Lemma check_set_same b i : check_bit (set_bit b i) i = true.
Proof. unfold check_bit, set_bit. apply N.setbit_eq. Qed.
Lemma check_set_other b i j : i <> j -> check_bit (set_bit b i) j = check_bit b j.
Proof. unfold check_bit, set_bit. intros. apply N.setbit_neq. exact H. Qed.

(** trim *)
Lemma trim_left_spec s c :
  exists n, s = repeat c n ++ trim_left s c /\ (forall x t, trim_left s c = x :: t -> x <> c).
Proof.
  induction s as [|x s (n & E & H)]; cbn [trim_left].
  - exists 0. cbn. split; [reflexivity|congruence].
  - destruct (beq_spec x c) as [->|Hn].
    + exists (S n). cbn. split; [congruence|exact H].
    + exists 0. cbn. split; [reflexivity|]. intros y t [= -> ->]. exact Hn.
Qed.

Lemma trim_right_spec s c :
  exists n, s = trim_right s c ++ repeat c n /\ (forall x t, trim_right s c = t ++ [x] -> x <> c).
Proof.
  induction s as [|x s (n & E & H)]; cbn [trim_right].
  - exists 0. cbn. split; [reflexivity|]. intros y [|? ?] E'; discriminate.
  - destruct (trim_right s c) as [|y t] eqn:Et.
    + destruct (beq_spec x c) as [->|Hn].
      * exists (S n). cbn in *. split; [congruence|]. intros z [|? ?] E'; discriminate.
      * exists n. cbn in *. split; [congruence|].
        intros z [|w u] E'; cbn in E'; [congruence|]. destruct u; discriminate.
    + exists n. cbn in *. split; [congruence|].
      intros z [|w u] E'; cbn in E'; [discriminate|].
      injection E' as -> E'. apply (H z u). congruence.
Qed.

(** wrap-around *)
Lemma wrap32_id z : (-2147483648 <= z < 2147483648)%Z -> wrap32 z = z.
Proof. unfold wrap32. lia. Qed.
Lemma wrap32_range z : (-2147483648 <= wrap32 z < 2147483648)%Z.
Proof. unfold wrap32. lia. Qed.
Lemma wrap64_id z : (-9223372036854775808 <= z < 9223372036854775808)%Z -> wrap64 z = z.
Proof. unfold wrap64. lia. Qed.

Lemma u32_id z : (0 <= z < 4294967296)%Z -> u32 z = Z.to_N z.
Proof. unfold u32. intros. f_equal. lia. Qed.

Lemma skipn_skipn {A} (l : list A) n m : skipn m (skipn n l) = skipn (n + m) l.
Proof.
  revert l; induction n as [|n IH]; intros l; cbn; [reflexivity|].
  destruct l; [now rewrite skipn_nil|]. apply IH.
Qed.

Lemma exists_ok {A} (r : res A) (P : A -> Prop) :
  match r with Ok a => P a | Panic => False end -> exists a, r = Ok a /\ P a.
Proof. destruct r as [a|]; [|tauto]. intros H. exists a. split; [reflexivity|exact H]. Qed.

(** A group that lies on every path through a pattern takes part in every match. *)
From Verif Require Import Model_Base Model_Ctx Model_Regex Proof_Base Proof_Regex.

Fixpoint always_sets (n : nat) (r : re) : bool :=
  match r with
  | Cat a b => always_sets n a || always_sets n b
  | Alt a b => always_sets n a && always_sets n b
  | Grp m a => (m =? n) || always_sets n a
  | _ => false
  end.

Lemma mt_sets n : forall r s p c k res, mt r s p c k = Some res ->
  exists s' p' c', k s' p' c' = Some res /\ (In n (map fst c) \/ always_sets n r = true -> In n (map fst c')).
Proof.
  induction r as [|neg rs| | |a IHa b IHb|a IHa b IHb|g a IHa|m a IHa]; intros s p c k res E; cbn [mt always_sets] in E |- *.
  - exists s, p, c. split; [exact E|]. intros [H|H]; [exact H|discriminate].
  - destruct s as [|[x w] s']; [discriminate|]. destruct (cls_mem neg rs x); [|discriminate].
    eexists. eexists. exists c. split; [exact E|]. intros [H|H]; [exact H|discriminate].
  - destruct (p =? 0)%Z; [|discriminate]. exists s, p, c. split; [exact E|]. intros [H|H]; [exact H|discriminate].
  - destruct s; [|discriminate]. exists [], p, c. split; [exact E|]. intros [H|H]; [exact H|discriminate].
  - apply IHa in E as (s1 & p1 & c1 & E & K1). apply IHb in E as (s2 & p2 & c2 & E & K2). exists s2, p2, c2. split; [exact E|].
    intros [H|H]; [auto|]. apply orb_prop in H as [H|H]; auto.
  - unfold orelse in E. destruct (mt a s p c k) eqn:Ea.
    + injection E as <-. apply IHa in Ea as (s1 & p1 & c1 & Ea & K1). exists s1, p1, c1. split; [exact Ea|].
      intros [H|H]; [auto|]. apply andb_prop in H as [H _]. auto.
    + apply IHb in E as (s1 & p1 & c1 & E & K1). exists s1, p1, c1. split; [exact E|].
      intros [H|H]; [auto|]. apply andb_prop in H as [_ H]. auto.
  - cut (exists s' p' c', k s' p' c' = Some res /\ (In n (map fst c) -> In n (map fst c'))).
    { intros (s' & p' & c' & K & H). exists s', p', c'. split; [exact K|]. intros [Q|Q]; [auto|discriminate]. }
    assert (G : forall f s p c res, star_loop (mt a) g k f s p c = Some res ->
                exists s' p' c', k s' p' c' = Some res /\ (In n (map fst c) -> In n (map fst c'))).
    { clear s p c res E. induction f as [|f IHf]; intros s p c res E; cbn [star_loop] in E; [exists s, p, c; auto|].
      set (kk := fun s' p' c' => if length s' <? length s then star_loop (mt a) g k f s' p' c' else None) in E.
      assert (KK : mt a s p c kk = Some res -> exists s' p' c', k s' p' c' = Some res /\ (In n (map fst c) -> In n (map fst c'))).
      { intros Ea. apply IHa in Ea as (s1 & p1 & c1 & Ea & K1). unfold kk in Ea. destruct (length s1 <? length s); [|discriminate].
        apply IHf in Ea as (s2 & p2 & c2 & Ea & K2). exists s2, p2, c2. auto. }
      unfold orelse in E. destruct g.
      - destruct (mt a s p c kk) eqn:Ea; [apply KK; congruence|exists s, p, c; auto].
      - destruct (k s p c) eqn:Ek; [exists s, p, c; split; [congruence|auto]|apply KK; exact E]. }
    exact (G _ _ _ _ _ E).
  - apply IHa in E as (s1 & p1 & c1 & E & K1). exists s1, p1, ((m, (p, p1)) :: c1). split; [exact E|]. cbn [map fst In].
    intros [H|H]; [auto|]. apply orb_prop in H as [H|H]; [left; apply Nat.eqb_eq; exact H|auto].
Qed.

Lemma find_sets n r : always_sets n r = true -> forall s p c, find_from r s p = Some c -> In n (map fst c).
Proof.
  intros A s. induction s as [|[x w] s IH]; intros p c E; cbn [find_from] in E; unfold orelse in E.
  - destruct (mt r [] p [] _) eqn:M; [|discriminate]. injection E as ->.
    apply (mt_sets n) in M as (s1 & p1 & c1 & [= <-] & K). right. auto.
  - destruct (mt r ((x, w) :: s) p [] _) eqn:M; [|exact (IH _ _ E)]. injection E as ->.
    apply (mt_sets n) in M as (s1 & p1 & c1 & [= <-] & K). right. auto.
Qed.

(** Group [n] of a compiled pattern takes part in every match. *)
Definition always_group (n : nat) (r : regex) : Prop :=
  forall s m, re_find r s = Some m -> exists lo hi, nth_error m (2 * n) = Some lo /\ nth_error m (2 * n + 1) = Some hi /\
    (0 <= lo <= hi)%Z /\ (hi <= Z.of_nat (length s))%Z.

Lemma cap_get_in L c n : caps_ok L c -> In n (map fst c) -> sub_ok L (cap_get c n).
Proof.
  intros H. induction H as [|[m x] c Hx H IH]; cbn [map fst In cap_get]; [intros []|].
  intros I. destruct (Nat.eqb_spec m n) as [_|N]; [exact Hx|]. destruct I as [I|I]; [contradiction|auto].
Qed.
Lemma flat_nth c : forall k i n, n < k ->
  nth_error (flat_map (fun n => [fst (cap_get c n); snd (cap_get c n)]) (seq i k)) (2 * n) = Some (fst (cap_get c (i + n))) /\
  nth_error (flat_map (fun n => [fst (cap_get c n); snd (cap_get c n)]) (seq i k)) (2 * n + 1) = Some (snd (cap_get c (i + n))).
Proof.
  induction k as [|k IH]; intros i n L; [lia|]. cbn [seq flat_map app]. destruct n as [|n].
  - rewrite Nat.add_0_r. split; reflexivity.
  - replace (2 * S n) with (S (S (2 * n))) by lia. replace (S (S (2 * n)) + 1) with (S (S (2 * n + 1))) by lia. cbn [nth_error].
    destruct (IH (S i) n) as [A B]; [lia|]. replace (i + S n) with (S i + n) by lia. auto.
Qed.
Lemma always_compiled n src a ng : parse_re src = Some (a, ng) -> n <= ng -> always_sets n a = true -> always_group n (compile src).
Proof.
  intros P L A s m F. cbn [compile re_find] in F. rewrite P in F. unfold find_re in F.
  destruct (find_from a (runes s) 0) as [c|] eqn:E; [|discriminate]. injection F as <-.
  pose proof (find_sets n a A _ _ _ E) as I. apply (find_from_inv (Z.of_nat (length s))) in E as [C _]; [|lia|rewrite runes_width; lia].
  pose proof (cap_get_in _ _ _ C I) as [S1 S2]. destruct (flat_nth c (S ng) 0 n ltac:(lia)) as [N1 N2]. unfold flat_caps. cbn [Nat.add] in N1, N2.
  exists (fst (cap_get c n)), (snd (cap_get c n)). auto.
Qed.

(** Proofs for C02_layout and the number of tokens (C12). *)
From Coq Require Import ZifyN ZifyNat ZifyBool.
From Verif Require Import Model_Base Model_CacheEntry Model_Tokenizer Spec_Layout Spec_Tokenizer Proof_Base Proof_CacheEntry Proof_Tokenizer.
Open Scope nat_scope.

Lemma le_nth k : forall n i, i < k -> bn (nth i (le_bytes k n) x00) = ((n / 256 ^ N.of_nat i) mod 256)%N.
Proof.
  induction k as [|k IH]; intros n i H; [lia|]. cbn [le_bytes]. destruct i as [|i]; cbn [nth].
  - rewrite bn_nb. change (256 ^ N.of_nat 0)%N with 1%N. rewrite N.div_1_r. reflexivity.
  - rewrite IH by lia. rewrite Nat2N.inj_succ, N.pow_succ_r', N.div_div by lia. reflexivity.
Qed.

Fixpoint offs (o : nat) (l : list (nat * N)) : list (nat * nat * N) :=
  match l with [] => [] | (k, n) :: t => (o, k, n) :: offs (o + k) t end.
Definition le_all (l : list (nat * N)) : bytes := concat (map (fun x => le_bytes (fst x) (snd x)) l).
Lemma stores_concat l : forall pre post, Forall (stores (pre ++ le_all l ++ post)) (offs (length pre) l).
Proof.
  induction l as [|[k n] t IH]; intros pre post; cbn [offs]; constructor.
  - intros i H. unfold le_all. cbn [map concat fst snd].
    rewrite app_nth2_plus, <- app_assoc, app_nth1 by (rewrite le_bytes_length; exact H). apply le_nth. exact H.
  - specialize (IH (pre ++ le_bytes k n) post). rewrite app_length, le_bytes_length in IH.
    unfold le_all in *. cbn [map concat fst snd]. rewrite <- !app_assoc in *. exact IH.
Qed.

Lemma layout_ok r buf b n : marshal_to r buf = (b, n, MNil) ->
  Forall (stores b) (layout r) /\ firstn (length (e_data r)) (skipn 95 b) = e_data r.
Proof.
  intros H. destruct (Nat.leb_spec (size r) (length buf)) as [L|L].
  - rewrite marshal_to_spec in H by exact L. pose proof (f_equal (fun x => fst (fst x)) H) as B. cbn [fst] in B. rewrite <- B. clear H B. unfold wire. split.
    + set (l := [(8, e_bits r); (1, e_clientType r); (8, e_clientName r); (8, e_clientVersion r); (8, e_engineName r);
        (8, e_engineVersion r); (2, e_deviceType r); (8, e_brandName r); (8, e_modelName r); (8, e_osName r);
        (8, e_osVersion r); (8, e_hkey r); (8, u64_of_i64 (e_timestamp r)); (4, N.of_nat (length (e_data r)))]).
      assert (E : header r = le_all l). { unfold le_all, l, header. cbn [map concat fst snd]. rewrite app_nil_r. reflexivity. }
      rewrite E, <- app_assoc. exact (stores_concat l [] (e_data r ++ skipn (size r) buf)).
    + rewrite <- app_assoc, skipn_app, skipn_all2 by (rewrite header_length; lia). rewrite header_length. cbn [app Nat.sub skipn].
      rewrite firstn_app, Nat.sub_diag, firstn_all. cbn [firstn]. apply app_nil_r.
  - exfalso. rewrite marshal_short in H by exact L. discriminate.
Qed.

(** ** Tokens *)
Definition is_tok (r : res token) : bool := match r with Ok (Tok _) => true | _ => false end.
Lemma scan_bound want : forall rest pos p x, scan want pos rest = (p, x) -> pos <= p <= pos + length rest.
Proof.
  induction rest as [|c rest IH]; intros pos p x H; cbn [scan] in H.
  - injection H as <- _. cbn. lia.
  - destruct (isDelimiter c) as [d|].
    + destruct (Bool.eqb d want).
      * apply IH in H. cbn [length]. lia.
      * injection H as <- _. cbn. lia.
    + injection H as <- _. cbn. lia.
Qed.
Lemma scan_stop want : forall rest pos p x c t, scan want pos rest = (p, Ok x) -> skipn (p - pos) rest = c :: t -> isDelimiter c = Ok (negb want).
Proof.
  induction rest as [|b rest IH]; intros pos p x c t H E; cbn [scan] in H.
  - rewrite skipn_nil in E. discriminate.
  - destruct (isDelimiter b) as [d|] eqn:D; [|discriminate]. destruct (Bool.eqb d want) eqn:Q.
    + pose proof (scan_bound _ _ _ _ _ H). apply (IH (S pos) p x c t H).
      replace (p - pos) with (S (p - S pos)) in E by lia. exact E.
    + injection H as <- _. rewrite Nat.sub_diag in E. cbn in E. injection E as -> ->. rewrite D. destruct d, want; try discriminate; reflexivity.
Qed.
Lemma next_moves pos ua p t : next pos ua = (p, Ok (Tok t)) -> pos < p <= length ua /\ t <> [].
Proof.
  unfold next. destruct (length ua <=? pos) eqn:L; [discriminate|].
  destruct (scan true pos (skipn pos ua)) as [p1 [[]|]] eqn:S1; [|discriminate].
  destruct (length ua <=? p1) eqn:L1; [discriminate|].
  destruct (scan false p1 (skipn p1 ua)) as [q [[]|]] eqn:S2; [|discriminate].
  intros H. injection H as <- <-. pose proof (scan_bound _ _ _ _ _ S1) as B1. pose proof (scan_bound _ _ _ _ _ S2) as B2.
  rewrite skipn_length in B1, B2.
  destruct (skipn p1 ua) as [|c rest] eqn:E; [pose proof (skipn_length p1 ua) as X; rewrite E in X; cbn in X; lia|].
  assert (D : isDelimiter c = Ok false).
  { apply (scan_stop true (skipn pos ua) pos p1 tt c rest S1). rewrite skipn_skipn. replace (pos + (p1 - pos)) with p1 by lia. exact E. }
  cbn [scan] in S2. rewrite D in S2. cbn [Bool.eqb] in S2. pose proof (scan_bound _ _ _ _ _ S2) as B3.
  split; [lia|]. replace (q - p1) with (S (q - S p1)) by lia. discriminate.
Qed.
Lemma next_position pos ua : pos <= fst (next pos ua).
Proof.
  unfold next. destruct (length ua <=? pos); [cbn; lia|].
  destruct (scan true pos (skipn pos ua)) as [p1 [[]|]] eqn:S1; pose proof (scan_bound _ _ _ _ _ S1); [|cbn; lia].
  destruct (length ua <=? p1); [cbn; lia|].
  destruct (scan false p1 (skipn p1 ua)) as [q [[]|]] eqn:S2; pose proof (scan_bound _ _ _ _ _ S2); cbn; lia.
Qed.
Lemma tokens_bound n : forall pos ua,
  length (filter is_tok (calls n pos ua)) <= length ua - pos /\ (forall t, In (Ok (Tok t)) (calls n pos ua) -> t <> []).
Proof.
  induction n as [|n IH]; intros pos ua; cbn [calls]; [cbn; split; [lia|tauto]|].
  pose proof (next_position pos ua) as NP.
  destruct (next pos ua) as [p r] eqn:E. cbn [fst] in NP. destruct (IH p ua) as [A B]. cbn [filter].
  destruct r as [[t|]|]; cbn [is_tok length].
  - destruct (next_moves _ _ _ _ E) as [M N]. split; [lia|]. intros t' [H|H]; [injection H as <-; exact N|apply B; exact H].
  - split; [lia|]. intros t' [H|H]; [discriminate|apply B; exact H].
  - split; [lia|]. intros t' [H|H]; [discriminate|apply B; exact H].
Qed.
Lemma tokens_few n ua :
  length (filter (fun r => match r with Ok (Tok _) => true | _ => false end) (calls n 0 ua)) <= length ua /\
  (forall t, In (Ok (Tok t)) (calls n 0 ua) -> t <> []).
Proof. destruct (tokens_bound n 0 ua) as [A B]. rewrite Nat.sub_0_r in A. exact (conj A B). Qed.

(** Proofs about the table compiler: buffer, patterns, literals, engine functions. *)
From Verif Require Import Model_Base Model_Ctx Model_Parse Model_Compiler Spec_Select Spec_Compiler Proof_Base Proof_Client.
From Coq Require Import Lia ZifyBool ZifyNat ZifyN Permutation.

(** ** buf.add *)
Lemma slice64_grows buf t e s : slice64 buf e = Ok s -> slice64 (buf ++ t) e = Ok s.
Proof.
  unfold slice64. destruct (e_decode e) as [lo hi]. cbn [fst snd]. intros H. pose proof (slice_Ok_inv _ _ _ _ H) as (L1 & L2 & _).
  rewrite slice_ok in H by assumption. rewrite slice_ok; [|exact L1|rewrite app_length; lia].
  rewrite skipn_app, firstn_app, <- H. f_equal. rewrite skipn_length.
  replace (N.to_nat (hi - lo) - (length buf - N.to_nat lo)) with 0 by lia. cbn [firstn]. apply app_nil_r.
Qed.
Lemma slice64_end buf s : (N.of_nat (length (buf ++ s)) < two32)%N ->
  slice64 (buf ++ s) (e_encode (N.of_nat (length buf)) (N.of_nat (length buf + length s))) = Ok s.
Proof.
  rewrite app_length. intros L. unfold slice64. rewrite e_decode_encode by lia. cbn [fst snd].
  rewrite slice_ok by (rewrite ?app_length; lia). f_equal. rewrite Nat2N.id, skipn_app, skipn_all, Nat.sub_diag. cbn [skipn app].
  replace (N.to_nat (N.of_nat (length buf + length s) - N.of_nat (length buf))) with (length s) by lia. apply firstn_all.
Qed.
Lemma smap_get_In {A} (m : list (bytes * A)) k v : smap_get m k = Some v -> In (k, v) m.
Proof.
  induction m as [|[k' v'] m IH]; cbn [smap_get]; [discriminate|]. destruct (beqs k' k) eqn:E; [|right; auto].
  apply beqs_eq in E. intros [= ->]. subst. left. reflexivity.
Qed.

(** The index of the buffer: every entry denotes its string. *)
Definition buf_ok (b : cbuf) : Prop := forall s e, smap_get (b_idx b) s = Some e -> slice64 (b_buf b) e = Ok s.
Lemma buf_empty_ok : buf_ok buf_empty.
Proof. intros s e. discriminate. Qed.
(** [b'] is a later state of the buffer [b]. *)
Definition later (b b' : cbuf) : Prop :=
  (exists t, b_buf b' = b_buf b ++ t) /\ forall s e, smap_get (b_idx b) s = Some e -> smap_get (b_idx b') s = Some e.
Lemma later_refl b : later b b.
Proof. split; [exists []; symmetry; apply app_nil_r|auto]. Qed.
Lemma later_trans b1 b2 b3 : later b1 b2 -> later b2 b3 -> later b1 b3.
Proof.
  intros [(t & E) H] [(t' & E') H']. split; [|auto]. exists (t ++ t'). rewrite E', E, app_assoc. reflexivity.
Qed.
Lemma later_slice b b' e s : later b b' -> slice64 (b_buf b) e = Ok s -> slice64 (b_buf b') e = Ok s.
Proof. intros [(t & ->) _]. apply slice64_grows. Qed.
Lemma later_length b b' : later b b' -> (length (b_buf b) <= length (b_buf b'))%nat.
Proof. intros [(t & ->) _]. rewrite app_length. lia. Qed.

Lemma buf_add_later s b : later b (snd (buf_add s b)).
Proof.
  unfold buf_add. destruct (smap_get (b_idx b) s) eqn:E; [apply later_refl|]. cbn [snd]. split; [exists s; reflexivity|].
  intros s' e H. cbn [b_idx smap_get]. destruct (beqs s s') eqn:Q; [|exact H]. apply beqs_eq in Q. congruence.
Qed.
Lemma buf_add_found s b : smap_get (b_idx (snd (buf_add s b))) s = Some (fst (buf_add s b)).
Proof.
  unfold buf_add. destruct (smap_get (b_idx b) s) eqn:E; [exact E|]. cbn [snd fst b_idx smap_get]. rewrite beqs_refl. reflexivity.
Qed.
Lemma buf_add_ok s b : buf_ok b -> (N.of_nat (length (b_buf (snd (buf_add s b)))) < two32)%N -> buf_ok (snd (buf_add s b)).
Proof.
  intros K L. unfold buf_add in *. destruct (smap_get (b_idx b) s) eqn:E; [exact K|]. cbn [snd b_buf] in *.
  intros s' e. cbn [b_idx b_buf smap_get]. destruct (beqs s s') eqn:Q.
  - apply beqs_eq in Q as <-. intros [= <-]. apply slice64_end. exact L.
  - intros H. apply slice64_grows. exact (K _ _ H).
Qed.
Lemma buf_add_denotes s b : buf_ok b -> (N.of_nat (length (b_buf (snd (buf_add s b)))) < two32)%N ->
  slice64 (b_buf (snd (buf_add s b))) (fst (buf_add s b)) = Ok s.
Proof. intros K L. apply (buf_add_ok s b K L). apply buf_add_found. Qed.

(** Any run of [add]s. *)
Lemma adds_later ss : forall b es b', compile_entries buf_add ss b = (es, b') -> later b b' /\ length es = length ss.
Proof.
  induction ss as [|s ss IH]; intros b es b' H; cbn [compile_entries] in H.
  - injection H as <- <-. split; [apply later_refl|reflexivity].
  - pose proof (buf_add_later s b) as L1. destruct (buf_add s b) as [e b1] eqn:E. cbn [snd] in L1.
    destruct (compile_entries buf_add ss b1) as [r b2] eqn:E2. injection H as <- <-. destruct (IH _ _ _ E2) as [L2 Len].
    split; [exact (later_trans _ _ _ L1 L2)|cbn [length]; congruence].
Qed.
Lemma adds_spec ss : forall b es b', compile_entries buf_add ss b = (es, b') -> buf_ok b ->
  (N.of_nat (length (b_buf b')) < two32)%N ->
  buf_ok b' /\ Forall2 (fun s e => smap_get (b_idx b') s = Some e) ss es.
Proof.
  induction ss as [|s ss IH]; intros b es b' H K L; cbn [compile_entries] in H.
  - injection H as <- <-. auto.
  - pose proof (buf_add_found s b) as F1. pose proof (buf_add_ok s b K) as K1.
    destruct (buf_add s b) as [e b1] eqn:E. cbn [snd fst] in *.
    destruct (compile_entries buf_add ss b1) as [r b2] eqn:E2. injection H as <- <-.
    destruct (adds_later _ _ _ _ E2) as [L2 _]. pose proof (later_length _ _ L2).
    destruct (IH _ _ _ E2 (K1 ltac:(lia)) L) as [K2 F2]. split; [exact K2|]. constructor; [|exact F2].
    destruct L2 as [_ L2]. exact (L2 _ _ F1).
Qed.
(** What is stored: each string once. *)
Lemma adds_buffer ss : forall b es b' seen, compile_entries buf_add ss b = (es, b') ->
  (forall s, existsb (beqs s) seen = true <-> smap_get (b_idx b) s <> None) ->
  b_buf b' = b_buf b ++ concat (firsts seen ss).
Proof.
  induction ss as [|s ss IH]; intros b es b' seen H S; cbn [compile_entries] in H; cbn [firsts].
  - injection H as <- <-. cbn [concat]. symmetry. apply app_nil_r.
  - destruct (buf_add s b) as [e b1] eqn:E. destruct (compile_entries buf_add ss b1) as [r b2] eqn:E2. injection H as <- <-.
    unfold buf_add in E. pose proof (S s) as Ss. destruct (smap_get (b_idx b) s) eqn:G.
    + injection E as <- <-. rewrite (proj2 Ss ltac:(discriminate)). exact (IH _ _ _ _ E2 S).
    + injection E as <- <-. destruct (existsb (beqs s) seen) eqn:X; [exfalso; apply (proj1 Ss eq_refl); reflexivity|].
      cbn [concat]. rewrite (IH _ _ _ (s :: seen) E2).
      * cbn [b_buf]. rewrite <- app_assoc. reflexivity.
      * intros s'. cbn [existsb b_idx smap_get]. destruct (beqs s' s) eqn:Q.
        -- apply beqs_eq in Q as ->. rewrite beqs_refl. cbn. split; [discriminate|reflexivity].
        -- assert (Q' : beqs s s' = false). { destruct (beqs s s') eqn:Q2; [|reflexivity]. apply beqs_eq in Q2 as ->. rewrite beqs_refl in Q. discriminate. }
           rewrite Q'. cbn [orb]. apply S.
Qed.
Lemma firsts_small seen ss : (length (concat (firsts seen ss)) <= length (concat ss))%nat.
Proof.
  revert seen. induction ss as [|s ss IH]; intros seen; [reflexivity|]. cbn [firsts concat].
  destruct (existsb (beqs s) seen); cbn [concat]; rewrite ?app_length; [pose proof (IH seen)|pose proof (IH (s :: seen))]; lia.
Qed.

Lemma interning ss es b : compile_entries buf_add ss buf_empty = (es, b) -> (total ss < two32)%N ->
  length es = length ss /\
  (forall i s e, nth_error ss i = Some s -> nth_error es i = Some e -> slice64 (b_buf b) e = Ok s) /\
  (forall i j s, nth_error ss i = Some s -> nth_error ss j = Some s -> nth_error es i = nth_error es j) /\
  b_buf b = concat (firsts [] ss).
Proof.
  intros H T. destruct (adds_later _ _ _ _ H) as [_ Len].
  assert (B : b_buf b = concat (firsts [] ss)).
  { apply (adds_buffer _ _ _ _ [] H). intros s. cbn. split; [discriminate|intros X; contradiction]. }
  assert (L : (N.of_nat (length (b_buf b)) < two32)%N). { rewrite B. pose proof (firsts_small [] ss). unfold total in T. lia. }
  destruct (adds_spec _ _ _ _ H buf_empty_ok L) as [K F].
  assert (Q : forall i s e, nth_error ss i = Some s -> nth_error es i = Some e -> smap_get (b_idx b) s = Some e).
  { clear -F. induction F as [|s e ss es H F IH]; intros [|i] s' e' H1 H2; try discriminate.
    - injection H1 as ->. injection H2 as ->. exact H.
    - exact (IH i s' e' H1 H2). }
  split; [exact Len|]. split; [intros i s e H1 H2; apply K; exact (Q i s e H1 H2)|]. split; [|exact B].
  intros i j s H1 H2. assert (X : forall n, nth_error ss n = Some s -> exists e, nth_error es n = Some e).
  { intros n Hn. destruct (nth_error es n) as [e|] eqn:E; [eauto|]. apply nth_error_None in E.
    assert (n < length ss)%nat by (apply nth_error_Some; congruence). lia. }
  destruct (X i H1) as [ei Ei]. destruct (X j H2) as [ej Ej]. pose proof (Q i s ei H1 Ei). pose proof (Q j s ej H2 Ej). congruence.
Qed.
(** Beyond 4 GiB the ranges wrap around. *)
Lemma interning_wraps : exists s, slice64 (b_buf (snd (buf_add s buf_empty))) (fst (buf_add s buf_empty)) <> Ok s.
Proof.
  assert (X : exists n, N.of_nat n = two32). { exists (N.to_nat two32). apply N2Nat.id. }
  destruct X as [n En]. exists (repeat x00 n). unfold buf_add. cbn [buf_empty b_idx b_buf smap_get fst snd app length].
  rewrite repeat_length. cbn [Nat.add]. rewrite En. change (e_encode (N.of_nat 0) two32) with 0%N.
  unfold slice64. change (e_decode 0) with (0, 0)%N. cbn [fst snd]. unfold slice. cbn [N.leb N.compare andb N.sub N.to_nat firstn].
  destruct n as [|n]; [discriminate En|]. destruct (0 <=? N.of_nat (length (repeat x00 (S n))))%N; discriminate.
Qed.

(** ** normalizeRegex *)
Lemma closing_bound esc : forall rest prev i bo bc j, closing esc prev rest i bo bc = Some j -> (i <= j < i + length rest)%nat.
Proof.
  induction rest as [|c r IH]; intros prev i bo bc j; cbn [closing]; [discriminate|]. cbv zeta.
  destruct (Nat.eqb _ _); [intros [= <-]; cbn [length]; lia|]. intros H. apply IH in H. cbn [length]. lia.
Qed.
Lemma remove_first_length s ss k : bytes_index s ss = Some k -> length (remove_first s ss) = (length s - length ss)%nat.
Proof.
  intros E. unfold remove_first. rewrite E. apply bytes_index_Some in E as (a & b & -> & <-).
  rewrite !app_length, firstn_length, skipn_length, !app_length. lia.
Qed.
Lemma strip_at_ok esc op s k : bytes_index s op = Some k -> (2 <= length op)%nat ->
  exists s', strip_at esc k s = Ok s' /\ (length s' + 2 <= length s)%nat.
Proof.
  intros E L. apply bytes_index_Some in E as (a & b & Es & Ek).
  assert (Ls : (k + 2 <= length s)%nat) by (rewrite Es, !app_length; lia).
  unfold strip_at. destruct (skipn k s) as [|prev rest] eqn:Sk.
  { apply (f_equal (@length _)) in Sk. rewrite skipn_length in Sk. cbn [length] in Sk. lia. }
  assert (Lr : (length s = k + S (length rest))%nat).
  { apply (f_equal (@length _)) in Sk. rewrite skipn_length in Sk. cbn [length] in Sk. lia. }
  set (ic := match closing esc prev rest (S k) 1 0 with Some i => i | None => S k end).
  assert (Bi : (S k <= ic < length s)%nat).
  { unfold ic. destruct (closing esc prev rest (S k) 1 0) eqn:C; [apply closing_bound in C|]; lia. }
  rewrite slice_ok by lia. set (ss := firstn _ _). eexists. split; [reflexivity|].
  assert (Lss : length ss = (S ic - k)%nat). { unfold ss. rewrite firstn_length, skipn_length. lia. }
  assert (In : s = firstn k s ++ ss ++ skipn (S ic) s).
  { rewrite <- (firstn_skipn k s) at 1. f_equal. unfold ss. rewrite Nat2N.id.
    rewrite <- (firstn_skipn (S ic - k) (skipn k s)) at 1. f_equal; [f_equal; lia|].
    rewrite skipn_skipn. f_equal. lia. }
  destruct (bytes_index s ss) as [j|] eqn:J.
  - rewrite (remove_first_length _ _ _ J). lia.
  - exfalso. revert J. rewrite In. apply bytes_index_complete.
Qed.
Lemma strip_loop_ok esc op : (2 <= length op)%nat -> forall fuel s, (length s < fuel)%nat ->
  exists r, strip_loop op esc fuel s = Some (Ok r) /\ bytes_index r op = None /\ (length r <= length s)%nat.
Proof.
  intros L. induction fuel as [|f IH]; intros s Ls; [lia|]. cbn [strip_loop]. destruct (bytes_index s op) as [k|] eqn:E; [|eauto].
  destruct (strip_at_ok esc op s k E L) as (s' & -> & Ls'). destruct (IH s' ltac:(lia)) as (r & H1 & H2 & H3).
  exists r. split; [exact H1|]. split; [exact H2|lia].
Qed.

Lemma detect_index op s : detect op s = true -> bytes_index s op <> None.
Proof.
  induction s as [|c s IH]; cbn [detect bytes_index].
  - destruct (has_prefix [] op); [discriminate|]. discriminate.
  - destruct (has_prefix (c :: s) op); [discriminate|]. cbn [andb orb]. intros H. specialize (IH H).
    destruct (bytes_index s op); [discriminate|contradiction].
Qed.
Lemma detect_spec op s : detect op s = true <-> seen_by op s.
Proof.
  induction s as [|c s IH]; cbn [detect].
  - rewrite orb_false_r. split.
    + rewrite skipn_nil, andb_false_r. discriminate.
    + intros (a & body & b & E & _). destruct a, op, body; discriminate.
  - set (P := match skipn (length op) (c :: s) with c0 :: r => _ | [] => false end).
    rewrite orb_true_iff, IH, andb_true_iff, has_prefix_iff. split.
    + intros [[(t & Et) H]|(a & body & b & -> & H)]; [|exists (c :: a), body, b; split; [reflexivity|exact H]].
      unfold P in H. rewrite Et, skipn_app, skipn_all, Nat.sub_diag in H. cbn [skipn app] in H.
      destruct t as [|d r]; [discriminate|]. apply andb_prop in H as [H1 H2].
      destruct (index_byte r x29) as [k|] eqn:I; [|discriminate]. apply index_byte_Some in I as (body & b & -> & Lb & N).
      exists [], (d :: body), b. rewrite Et. split; [reflexivity|]. split; [discriminate|].
      intros [X|X]; [subst d; discriminate H1|contradiction].
    + intros (a & body & b & E & Nb & N29). destruct a as [|a0 a].
      * left. cbn [app] in E. split; [exists (body ++ x29 :: b); exact E|]. unfold P. rewrite E, skipn_app, skipn_all, Nat.sub_diag.
        cbn [skipn app]. destruct body as [|d body]; [contradiction|]. cbn [app]. rewrite index_byte_app by (intros X; apply N29; right; exact X).
        rewrite andb_true_r. destruct (beq d x29) eqn:Q; [|reflexivity]. apply beq_eq in Q. exfalso. apply N29. left. exact Q.
      * right. injection E as -> ->. exists a, body, b. auto.
Qed.
Lemma index_within s w : bytes_index s w = None <-> ~ within w s.
Proof.
  unfold within. rewrite <- contains_b_iff. unfold contains_b. destruct (bytes_index s w); split; intros H; try discriminate; auto.
  exfalso. apply H. reflexivity.
Qed.

(** [squeeze] never lengthens, and creates no "(?!". *)
Lemma squeeze_skip : forall s k, squeeze k s = squeeze 0 (skipn k s).
Proof. induction s as [|c s IH]; intros [|k]; try reflexivity. cbn [squeeze skipn]. apply IH. Qed.
Lemma squeeze_cases s : match s with
  | [] => squeeze 0 s = []
  | c :: r => (exists t, s = bs ")||(" ++ t /\ squeeze 0 s = bs ")|(" ++ squeeze 0 t) \/ squeeze 0 s = c :: squeeze 0 r
  end.
Proof.
  destruct s as [|c r]; [reflexivity|]. cbn [squeeze]. destruct (has_prefix (c :: r) (bs ")||(")) eqn:P; [left|right; reflexivity].
  apply has_prefix_iff in P as (t & P). exists t. split; [exact P|]. rewrite squeeze_skip.
  assert (E : skipn 3 r = t). { change (skipn 3 r) with (skipn 4 (c :: r)). rewrite P. reflexivity. }
  rewrite E. reflexivity.
Qed.
Lemma squeeze_length : forall n s, (length s < n)%nat -> (length (squeeze 0 s) <= length s)%nat.
Proof.
  induction n as [|n IH]; intros s L; [lia|]. pose proof (squeeze_cases s) as C. destruct s as [|c r]; [rewrite C; lia|].
  destruct C as [(t & E & ->)| ->].
  - apply (f_equal (@length _)) in E. rewrite app_length in E. change (length (bs ")||(")) with 4%nat in E.
    rewrite app_length. change (length (bs ")|(")) with 3%nat. specialize (IH t ltac:(lia)). lia.
  - cbn [length] in *. specialize (IH r ltac:(lia)). lia.
Qed.
Lemma squeeze_head s x y : squeeze 0 s = x :: y -> x <> x29 -> exists r, s = x :: r /\ y = squeeze 0 r.
Proof.
  intros E N. pose proof (squeeze_cases s) as C. destruct s as [|c r]; [rewrite C in E; discriminate|].
  destruct C as [(t & _ & C)|C]; rewrite C in E.
  - injection E as Ex _. subst x. contradiction.
  - injection E as E1 E2. subst. eauto.
Qed.
Lemma squeeze_creates : forall n s, (length s < n)%nat -> within (bs "(?!") (squeeze 0 s) -> within (bs "(?!") s.
Proof.
  induction n as [|n IH]; intros s L; [lia|]. pose proof (squeeze_cases s) as C.
  assert (H2 : forall t z, squeeze 0 t = bs "?!" ++ z -> exists w, t = bs "?!" ++ w).
  { intros t z E. destruct (squeeze_head _ _ _ E ltac:(discriminate)) as (r & -> & E1). symmetry in E1.
    destruct (squeeze_head _ _ _ E1 ltac:(discriminate)) as (r' & -> & _). exists r'. reflexivity. }
  destruct s as [|c r]; [rewrite C; auto|]. intros (a & b & E). destruct C as [(t & Es & C)|C]; rewrite C in E.
  - assert (Lt : (length t < n)%nat).
    { apply (f_equal (@length _)) in Es. rewrite app_length in Es. change (length (bs ")||(")) with 4%nat in Es. cbn [length] in Es, L. lia. }
    rewrite Es. destruct a as [|a0 a]; [discriminate E|]. injection E as <- E. destruct a as [|a1 a]; [discriminate E|].
    injection E as <- E. destruct a as [|a2 a].
    + injection E as E. destruct (H2 t b E) as (w & ->). exists (bs ")||"), w. reflexivity.
    + injection E as <- E. destruct (IH t Lt) as (a' & b' & ->); [exists a, b; exact E|]. exists (bs ")||(" ++ a'), b'. rewrite <- app_assoc. reflexivity.
  - destruct a as [|a0 a].
    + injection E as -> E. destruct (H2 r b E) as (w & ->). exists [], w. reflexivity.
    + injection E as -> E. destruct (IH r) as (a' & b' & ->); [cbn [length] in L; lia|exists a, b; exact E|]. exists (a0 :: a'), b'. reflexivity.
Qed.

Lemma normalize_total s : exists r, normalize s = Some (Ok r) /\ (length r <= length s)%nat.
Proof.
  unfold normalize.
  assert (S1 : exists r, (if detect (bs "(?<!") s then strip_loop (bs "(?<") false (S (length s)) s else Some (Ok s)) = Some (Ok r) /\
               (length r <= length s)%nat).
  { destruct (detect _ s); [|exists s; split; [reflexivity|lia]].
    destruct (strip_loop_ok false (bs "(?<") ltac:(cbn; lia) (S (length s)) s ltac:(lia)) as (r & E & _ & L). eauto. }
  destruct S1 as (s1 & -> & L1). cbn [obind].
  assert (S2 : exists r, (if detect (bs "(?!.*") s1 then match bytes_index s1 (bs "(?!.*") with Some k => Some (strip_at false k s1) | None => Some Panic end
                          else Some (Ok s1)) = Some (Ok r) /\ (length r <= length s1)%nat).
  { destruct (detect (bs "(?!.*") s1) eqn:D; [|exists s1; split; [reflexivity|lia]]. apply detect_index in D.
    destruct (bytes_index s1 (bs "(?!.*")) as [k|] eqn:E; [|contradiction].
    destruct (strip_at_ok false _ s1 k E ltac:(cbn; lia)) as (r & -> & L). exists r. split; [reflexivity|lia]. }
  destruct S2 as (s2 & -> & L2). cbn [obind].
  assert (S3 : exists r, (if detect (bs "(?!") s2 then strip_loop (bs "(?!") true (S (length s2)) s2 else Some (Ok s2)) = Some (Ok r) /\
               (length r <= length s2)%nat).
  { destruct (detect _ s2); [|exists s2; split; [reflexivity|lia]].
    destruct (strip_loop_ok true (bs "(?!") ltac:(cbn; lia) (S (length s2)) s2 ltac:(lia)) as (r & E & _ & L). eauto. }
  destruct S3 as (s3 & -> & L3). cbn [obind]. exists (squeeze 0 s3). split; [reflexivity|].
  pose proof (squeeze_length (S (length s3)) s3 ltac:(lia)). lia.
Qed.
Lemma normalize_lookahead s r : normalize s = Some (Ok r) ->
  ~ seen_by (bs "(?<!") s -> ~ seen_by (bs "(?!.*") s -> seen_by (bs "(?!") s -> ~ within (bs "(?!") r.
Proof.
  intros H N1 N2 Y. rewrite <- detect_spec in N1, N2, Y. unfold normalize in H.
  destruct (detect (bs "(?<!") s); [contradiction N1; reflexivity|]. cbn [obind] in H.
  destruct (detect (bs "(?!.*") s); [contradiction N2; reflexivity|]. cbn [obind] in H. rewrite Y in H.
  destruct (strip_loop_ok true (bs "(?!") ltac:(cbn; lia) (S (length s)) s ltac:(lia)) as (r1 & E & NI & _). rewrite E in H. cbn [obind] in H.
  injection H as <-. intros W. apply (squeeze_creates (S (length r1)) r1 ltac:(lia)) in W. apply index_within in NI. contradiction.
Qed.
(** A pattern without look-arounds is left alone, but for empty alternatives. *)
Lemma normalize_plain s : ~ within (bs "(?<!") s -> ~ within (bs "(?!") s -> ~ within (bs ")||(") s -> normalize s = Some (Ok s).
Proof.
  intros N1 N2 N3. unfold normalize.
  assert (D : forall op x, ~ within op x -> detect op x = false).
  { intros op x N. destruct (detect op x) eqn:E; [|reflexivity]. apply detect_index in E. apply index_within in N. contradiction. }
  assert (Nw : ~ within (bs "(?!.*") s).
  { intros (a & b & ->). apply N2. exists a, (bs ".*" ++ b). reflexivity. }
  rewrite (D _ _ N1). cbn [obind]. rewrite (D _ _ Nw). cbn [obind]. rewrite (D _ _ N2). cbn [obind]. do 2 f_equal.
  clear -N3. induction s as [|c r IH]; [reflexivity|]. destruct (squeeze_cases (c :: r)) as [(t & E & _)| ->].
  - exfalso. apply N3. rewrite E. exists [], t. reflexivity.
  - f_equal. apply IH. intros (a & b & ->). apply N3. exists (c :: a), b. reflexivity.
Qed.

Lemma normalize_recreates : exists s r, seen_by (bs "(?<!") s /\ normalize s = Some (Ok r) /\ seen_by (bs "(?<!") r.
Proof.
  exists (bs "(?<!a)(?(?!b)<!c)"), (bs "(?<!c)"). split; [|split; [reflexivity|]].
  - exists [], (bs "a"), (bs "(?(?!b)<!c)"). repeat split; [discriminate|]. intros [H|[]]. discriminate.
  - exists [], (bs "c"), []. repeat split; [discriminate|]. intros [H|[]]. discriminate.
Qed.
Lemma normalize_leaves : exists s r, seen_by (bs "(?!") s /\ normalize s = Some (Ok r) /\ within (bs "(?!") r.
Proof.
  exists (bs "(?!a(?<!b)"), (bs "(?!a"). split; [|split; [reflexivity|exists [], (bs "a"); reflexivity]].
  exists [], (bs "a(?<!b"), []. repeat split; [discriminate|]. intros H. repeat (destruct H as [H|H]; [discriminate|]). exact H.
Qed.

(** ** Literals *)
Lemma below16 d (P : N -> Prop) : (d < 16)%N ->
  P 0%N -> P 1%N -> P 2%N -> P 3%N -> P 4%N -> P 5%N -> P 6%N -> P 7%N -> P 8%N -> P 9%N -> P 10%N -> P 11%N -> P 12%N ->
  P 13%N -> P 14%N -> P 15%N -> P d.
Proof.
  intros L. intros.
  assert (d = 0 \/ d = 1 \/ d = 2 \/ d = 3 \/ d = 4 \/ d = 5 \/ d = 6 \/ d = 7 \/ d = 8 \/ d = 9 \/ d = 10 \/ d = 11 \/ d = 12 \/
          d = 13 \/ d = 14 \/ d = 15)%N as E by lia.
  repeat (destruct E as [->|E]; [assumption|]). subst. assumption.
Qed.
Lemma hex_value_digit d : (d < 16)%N -> hex_value (hex_digit d) = Some d.
Proof. intros L. apply (below16 d); [exact L|..]; reflexivity. Qed.
Lemma digits_value_app a : forall b acc, hex_digits_value (a ++ b) acc =
  match hex_digits_value a acc with Some v => hex_digits_value b v | None => None end.
Proof.
  induction a as [|c a IH]; intros b acc; [reflexivity|]. cbn [app hex_digits_value]. destruct (hex_value c); [apply IH|reflexivity].
Qed.
Lemma hex_digits_fuel_value f : forall n, (n < 16 ^ N.of_nat f)%N -> hex_digits_value (hex_digits_fuel f n) 0 = Some n.
Proof.
  induction f as [|f IH]; intros n L; [cbn in *; f_equal; lia|]. cbn [hex_digits_fuel]. destruct (N.ltb_spec n 16) as [Ln|Ln].
  - cbn [hex_digits_value]. rewrite hex_value_digit by exact Ln. reflexivity.
  - rewrite digits_value_app, IH.
    + cbn [hex_digits_value]. rewrite hex_value_digit by (apply N.mod_lt; discriminate). f_equal.
      pose proof (N.div_mod n 16 ltac:(discriminate)). lia.
    + apply N.div_lt_upper_bound; [discriminate|]. rewrite Nat2N.inj_succ, N.pow_succ_r' in L. exact L.
Qed.
Lemma hex_digits_some f : forall n, f <> O -> hex_digits_fuel f n <> [].
Proof. destruct f as [|f]; intros n H; [contradiction|]. cbn [hex_digits_fuel]. destruct (n <? 16)%N; [discriminate|destruct (hex_digits_fuel f (n / 16)); discriminate]. Qed.
Definition big : N := (16 ^ 64)%N.
Lemma hex_digits_ok n : (n < big)%N -> hex_digits_value (hex_digits n) 0 = Some n /\ hex_digits n <> [].
Proof. intros L. split; [apply hex_digits_fuel_value; exact L|apply hex_digits_some; discriminate]. Qed.
Lemma zeros_value k s : hex_digits_value (repeat x30 k ++ s) 0 = hex_digits_value s 0.
Proof. induction k as [|k IH]; [reflexivity|]. cbn [repeat app hex_digits_value]. exact IH. Qed.
Lemma fmt_x_literal w z : (0 <= z)%Z -> (Z.to_N z < big)%N -> nat_literal (bs "0x" ++ fmt_x w z) = Some (Z.to_N z).
Proof.
  intros L0 L. unfold fmt_x. destruct (Z.ltb_spec z 0); [lia|]. cbn [app length].
  replace (Z.abs_N z) with (Z.to_N z) by lia. destruct (hex_digits_ok (Z.to_N z) L) as [V Nz].
  set (s := repeat _ _ ++ hex_digits (Z.to_N z)). assert (Vs : hex_digits_value s 0 = Some (Z.to_N z)).
  { unfold s. rewrite zeros_value. exact V. }
  destruct s as [|c r] eqn:E.
  - unfold s in E. apply app_eq_nil in E as [_ E]. contradiction.
  - exact Vs.
Qed.
Lemma big_lt n : (n < two64)%N -> (n < big)%N.
Proof. intros H. apply (N.lt_trans _ _ _ H). reflexivity. Qed.

Lemma literal_signed s n : nat_literal s = Some n -> literal s = Some (Z.of_N n).
Proof.
  intros H. unfold literal. destruct s as [|c r]; [discriminate|]. destruct c; try (rewrite H; reflexivity). discriminate H.
Qed.
Lemma hex_u64_literal n : (n < two64)%N -> literal (hex_u64 n) = Some (Z.of_N n).
Proof.
  intros L. apply literal_signed. unfold hex_u64. rewrite fmt_x_literal; [f_equal; lia|lia|].
  rewrite N2Z.id. apply big_lt. exact L.
Qed.
Lemma hex_i32_literal i : (-2147483648 < i <= 2147483647)%Z -> literal (hex_i32 i) = Some i.
Proof.
  intros L. unfold hex_i32. destruct (Z.ltb_spec i 0).
  - assert (W : wrap32 (- i) = (- i)%Z) by (unfold wrap32; rewrite Z.mod_small; lia). rewrite W.
    change (bs "-0x" ++ fmt_x 4 (- i)) with (x2d :: (bs "0x" ++ fmt_x 4 (- i))). cbn [literal].
    rewrite fmt_x_literal; [f_equal; lia|lia|]. apply big_lt. unfold two64. lia.
  - rewrite (literal_signed _ (Z.to_N i)); [f_equal; lia|]. apply fmt_x_literal; [lia|]. apply big_lt. unfold two64. lia.
Qed.
Lemma hex_i8_literal i : (-128 < i <= 127)%Z -> literal (hex_i8 i) = Some i.
Proof.
  intros L. unfold hex_i8. destruct (Z.ltb_spec i 0).
  - assert (W : wrap_i8 (- i) = (- i)%Z) by (unfold wrap_i8; rewrite Z.mod_small; lia). rewrite W.
    change (bs "-0x" ++ fmt_x 1 (- i)) with (x2d :: (bs "0x" ++ fmt_x 1 (- i))). cbn [literal].
    rewrite fmt_x_literal; [f_equal; lia|lia|]. apply big_lt. unfold two64. lia.
  - rewrite (literal_signed _ (Z.to_N i)); [f_equal; lia|]. apply fmt_x_literal; [lia|]. apply big_lt. unfold two64. lia.
Qed.

Lemma hex_minimum : literal (hex_i8 (-128)) = None /\ literal (hex_i32 (-2147483648)) = None.
Proof. split; vm_compute; reflexivity. Qed.

(** The byte table. *)
Lemma elements_skip s : forall cur r, (forall c, In c s -> blank c = false /\ beq c x2c = false) ->
  elements (s ++ r) cur = elements r (cur ++ s).
Proof.
  induction s as [|c s IH]; intros cur r H; [rewrite app_nil_r; reflexivity|]. cbn [app elements].
  destruct (H c (or_introl eq_refl)) as [-> ->]. rewrite IH by (intros; apply H; right; assumption). rewrite <- app_assoc. reflexivity.
Qed.
Lemma hex_digit_plain d : (d < 16)%N -> blank (hex_digit d) = false /\ beq (hex_digit d) x2c = false.
Proof. intros L. apply (below16 d); [exact L|..]; split; reflexivity. Qed.
Lemma hex_digits_plain f : forall n c, In c (hex_digits_fuel f n) -> blank c = false /\ beq c x2c = false.
Proof.
  induction f as [|f IH]; intros n c; cbn [hex_digits_fuel]; [intros []|]. destruct (N.ltb_spec n 16) as [L|L].
  - intros [<-|[]]. apply hex_digit_plain. exact L.
  - intros I. apply in_app_or in I as [I|[<-|[]]]; [exact (IH _ _ I)|]. apply hex_digit_plain. apply N.mod_lt. discriminate.
Qed.
Lemma emit_elements l : forall i, elements (emit_bytes i l) [] = map (fun b => bs "0x" ++ fmt_x 2 (Z.of_N (bn b))) l.
Proof.
  induction l as [|b l IH]; intros i; [reflexivity|]. cbn [emit_bytes map].
  assert (E : elements (bs "0x" ++ fmt_x 2 (Z.of_N (bn b)) ++ bs ", " ++ emit_bytes (S i) l) [] =
              (bs "0x" ++ fmt_x 2 (Z.of_N (bn b))) :: map (fun b => bs "0x" ++ fmt_x 2 (Z.of_N (bn b))) l).
  { rewrite app_assoc, elements_skip.
    - cbn [app]. change (bs ", " ++ emit_bytes (S i) l) with (x2c :: x20 :: emit_bytes (S i) l). cbn [elements].
      change (beq x2c x2c) with true. change (beq x20 x2c) with false. change (blank x20) with true. cbv iota.
      rewrite IH. reflexivity.
    - intros c I. apply in_app_or in I as [I|I].
      + destruct I as [<-|[<-|[]]]; split; reflexivity.
      + unfold fmt_x in I. destruct (Z.ltb_spec (Z.of_N (bn b)) 0); [lia|]. cbn [app] in I. apply in_app_or in I as [I|I].
        * apply repeat_spec in I as ->. split; reflexivity.
        * exact (hex_digits_plain _ _ _ I). }
  destruct ((0 <? i) && (i mod 16 =? 0)); [|exact E]. cbn [app elements]. change (beq x0a x2c) with false. change (blank x0a) with true.
  cbv iota. exact E.
Qed.
Lemma emitted_bytes l : map literal (elements (emit_bytes 0 l) []) = map (fun b => Some (Z.of_N (bn b))) l.
Proof.
  rewrite emit_elements, map_map. apply map_ext. intros b. pose proof (bn_lt b).
  rewrite (literal_signed _ (bn b)); [reflexivity|]. rewrite fmt_x_literal; [f_equal; lia|lia|]. rewrite N2Z.id. apply big_lt.
  apply (N.lt_trans _ _ _ H). reflexivity.
Qed.

(** ** Engine functions *)
Lemma str_leb_refl a : str_leb a a = true.
Proof. apply str_leb_text. left. exists []. symmetry. apply app_nil_r. Qed.
Lemma str_leb_total a : forall b, str_leb a b = false -> str_leb b a = true.
Proof.
  induction a as [|x a IH]; intros [|y b] H; try discriminate; [reflexivity|]. cbn [str_leb] in *.
  apply orb_false_iff in H as [H1 H2]. apply N.ltb_ge in H1. destruct (beq_spec x y) as [->|Nq].
  - apply orb_true_iff. right. destruct (beq_spec y y); [|contradiction]. apply IH. exact H2.
  - apply orb_true_iff. left. apply N.ltb_lt. destruct (N.eq_dec (bn x) (bn y)) as [E|E]; [apply bn_inj in E; contradiction|lia].
Qed.
Lemma str_leb_trans a : forall b c, str_leb a b = true -> str_leb b c = true -> str_leb a c = true.
Proof.
  induction a as [|x a IH]; intros [|y b] [|z c] H1 H2; try discriminate; try reflexivity. cbn [str_leb] in *.
  apply orb_true_iff in H1. apply orb_true_iff in H2. apply orb_true_iff. rewrite N.ltb_lt in *.
  destruct H1 as [H1|H1], H2 as [H2|H2]; try (apply andb_true_iff in H1 as [H1 H1']; destruct (beq_spec x y); [subst|discriminate]);
    try (apply andb_true_iff in H2 as [H2 H2']; destruct (beq_spec y z); [subst|discriminate]).
  - left. lia.
  - left. lia.
  - left. lia.
  - right. destruct (beq_spec z z); [|contradiction]. exact (IH _ _ H1' H2').
Qed.
Lemma str_leb_anti a : forall b, str_leb a b = true -> str_leb b a = true -> a = b.
Proof.
  induction a as [|x a IH]; intros [|y b] H1 H2; try discriminate; [reflexivity|]. cbn [str_leb] in *.
  apply orb_true_iff in H1. apply orb_true_iff in H2. rewrite N.ltb_lt in *. destruct (beq_spec x y) as [->|Nq].
  - f_equal. apply IH; [destruct H1 as [H1|H1]; [lia|]|destruct H2 as [H2|H2]; [lia|]].
    + apply andb_true_iff in H1 as [_ H1]. exact H1.
    + apply andb_true_iff in H2 as [_ H2]. exact H2.
  - destruct H1 as [H1|H1]; [|apply andb_true_iff in H1 as [H1 _]; discriminate].
    destruct H2 as [H2|H2]; [lia|]. apply andb_true_iff in H2 as [H2 _]. destruct (beq_spec y x); [subst; contradiction|discriminate].
Qed.

Section Sorted.
Context {A : Type}.
Definition ascending (l : list (bytes * A)) : Prop :=
  forall l1 x l2, l = l1 ++ x :: l2 -> forall y, In y l2 -> str_leb (fst x) (fst y) = true.
Lemma insert_perm x (l : list (bytes * A)) : Permutation (insert x l) (x :: l).
Proof.
  induction l as [|y l IH]; [reflexivity|]. cbn [insert]. destruct (str_leb (fst x) (fst y)); [reflexivity|].
  rewrite IH. apply perm_swap.
Qed.
Lemma sort_perm (l : list (bytes * A)) : Permutation (sort_keys l) l.
Proof. induction l as [|x l IH]; [reflexivity|]. cbn [sort_keys fold_right]. rewrite insert_perm. constructor. exact IH. Qed.
Lemma ascending_cons x l : ascending l -> (forall y, In y l -> str_leb (fst x) (fst y) = true) -> ascending (x :: l).
Proof.
  intros S H l1 z l2 E y I. destruct l1 as [|w l1]; cbn [app] in E; injection E as E1 E2; subst; [exact (H _ I)|].
  exact (S _ _ _ eq_refl _ I).
Qed.
Lemma ascending_tail x l : ascending (x :: l) -> ascending l /\ forall y, In y l -> str_leb (fst x) (fst y) = true.
Proof.
  intros S. split; [|exact (S [] x l eq_refl)]. intros l1 z l2 -> y I. exact (S (x :: l1) z l2 eq_refl y I).
Qed.
Lemma insert_ascending x l : ascending l -> ascending (insert x l).
Proof.
  induction l as [|y l IH]; intros S; cbn [insert].
  - apply ascending_cons; [exact S|intros ? []].
  - destruct (ascending_tail _ _ S) as [S1 S2]. destruct (str_leb (fst x) (fst y)) eqn:E.
    + apply ascending_cons; [exact S|]. intros z [<-|I]; [exact E|]. exact (str_leb_trans _ _ _ E (S2 _ I)).
    + apply ascending_cons; [exact (IH S1)|]. intros z I. apply (Permutation_in _ (insert_perm x l)) in I as [<-|I].
      * apply str_leb_total. exact E.
      * exact (S2 _ I).
Qed.
Lemma sort_ascending l : ascending (sort_keys l).
Proof.
  induction l as [|x l IH]; [intros [|] ? ? E; discriminate|]. cbn [sort_keys fold_right]. apply insert_ascending. exact IH.
Qed.
(** Two ascending lists of the same pairs with different keys are equal. *)
Lemma ascending_unique l : forall l', ascending l -> ascending l' -> NoDup (map fst l) -> Permutation l l' -> l = l'.
Proof.
  induction l as [|x l IH]; intros l' S S' ND P; [apply Permutation_nil in P; auto|].
  destruct l' as [|y l']; [apply Permutation_sym, Permutation_nil in P; discriminate|].
  destruct (ascending_tail _ _ S) as [S1 S2]. destruct (ascending_tail _ _ S') as [S1' S2'].
  assert (E : x = y).
  { assert (I : In x (y :: l')) by (apply (Permutation_in _ P); left; reflexivity).
    assert (I' : In y (x :: l)) by (apply (Permutation_in _ (Permutation_sym P)); left; reflexivity).
    destruct I as [->|I]; [reflexivity|]. destruct I' as [->|I']; [reflexivity|]. exfalso.
    assert (K : fst x = fst y) by (apply str_leb_anti; [exact (S2 _ I')|exact (S2' _ I)]).
    cbn [map] in ND. apply NoDup_cons_iff in ND as [ND _]. apply ND. rewrite K. apply in_map. exact I'. }
  subst y. f_equal. apply IH; [exact S1|exact S1'|cbn [map] in ND; apply NoDup_cons_iff in ND; tauto|exact (Permutation_cons_inv P)].
Qed.
Lemma sort_unique (l l' : list (bytes * A)) : NoDup (map fst l) -> Permutation l l' -> sort_keys l = sort_keys l'.
Proof.
  intros ND P. apply ascending_unique; try apply sort_ascending.
  - apply (Permutation_NoDup (l := map fst l)); [|exact ND]. apply Permutation_map, Permutation_sym, sort_perm.
  - rewrite (sort_perm l), (sort_perm l'). exact P.
Qed.
End Sorted.

Lemma ef_rules_later l : forall b r b', ef_rules l b = (r, b') -> later b b'.
Proof.
  induction l as [|[v e] l IH]; intros b r b' H; cbn [ef_rules] in H; [injection H as _ H2; subst; apply later_refl|].
  pose proof (buf_add_later e b) as L1. destruct (buf_add e b) as [e1 b1]. destruct (ef_rules l b1) as [r2 b2] eqn:E2.
  injection H as _ H2. subst. exact (later_trans _ _ _ L1 (IH _ _ _ E2)).
Qed.
Lemma ef_rules_spec l : forall b r b', ef_rules l b = (r, b') -> buf_ok b -> (N.of_nat (length (b_buf b')) < two32)%N ->
  buf_ok b' /\ Forall2 (fun ve te => fst ve = fst te /\ slice64 (b_buf b') (snd te) = Ok (snd ve)) l r.
Proof.
  induction l as [|[v e] l IH]; intros b r b' H K L; cbn [ef_rules] in H; [injection H as H1 H2; subst; auto|].
  pose proof (buf_add_denotes e b K) as D. pose proof (buf_add_ok e b K) as K1.
  destruct (buf_add e b) as [e1 b1]. cbn [fst snd] in *. destruct (ef_rules l b1) as [r2 b2] eqn:E2.
  injection H as H1 H2. subst. pose proof (ef_rules_later _ _ _ _ E2) as L2. pose proof (later_length _ _ L2).
  destruct (IH _ _ _ E2 (K1 ltac:(lia)) L) as [K2 F]. split; [exact K2|]. constructor; [|exact F]. cbn [fst snd].
  split; [reflexivity|]. apply (later_slice _ _ _ _ L2). apply D. lia.
Qed.
Lemma nodup_keys {A B} (m : list (A * B)) k v w : NoDup (map fst m) -> In (k, v) m -> In (k, w) m -> v = w.
Proof.
  induction m as [|[a b] m IH]; [intros _ []|]. cbn [map fst]. intros ND. apply NoDup_cons_iff in ND as [N1 N2].
  intros [E|I] [E'|I'].
  - congruence.
  - injection E as E1 E2. subst. exfalso. apply N1. apply (in_map fst) in I'. exact I'.
  - injection E' as E1 E2. subst. exfalso. apply N1. apply (in_map fst) in I. exact I.
  - exact (IH N2 I I').
Qed.

Lemma filled_ok ss b : filled ss b -> (N.of_nat (length (b_buf b)) < two32)%N -> buf_ok b.
Proof. intros [es H] L. exact (proj1 (adds_spec _ _ _ _ H buf_empty_ok L)). Qed.

Lemma engine_generated ss b e s w f b' : filled ss b -> NoDup (map fst (ye_versions e)) ->
  ef e (fst (buf_add (ye_default e) b)) (snd (buf_add (ye_default e) b)) = (f, b') ->
  (N.of_nat (length (b_buf b')) < two32)%N ->
  first_engine (ye_versions e) (ye_default e) s w -> slice64 (b_buf b') (ef_apply f s) = Ok w.
Proof.
  intros Fl ND H L W. unfold ef in H. destruct (ef_rules _ _) as [r b1] eqn:E. injection H as H1 H2. subst f b1.
  pose proof (ef_rules_later _ _ _ _ E) as L2. pose proof (later_length _ _ L2).
  pose proof (buf_add_later (ye_default e) b) as L1. pose proof (later_length _ _ L1).
  pose proof (filled_ok _ _ Fl ltac:(lia)) as K. assert (K1 : buf_ok (snd (buf_add (ye_default e) b))) by (apply buf_add_ok; [exact K|lia]).
  pose proof (buf_add_denotes (ye_default e) b K ltac:(lia)) as D. apply (later_slice _ _ _ _ L2) in D.
  destruct (ef_rules_spec _ _ _ _ E K1 L) as [_ F]. set (d := fst (buf_add (ye_default e) b)) in *. clearbody d.
  assert (P : Permutation (sort_keys (ye_versions e)) (ye_versions e)) by apply sort_perm.
  pose proof (sort_ascending (ye_versions e)) as S. set (l := sort_keys (ye_versions e)) in *. clearbody l.
  set (m := ye_versions e) in *. clearbody m.
  assert (Pk : forall k, In k (map fst m) <-> In k (map fst l)).
  { intros k. split; apply Permutation_in; apply Permutation_map; [apply Permutation_sym|]; exact P. }
  assert (Pi : forall x, In x m -> In x l) by (intros x; apply Permutation_in, Permutation_sym, P).
  assert (NDl : NoDup (map fst l)). { apply (Permutation_NoDup (l := map fst m)); [apply Permutation_map, Permutation_sym, P|exact ND]. }
  assert (W' : first_engine l (ye_default e) s w).
  { destruct W as [(k & I & T & M)|[N1 ->]].
    - left. exists k. split; [exact (Pi _ I)|]. split; [exact T|]. intros k' I'. apply M. apply Pk. exact I'.
    - right. split; [|reflexivity]. intros k I. apply N1. apply Pk. exact I. }
  clear W Pk Pi P ND m L L1 L2 K K1 E H H0 Fl. unfold ef_apply. cbn [fst snd]. revert S NDl W'.
  induction F as [|[v x] [t c] l r [H1 H2] F IH]; intros S NDl W'; cbn [ef_apply_list].
  - destruct W' as [(k & [] & _)|[_ ->]]. exact D.
  - cbn [fst snd] in H1, H2. subst t. destruct (ascending_tail _ _ S) as [S1 S2]. destruct (str_leb v s) eqn:Q.
    + destruct W' as [(k & I & T & M)|[N1 _]].
      * assert (Tv : text_le k v). { apply M; [left; reflexivity|apply str_leb_text; exact Q]. }
        assert (k = v) as ->.
        { destruct I as [I|I]; [congruence|]. apply str_leb_anti; [apply str_leb_text; exact Tv|exact (S2 _ I)]. }
        rewrite (nodup_keys _ v w x NDl I (or_introl eq_refl)). exact H2.
      * exfalso. apply (N1 v (or_introl eq_refl)). apply str_leb_text. exact Q.
    + apply IH; [exact S1|cbn [map] in NDl; apply NoDup_cons_iff in NDl; tauto|]. destruct W' as [(k & I & T & M)|[N1 ->]].
      * left. exists k. destruct I as [I|I].
        -- injection I as I1 I2. subst. apply str_leb_text in T. congruence.
        -- split; [exact I|]. split; [exact T|]. intros k' I'. apply M. right. exact I'.
      * right. split; [|reflexivity]. intros k I. apply N1. right. exact I.
Qed.

Lemma engine_smallest m def s w k : NoDup (map fst m) -> smallest k m ->
  (first_engine m def s w <-> (text_le k s /\ In (k, w) m) \/ (~ text_le k s /\ w = def)).
Proof.
  intros ND [Ik Sk]. assert (Tr : forall a b c, text_le a b -> text_le b c -> text_le a c).
  { intros a b c H1 H2. apply str_leb_text. apply str_leb_text in H1. apply str_leb_text in H2. exact (str_leb_trans _ _ _ H1 H2). }
  assert (An : forall a b, text_le a b -> text_le b a -> a = b).
  { intros a b H1 H2. apply str_leb_text in H1. apply str_leb_text in H2. exact (str_leb_anti _ _ H1 H2). }
  split.
  - intros [(k' & I & T & M)|[N1 ->]].
    + left. assert (I' : In k' (map fst m)) by (apply (in_map fst) in I; exact I).
      assert (Tk : text_le k s) by exact (Tr _ _ _ (Sk _ I') T). split; [exact Tk|].
      rewrite (An k k' (Sk _ I') (M _ Ik Tk)). exact I.
    + right. split; [exact (N1 _ Ik)|reflexivity].
  - intros [[T I]|[N1 ->]].
    + left. exists k. split; [exact I|]. split; [exact T|]. intros k' I' _. exact (Sk _ I').
    + right. split; [|reflexivity]. intros k' I' T. apply N1. exact (Tr _ _ _ (Sk _ I') T).
Qed.
Lemma engine_order d m m' def b : NoDup (map fst m) -> Permutation m m' -> ef (mkYE d m) def b = ef (mkYE d m') def b.
Proof. intros ND P. unfold ef. cbn [ye_versions]. rewrite (sort_unique m m' ND P). reflexivity. Qed.

Lemma engine_case :
  let e := mkYE (bs "Blink") [(bs "7", bs "Presto"); (bs "15", bs "WebKit"); (bs "28", bs "Blink")] in
  let '(d, b1) := buf_add (ye_default e) buf_empty in
  let '(f, b2) := ef e d b1 in
  filled [] buf_empty /\
  slice64 (b_buf b2) (ef_apply f (bs "9")) = Ok (bs "WebKit") /\
  slice64 (b_buf b2) (ef_apply f (bs "30")) = Ok (bs "WebKit") /\
  slice64 (b_buf b2) (ef_apply f (bs "10")) = Ok (bs "Blink") /\
  first_engine (ye_versions e) (ye_default e) (bs "30") (bs "WebKit") /\ smallest (bs "15") (ye_versions e).
Proof.
  cbn [ye_default ye_versions]. set (m := [(bs "7", bs "Presto"); (bs "15", bs "WebKit"); (bs "28", bs "Blink")]).
  assert (ND : NoDup (map fst m)).
  { cbn [m map fst]. repeat constructor; cbn; intros H; repeat (destruct H as [H|H]; [discriminate|]); exact H. }
  assert (Sm : smallest (bs "15") m).
  { split; [right; left; reflexivity|]. intros k H. apply str_leb_text. cbn [m map fst In] in H.
    repeat (destruct H as [<-|H]; [reflexivity|]). destruct H. }
  assert (F : first_engine m (bs "Blink") (bs "30") (bs "WebKit")).
  { apply (engine_smallest m (bs "Blink") (bs "30") (bs "WebKit") (bs "15") ND Sm). left.
    split; [apply str_leb_text; reflexivity|right; left; reflexivity]. }
  destruct (buf_add (bs "Blink") buf_empty) as [d b1] eqn:E1. vm_compute in E1. injection E1 as <- <-.
  destruct (ef _ _ _) as [f b2] eqn:E2. vm_compute in E2. injection E2 as <- <-.
  split; [exists []; reflexivity|]. repeat split; try (vm_compute; reflexivity); try exact F; try apply Sm.
Qed.

(** Which characters a group of a pattern can capture, and which characters versions contain. *)
From Coq Require Import Lia ZifyBool ZifyNat ZifyN.
From Verif Require Import Model_Base Model_Ctx Model_Parse Model_Regex Model_Shipped Spec_Regex Spec_Select Spec_Getters Spec_Charset
  Proof_Base Proof_Pattern Proof_Group Proof_Covers Proof_Shadow Proof_Index Proof_Bare Proof_Live Proof_Client Proof_OS Proof_Reports Proof_Tables.
Open Scope nat_scope.

Lemma nth_skip {A} k : forall (l : list A) i, nth_error (skipn k l) i = nth_error l (k + i).
Proof. induction k as [|k IH]; intros [|x l] i; cbn; auto. destruct i; reflexivity. Qed.

(** ** Characters of an expression *)
Section Chars.
Variable okr : list (N * N).
Definition okn (x : N) : bool := cls_mem false okr x.
Definition high : bool := forallb (fun b => okn (bn b)) (map (fun n => match Byte.of_N (N.of_nat n) with Some b => b | None => xff end) (seq 128 128)).

Fixpoint clean_re (r : re) : bool :=
  match r with
  | Cls neg rs => sub_cls neg rs false okr
  | Cat a b | Alt a b => if clean_re a then clean_re b else false
  | Star _ a | Grp _ a => clean_re a
  | _ => true
  end.
Lemma clean_parses r p t v w : parses r p t v w -> clean_re r = true -> Forall (fun x => okn (fst x) = true) v.
Proof.
  induction 1; cbn [clean_re]; intros C; try (constructor; fail).
  - constructor; [|constructor]. exact (sub_cls_ok _ _ _ _ _ C H).
  - destruct (clean_re a) eqn:A; [|discriminate C]. apply Forall_app. auto.
  - destruct (clean_re a) eqn:A; [|discriminate C]. auto.
  - destruct (clean_re a) eqn:A; [|discriminate C]. auto.
  - apply Forall_app. split; [auto|]. apply IHparses2. exact C.
  - auto.
Qed.

Lemma high_ok b : high = true -> (128 <= bn b)%N -> okn (bn b) = true.
Proof.
  unfold high. intros H L. rewrite forallb_forall in H. apply H. apply in_map_iff. exists (N.to_nat (bn b)). split.
  - rewrite N2Nat.id. unfold bn. rewrite Byte.of_to_N. reflexivity.
  - apply in_seq. pose proof (bn_lt b). lia.
Qed.

(** The bytes of a stretch of characters that are all fine. *)
Lemma fine_bytes : high = true -> forall v s w, runes s = v ++ w -> Forall (fun x => okn (fst x) = true) v ->
  forall i b, (Z.of_nat i < width v)%Z -> nth_error s i = Some b -> okn (bn b) = true.
Proof.
  intros Hh. induction v as [|[x k] v IH]; intros s w E F i b L N; [cbn [width] in L; lia|].
  destruct s as [|c s]; [destruct i; discriminate N|]. rewrite runes_cons in E.
  destruct (decode_rune (c :: s)) as [r k'] eqn:D. cbn [app] in E. injection E as -> -> E. inversion F as [|? ? Fx Fv]; subst. cbn [fst] in Fx. cbn [width] in L.
  destruct (N.lt_ge_cases (bn b) 128) as [B|B]; [|apply high_ok; assumption].
  destruct (PeanoNat.Nat.lt_ge_cases i k) as [I|I].
  - pose proof (decode_width c s i b) as W. rewrite D in W. cbn [snd] in W. destruct (W I N B) as [-> ->]. cbn in N. injection N as ->.
    rewrite decode_ascii in D by exact B. injection D as ->. exact Fx.
  - apply (IH _ _ E Fv (i - k) b); [lia|]. rewrite nth_skip. replace (k + (i - k)) with i by lia. exact N.
Qed.

Lemma flat_pairs {A} (f : A -> Z * Z) l : forall k, nth_error (flat_map (fun n => [fst (f n); snd (f n)]) l) (2 * k) = option_map (fun n => fst (f n)) (nth_error l k) /\
  nth_error (flat_map (fun n => [fst (f n); snd (f n)]) l) (2 * k + 1) = option_map (fun n => snd (f n)) (nth_error l k).
Proof.
  induction l as [|x l IH]; intros k; [split; [destruct (2 * k)|destruct (2 * k + 1)]; destruct k; reflexivity|].
  destruct k as [|k]; [split; reflexivity|]. destruct (IH k) as [H1 H2]. replace (2 * S k) with (S (S (2 * k))) by lia.
  split; [exact H1|exact H2].
Qed.
Lemma groups_nth ng p t k lo hi : nth_error (groups ng p t) (2 * S k) = Some lo -> nth_error (groups ng p t) (2 * S k + 1) = Some hi -> (0 <= lo)%Z ->
  group_of (S k) p t = Some (lo, hi).
Proof.
  unfold groups. set (f := fun n => match group_of n p t with Some x => x | None => ((-1), (-1))%Z end).
  rewrite (flat_map_ext _ (fun n => [fst (f n); snd (f n)])) by (intros n; unfold f; destruct (group_of n p t) as [[a b]|]; reflexivity).
  replace (2 * S k + 1) with (S (S (2 * k + 1))) by lia. replace (2 * S k) with (S (S (2 * k))) by lia. cbn [nth_error].
  destruct (flat_pairs f (seq 1 ng) k) as [-> ->]. destruct (nth_error (seq 1 ng) k) as [n|] eqn:N; [|discriminate]. cbn [option_map].
  assert (n = S k) as ->.
  { assert (k < ng) by (rewrite <- (seq_length ng 1); apply nth_error_Some; rewrite N; discriminate).
    apply nth_error_nth with (d := 0) in N. rewrite seq_nth in N by assumption. lia. }
  unfold f. destruct (group_of (S k) p t) as [[a b]|]; cbn [fst snd]; [congruence|]. intros [= <-]. lia.
Qed.

Definition clean_group (t : Proof_Index.tree regex) (ri i : Z) : bool :=
  match look t ri with
  | Some r => match parse_re (re_src r) with
      | Some (a, _) => if (i =? 0)%Z then clean_re a else forallb clean_re (bodies (Z.to_nat i) a)
      | None => true
      end
  | None => false
  end.
Definition oks (s : bytes) : Prop := Forall (fun b => okn (bn b) = true) s.
Lemma clean_group_ok res ri i r ua m s : high = true -> compiled res -> (0 <= ri)%Z -> clean_group (numbered res) ri i = true ->
  nth_error res (Z.to_nat ri) = Some r -> re_find r ua = Some m -> captured m i ua s -> oks s.
Proof.
  intros Hh Co R0 C N F (A & B & Eu & I0 & Lo & Hi). unfold clean_group in C.
  destruct (look (numbered res) ri) as [r'|] eqn:K; [|discriminate C]. apply look_nth in K; [|exact R0].
  rewrite K in N. injection N as ->. rewrite (Co r (nth_error_In _ _ K)) in F.
  destruct (parse_re (re_src r)) as [[a ng]|] eqn:P.
  2: { unfold compile in F. cbn [re_find] in F. rewrite P in F. discriminate F. }
  apply (compile_best _ _ _ ua m P) in F as (p & t & (u & v & w & E & Ep & Pa & _) & ->).
  assert (Wp : forall x, (0 <= width x)%Z) by (clear; intros x; induction x as [|[? ?] ? ?]; cbn [width]; lia).
  assert (G : exists u' v' w', runes ua = u' ++ v' ++ w' /\ width u' = Z.of_nat (length A) /\ width v' = Z.of_nat (length s) /\ Forall (fun x => okn (fst x) = true) v').
  { destruct (i =? 0)%Z eqn:I.
    - apply Z.eqb_eq in I. subst i. cbn in Lo, Hi. injection Lo as Lo. injection Hi as Hi. pose proof (parses_size _ _ _ _ _ Pa) as Sz.
      exists u, v, w. split; [exact E|]. split; [lia|]. split; [lia|]. exact (clean_parses _ _ _ _ _ Pa C).
    - apply Z.eqb_neq in I. destruct (Z.to_nat i) as [|k] eqn:Ki; [lia|].
      pose proof (groups_nth ng p t k _ _ Lo Hi ltac:(lia)) as G.
      destruct (group_body _ _ _ _ _ _ Pa _ _ G) as (b & tb & v1 & va & w1 & Ib & -> & L1 & L2 & Pb).
      exists (u ++ v1), va, (w1 ++ w). rewrite forallb_forall in C. split; [rewrite E, <- !app_assoc; reflexivity|].
      rewrite width_app. split; [lia|]. split; [lia|]. exact (clean_parses _ _ _ _ _ Pb (C _ Ib)). }
  destruct G as (u' & v' & w' & R & Wu & Wv & Fv). apply runes_skip in R. rewrite Eu, Wu, Nat2Z.id, skipn_app, skipn_all, PeanoNat.Nat.sub_diag in R. cbn [app skipn] in R.
  apply Forall_forall. intros b Ib. apply In_nth_error in Ib as [j Ij].
  apply (fine_bytes Hh v' (s ++ B) w' R Fv j b).
  - assert (j < length s) by (apply nth_error_Some; rewrite Ij; discriminate). lia.
  - rewrite nth_error_app1; [exact Ij|]. apply nth_error_Some. rewrite Ij. discriminate.
Qed.

(** Constant texts. *)
Definition clean_text (ps : Proof_Index.tree bytes) (e : N) : bool :=
  match cut ps e with [] => false | s => forallb (fun b => okn (bn b)) s end.
Lemma clean_text_ok n buf e s : clean_text (numbered (pages n buf)) e = true -> text buf e s -> oks s.
Proof.
  unfold clean_text. intros C X. apply (cut_ok n) in X. destruct (cut (numbered (pages n buf)) e) as [|c l] eqn:K; [discriminate C|].
  destruct X as [<-|X]; [|discriminate X]. apply Forall_forall. rewrite forallb_forall in C. exact C.
Qed.

(** ** Browser versions *)
Definition clean_client (t : Proof_Index.tree regex) (ps : Proof_Index.tree bytes) (x : clientTuple) : bool :=
  if (ct_matchRI x <? 0)%Z then true else
  if negb (ct_version64 x =? 0)%N then clean_text ps (ct_version64 x) else
  if (ct_browserVI x =? -1)%Z then true else clean_group t (ct_matchRI x) (ct_browserVI x).
Lemma clean_fragment T ua x s n : high = true -> compiled (cr_re T) -> clean_client (numbered (cr_re T)) (numbered (pages n (cr_buf T))) x = true ->
  client_fragment T ua x s -> oks s.
Proof.
  unfold clean_client. intros Hh Co C F. destruct F as [M|s M V X|M V I|r m s M V I N F X|r m M V I N F X]; try (constructor; fail).
  - replace (ct_matchRI x <? 0)%Z with false in C by lia. replace (ct_version64 x =? 0)%N with false in C by lia. exact (clean_text_ok _ _ _ _ C X).
  - replace (ct_matchRI x <? 0)%Z with false in C by lia. rewrite V in C. cbn [N.eqb negb] in C. replace (ct_browserVI x =? -1)%Z with false in C by lia.
    exact (clean_group_ok _ _ _ _ _ _ _ Hh Co M C N F X).
Qed.
Lemma oks_version s out : version_of_fragment s out -> oks s -> oks out.
Proof.
  intros (rest & n & H & E & _) O. assert (oks rest) as R.
  { destruct H as [[_ ->]|(pre & -> & _)]; [exact O|]. apply Forall_app in O as [_ O]. inversion O; assumption. }
  rewrite E in R. apply Forall_app in R as [R _]. exact R.
Qed.

(** ** Operating system versions *)
Variable lits : list bytes.
Definition known_text (ps : Proof_Index.tree bytes) (e : N) : bool :=
  if clean_text ps e then true else match cut ps e with [] => false | s => existsb (beqs s) lits end.
Lemma known_text_ok n buf e s : known_text (numbered (pages n buf)) e = true -> text buf e s -> oks s \/ In s lits.
Proof.
  unfold known_text. destruct (clean_text _ e) eqn:C; [intros _ X; left; exact (clean_text_ok _ _ _ _ C X)|]. intros K X.
  apply (cut_ok n) in X. destruct (cut (numbered (pages n buf)) e) as [|c l] eqn:E; [discriminate K|].
  destruct X as [<-|X]; [|discriminate X]. apply existsb_exists in K as (y & I & Y). apply beqs_eq in Y as <-. auto.
Qed.
Definition clean_sub (t : Proof_Index.tree regex) (ps : Proof_Index.tree bytes) (v : osVersionTuple) : bool :=
  if (if (ov_matchRI v <? 0)%Z then true else (ov_versionSI v =? -1)%Z) then known_text ps (ov_version64 v)
  else clean_group t (ov_matchRI v) (ov_versionSI v).
Definition clean_os (t : Proof_Index.tree regex) (ps : Proof_Index.tree bytes) (x : osTuple) : bool :=
  if negb (ot_version64 x =? 0)%N then known_text ps (ot_version64 x) else
  if (ot_matchRI x <? 0)%Z then true else
  if (ot_versionSI x =? -1)%Z then true else clean_group t (ot_matchRI x) (ot_versionSI x).
Section OS.
Variable T : tables.
Variable n : nat.
Let t := numbered (or_re T).
Let ps := numbered (pages n (or_buf T)).
Hypothesis Hh : high = true.
Hypothesis Co : compiled (or_re T).
Lemma found_group ri i m ua s : clean_group t ri i = true -> finds T ri ua m -> group_text m i ua s -> oks s.
Proof. intros C (R0 & r & N & F) (_ & X). exact (clean_group_ok _ _ _ _ _ _ _ Hh Co R0 C N F X). Qed.
Lemma entry_ok x m ua s : clean_os t ps x = true -> ot_version64 x = 0%N -> finds T (ot_matchRI x) ua m -> entry_group m x ua s -> oks s.
Proof.
  unfold clean_os. intros C V F [G|[_ ->]]; [|constructor]. rewrite V in C. cbn [N.eqb negb] in C. pose proof (proj1 F). pose proof (proj1 G).
  replace (ot_matchRI x <? 0)%Z with false in C by lia. replace (ot_versionSI x =? -1)%Z with false in C by lia. exact (found_group _ _ _ _ _ C F G).
Qed.
Lemma range_in {A} (l : list A) e v : In v (range_of l e) -> In v l.
Proof. unfold range_of. intros I. rewrite <- (firstn_skipn (N.to_nat (e / 4294967296)) l). apply in_or_app. right.
  rewrite <- (firstn_skipn (N.to_nat (e mod 4294967296 - e / 4294967296)) (skipn _ l)). apply in_or_app. left. exact I. Qed.
Lemma clean_version ua x s : clean_os t ps x = true -> (forall v, In v (or_ov T) -> clean_sub t ps v = true) ->
  os_version_is T ua x s -> oks s \/ In s lits.
Proof.
  intros C Sub H. assert (Su : forall v, first (ov_applies T ua) (subversions T x) v -> clean_sub t ps v = true).
  { intros v (l1 & l2 & E & _). apply Sub. apply (range_in _ (ot_versions64 x)). unfold subversions in E. rewrite E. apply in_elt. }
  destruct H as [s V X|V M|m s V F _ G|m v s V F _ Fi K X|m v mv s V F _ Fi Fv G|m v mv s V F _ Fi Fv _ _ G].
  - unfold clean_os in C. replace (ot_version64 x =? 0)%N with false in C by lia. exact (known_text_ok _ _ _ _ C X).
  - left. constructor.
  - left. exact (entry_ok _ _ _ _ C V F G).
  - apply Su in Fi. unfold clean_sub in Fi. replace (if (ov_matchRI v <? 0)%Z then true else (ov_versionSI v =? -1)%Z) with true in Fi by (destruct (ov_matchRI v <? 0)%Z eqn:Y; lia).
    exact (known_text_ok _ _ _ _ Fi X).
  - left. apply Su in Fi. unfold clean_sub in Fi. pose proof (proj1 Fv). pose proof (proj1 G).
    replace (if (ov_matchRI v <? 0)%Z then true else (ov_versionSI v =? -1)%Z) with false in Fi by (destruct (ov_matchRI v <? 0)%Z eqn:Y; lia).
    exact (found_group _ _ _ _ _ Fi Fv G).
  - left. exact (entry_ok _ _ _ _ C V F G).
Qed.
End OS.
End Chars.

(** ** The shipped tables *)
Definition letters_digits : list (N * N) := [(48, 57); (65, 90); (97, 122); (128, 1114111)]%N.
Definition browser_chars : list (N * N) := ((43, 43) :: (45, 46) :: (95, 95) :: letters_digits)%N.
Definition os_chars : list (N * N) := ((32, 32) :: (46, 46) :: (95, 95) :: letters_digits)%N.
Definition bad_clients (T : tables) : list (nat * nat) :=
  let t := numbered (cr_re T) in let ps := numbered (pages 200 (cr_buf T)) in
  flat_map (fun ki => map (fun jx => (fst ki, fst jx)) (filter (fun jx => negb (clean_client browser_chars t ps (snd jx))) (combine (seq 0 (length (snd ki))) (snd ki))))
    (combine (seq 0 7) (cr_idx T)).
Definition os_fine (lits : list bytes) (T : tables) : bool :=
  let t := numbered (or_re T) in let ps := numbered (pages 200 (or_buf T)) in
  if forallb (clean_os os_chars lits t ps) (or_os T) then forallb (clean_sub os_chars lits t ps) (or_ov T) else false.
Definition placeholders : list bytes := [bs "26.$1"; bs "18.$1"; bs "17.$1"; bs "16.$1"; bs "15.$1"; bs "14.$1"; bs "13.$1"; bs "10.15.$1"; bs "10.11.$1"; bs "10.10.$1"; bs "Server $1"].

Lemma plain_of also okr : forallb (fun b => if okn okr (bn b) then existsb (Byte.eqb b) also || (48 <=? bn b)%N && (bn b <=? 57)%N || (65 <=? bn b)%N && (bn b <=? 90)%N || (97 <=? bn b)%N && (bn b <=? 122)%N || (128 <=? bn b)%N else true)
  (map (fun n => match Byte.of_N (N.of_nat n) with Some b => b | None => x00 end) (seq 0 256)) = true ->
  forall s, oks okr s -> Forall (plain also) s.
Proof.
  intros H s. apply Forall_impl. intros b K. rewrite forallb_forall in H. specialize (H b). rewrite K in H.
  assert (I : In b (map (fun n => match Byte.of_N (N.of_nat n) with Some b => b | None => x00 end) (seq 0 256))).
  { apply in_map_iff. exists (N.to_nat (bn b)). split; [rewrite N2Nat.id; unfold bn; rewrite Byte.of_to_N; reflexivity|]. apply in_seq. pose proof (bn_lt b). lia. }
  apply H in I. unfold plain, ascii_digit, ascii_letter, byte_in.
  destruct (existsb (Byte.eqb b) also) eqn:X; [|lia]. apply existsb_exists in X as (y & Iy & Y). apply Byte.byte_dec_bl in Y as ->. auto.
Qed.

Lemma clients_bad : bad_clients shipped = [(1, 411)].
Proof. vm_cast_no_check (eq_refl [(1, 411)]). Qed.
Lemma os_all_fine : os_fine placeholders shipped = true.
Proof. vm_cast_no_check (eq_refl true). Qed.

Lemma in_numbered {A} (l : list A) : forall a n j x, nth_error l j = Some x -> j < n -> In (a + j, x) (combine (seq a n) l).
Proof.
  induction l as [|y l IH]; intros a n j x E L; [destruct j; discriminate E|]. destruct n as [|n]; [lia|]. cbn [seq combine].
  destruct j as [|j]; cbn in E; [left; rewrite PeanoNat.Nat.add_0_r; congruence|]. right. replace (a + S j) with (S a + j) by lia. apply IH; [exact E|lia].
Qed.
Lemma first_nth {A} (P : A -> Prop) l x : first P l x -> exists j, nth_error l j = Some x.
Proof. intros (l1 & l2 & -> & _). exists (length l1). rewrite nth_error_app2 by lia. rewrite PeanoNat.Nat.sub_diag. reflexivity. Qed.

Section Shipped.
Variable T : tables.
Hypothesis Sane : client_sane T.
Hypothesis OSane : os_sane T.
Hypothesis Cc : compiled (cr_re T).
Hypothesis Co : compiled (or_re T).
Hypothesis Seven : length (cr_idx T) <= 7.
Hypothesis Bad : bad_clients T = [(1, 411)].
Hypothesis Fine : os_fine placeholders T = true.
Lemma bad_in k j ir x : nth_error (cr_idx T) k = Some ir -> nth_error ir j = Some x ->
  clean_client browser_chars (numbered (cr_re T)) (numbered (pages 200 (cr_buf T))) x = false -> (k, j) = (1, 411).
Proof.
  intros K J C. assert (I : In (k, j) (bad_clients T)).
  { unfold bad_clients. apply in_flat_map. exists (k, ir). split.
    - apply (in_numbered (cr_idx T) 0 7 k ir K). assert (k < length (cr_idx T)) by (apply nth_error_Some; rewrite K; discriminate). lia.
    - apply in_map_iff. exists (j, x). split; [reflexivity|]. apply filter_In. split; [|cbn [snd]; rewrite C; reflexivity].
      apply (in_numbered ir 0 (length ir) j x J). apply nth_error_Some. rewrite J. discriminate. }
  rewrite Bad in I. destruct I as [I|[]]. symmetry. exact I.
Qed.
Lemma browser_clean mC mD h ua s : small ua -> alone T mC mD h ua GBrowserVersionString = Ok (VB s) ->
  Forall (plain [x2b; x2d; x2e; x5f]) s \/
  exists ir x, client_is T mC ua 1 1 x /\ nth_error (cr_idx T) 1 = Some ir /\ nth_error ir 411 = Some x.
Proof.
  intros L H. destruct (browser_version T mC mD h ua Sane L s H) as [[_ ->]|(t & idx & x & fr & C & F & V)]; [left; constructor|].
  destruct (clean_client browser_chars (numbered (cr_re T)) (numbered (pages 200 (cr_buf T))) x) eqn:K.
  - left. apply (plain_of _ browser_chars); [vm_compute; reflexivity|]. apply (oks_version _ _ _ V).
    refine (clean_fragment browser_chars T ua x fr 200 _ Cc K F). vm_compute. reflexivity.
  - right. destruct (C) as (be & af & ir & Or & _ & _ & N & Fi). destruct (first_nth _ _ _ Fi) as [j J]. pose proof (bad_in _ _ _ _ N J K) as E.
    injection E as -> ->. exists ir, x. assert (t = 1%N) as ->.
    { clear - Or. assert (I : In (t, 1) client_order) by (rewrite Or; apply in_elt). cbn in I. intuition congruence. }
    auto.
Qed.
Lemma os_clean mC mD h ua s : small ua -> alone T mC mD h ua GOSVersionString = Ok (VB s) ->
  Forall (plain [x20; x2e]) s \/ In s placeholders.
Proof.
  intros L H. destruct (os_version_clean T mC mD h ua s OSane L H) as (U & v & X & Dv).
  assert (K : oks os_chars v \/ In v placeholders).
  { destruct X as [[_ ->]|(x & Ix & Vx)]; [left; constructor|]. pose proof Fine as F. unfold os_fine in F.
    destruct (forallb (clean_os _ _ _ _) (or_os T)) eqn:F1; [|discriminate F]. rewrite forallb_forall in F1, F.
    destruct Ix as (l1 & l2 & E & _). apply (clean_version os_chars placeholders T 200 ltac:(vm_compute; reflexivity) Co ua x v); [|exact F|exact Vx].
    apply F1. rewrite E. apply in_elt. }
  destruct Dv as [Ln D]. destruct K as [K|K].
  - left. assert (P : Forall (plain [x20; x2e; x5f]) v) by (apply (plain_of _ os_chars); [vm_compute; reflexivity|exact K]).
    rewrite Forall_forall in *. intros b Ib. apply In_nth_error in Ib as [i I].
    destruct (nth_error v i) as [c|] eqn:Vi; [|apply nth_error_None in Vi; rewrite <- Ln in Vi; apply nth_error_None in Vi; congruence].
    destruct (D i c Vi) as [D1 D2]. destruct (Byte.byte_eq_dec c x5f) as [E|E].
    + rewrite (D1 E) in I. injection I as <-. right. right. left. right. left. reflexivity.
    + rewrite (D2 E) in I. injection I as <-. destruct (P c (nth_error_In _ _ Vi)) as [Q|[Q|[Q|Q]]]; [left; exact Q|right; left; exact Q| |right; right; right; exact Q].
      right. right. left. destruct Q as [Q|[Q|[Q|[]]]]; [left; exact Q|right; left; exact Q|congruence].
  - right. replace s with v; [exact K|]. assert (Nu : ~ In x5f v).
    { clear - K. unfold placeholders in K. intros I. repeat (destruct K as [<-|K]; [cbn in I; intuition discriminate|]). exact K. }
    clear - Ln D Nu. revert s Ln D. induction v as [|c v IH]; intros [|b s] Ln D; try discriminate Ln; [reflexivity|].
    pose proof (proj2 (D 0 c eq_refl)) as D0. cbn in D0. assert (c <> x5f) as Nc by (intros ->; apply Nu; left; reflexivity). specialize (D0 Nc). injection D0 as ->.
    f_equal. apply IH; [intros I; apply Nu; right; exact I|cbn in Ln; congruence|]. intros i d Hd. exact (D (S i) d Hd).
Qed.
End Shipped.

Lemma shipped_seven : length (cr_idx shipped) <= 7.
Proof. apply PeanoNat.Nat.leb_le. vm_compute. reflexivity. Qed.
Lemma shipped_browser_clean mC mD h ua s : small ua -> alone shipped mC mD h ua GBrowserVersionString = Ok (VB s) ->
  Forall (plain [x2b; x2d; x2e; x5f]) s \/
  exists ir x, client_is shipped mC ua 1 1 x /\ nth_error (cr_idx shipped) 1 = Some ir /\ nth_error ir 411 = Some x.
Proof. exact (browser_clean shipped shipped_client_sane cr_compiled shipped_seven clients_bad mC mD h ua s). Qed.
Lemma shipped_os_clean mC mD h ua s : small ua -> alone shipped mC mD h ua GOSVersionString = Ok (VB s) ->
  Forall (plain [x20; x2e]) s \/ In s placeholders.
Proof. exact (os_clean shipped shipped_os_sane or_compiled os_all_fine mC mD h ua s). Qed.

(** A version that is not plain. *)
Lemma not_plain also s b : In b s -> existsb (Byte.eqb b) also || (48 <=? bn b)%N && (bn b <=? 57)%N || (65 <=? bn b)%N && (bn b <=? 90)%N || (97 <=? bn b)%N && (bn b <=? 122)%N || (128 <=? bn b)%N = false ->
  ~ Forall (plain also) s.
Proof.
  intros I N F. rewrite Forall_forall in F. specialize (F b I). unfold plain, ascii_digit, ascii_letter, byte_in in F.
  destruct F as [F|[F|[F|F]]]; try lia. assert (X : existsb (Byte.eqb b) also = true); [|rewrite X in N; discriminate N].
  apply existsb_exists. exists b. split; [exact F|]. apply Byte.byte_dec_lb. reflexivity.
Qed.

(** Each text with a placeholder is reported for some user agent. *)
Definition reported (T : tables) (p : bytes * bytes) : bool :=
  if (length (snd p) <? 100)%nat then match alone T 63 1023 0 (snd p) GOSVersionString with Ok (VB s) => beqs s (fst p) | _ => false end else false.
Definition placeholder_agents : list (bytes * bytes) :=
  [(bs "26.$1", bs "CFNetwork/1 Darwin/25.1.0"); (bs "18.$1", bs "CFNetwork/1 Darwin/24.1.0"); (bs "17.$1", bs "CFNetwork/1 Darwin/23.1.0");
   (bs "16.$1", bs "CFNetwork/1 Darwin/22.1.0"); (bs "15.$1", bs "CFNetwork/1 Darwin/21.1.0"); (bs "14.$1", bs "x86_64-apple-Darwin23.1.0");
   (bs "13.$1", bs "CFNetwork/1 Darwin/19.4.0"); (bs "10.15.$1", bs "x86_64-apple-Darwin19.4.0"); (bs "10.11.$1", bs "x86_64-apple-Darwin15.3.0");
   (bs "10.10.$1", bs "x86_64-apple-Darwin14.3.0"); (bs "Server $1", bs "Windows-2019Server")].
Lemma all_reported : forallb (reported shipped) placeholder_agents = true.
Proof. vm_cast_no_check (eq_refl true). Qed.
Lemma reported_ok T p : reported T p = true -> small (snd p) /\ alone T 63 1023 0 (snd p) GOSVersionString = Ok (VB (fst p)).
Proof.
  unfold reported. destruct (length (snd p) <? 100)%nat eqn:L; [|discriminate]. destruct (alone _ _ _ _ _ _) as [[?|?|?]|]; try discriminate.
  intros E. apply beqs_eq in E as ->. split; [|reflexivity]. apply PeanoNat.Nat.ltb_lt in L. unfold Spec_Select.small. lia.
Qed.
Lemma placeholder_exact T : (forall mC mD h ua s, small ua -> alone T mC mD h ua GOSVersionString = Ok (VB s) -> Forall (plain [x20; x2e]) s \/ In s placeholders) ->
  forallb (reported T) placeholder_agents = true ->
  forall s, In x24 s -> ((exists mC mD h ua, small ua /\ alone T mC mD h ua GOSVersionString = Ok (VB s)) <-> In s placeholders).
Proof.
  intros C R s D. split.
  - intros (mC & mD & h & ua & Sm & A). destruct (C _ _ _ _ _ Sm A) as [F|I]; [|exact I]. exfalso. revert F. apply (not_plain _ _ x24 D). reflexivity.
  - intros I. assert (J : exists ua, In (s, ua) placeholder_agents).
    { change placeholders with (map fst placeholder_agents) in I. apply in_map_iff in I as ([s' ua] & E & I). cbn in E. subst s'. exists ua. exact I. }
    destruct J as [ua J]. rewrite forallb_forall in R. destruct (reported_ok _ _ (R _ J)) as [Sm A]. exists 63%N, 1023%N, 0%N, ua. auto.
Qed.
Lemma small_100 (ua : bytes) : (length ua <? 100)%nat = true -> small ua.
Proof. intros L. apply PeanoNat.Nat.ltb_lt in L. unfold small. lia. Qed.
Lemma member (b : byte) (s : bytes) : existsb (Byte.eqb b) s = true -> In b s.
Proof. intros X. apply existsb_exists in X as (y & I & Y). apply Byte.byte_dec_bl in Y as ->. exact I. Qed.

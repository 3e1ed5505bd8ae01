(** Removing look-arounds from a pattern. *)
From Coq Require Import Lia Strings.Byte.
From Verif Require Import Model_Base Model_Compiler Spec_Compiler Spec_Strip Proof_Base Proof_Compiler.

Lemma beq_no a b : a <> b -> beq a b = false.
Proof. intros N. destruct (beq a b) eqn:E; [|reflexivity]. apply beq_eq in E. contradiction. Qed.
Lemma beq_yes a : beq a a = true.
Proof. apply beq_eq. reflexivity. Qed.

Lemma closing_bracketed esc body : bracketed esc body -> forall prev rest i bo bc, prev <> x5c -> (bc < bo)%nat ->
  exists last n, last <> x5c /\ closing esc prev (body ++ rest) i bo bc = closing esc last rest (i + length body) (bo + n) (bc + n).
Proof.
  intros B. induction B as [|c b N1 N2 N3 _ IH|c b N1 N2 _ IH|a b _ IHa _ IHb]; intros prev rest i bo bc P L.
  - exists prev, 0%nat. split; [exact P|]. cbn [app length]. f_equal; lia.
  - cbn [app closing]. cbv zeta. rewrite (beq_no c x28 N1), (beq_no c x29 N2). cbn [andb]. replace (bo =? bc)%nat with false by (symmetry; apply PeanoNat.Nat.eqb_neq; lia).
    destruct (IH c rest (S i) bo bc N3 L) as (last & n & NL & E). exists last, n. split; [exact NL|]. rewrite E. f_equal. cbn [length]. lia.
  - cbn [app closing]. cbv zeta. change (beq x5c x28) with false. change (beq x5c x29) with false. change (beq x5c x5c) with true. cbn [andb negb].
    rewrite !Bool.andb_true_r, Bool.andb_false_r. replace (bo =? bc)%nat with false by (symmetry; apply PeanoNat.Nat.eqb_neq; lia).
    assert (Q : beq c x28 && negb esc = false).
    { destruct (beq c x28) eqn:Q; [|reflexivity]. apply beq_eq in Q. rewrite (N2 Q). reflexivity. }
    rewrite Q. replace (bo =? bc)%nat with false by (symmetry; apply PeanoNat.Nat.eqb_neq; lia).
    destruct (IH c rest (S (S i)) bo bc N1 L) as (last & n & NL & E). exists last, n. split; [exact NL|]. rewrite E. f_equal. cbn [length]. lia.
  - cbn [app]. rewrite <- app_assoc. cbn [app closing]. cbv zeta. change (beq x28 x28) with true. change (beq x28 x29) with false. rewrite (beq_no prev x5c P), Bool.andb_false_r. cbn [andb negb].
    replace (S bo =? bc)%nat with false by (symmetry; apply PeanoNat.Nat.eqb_neq; lia).
    destruct (IHa x28 (x29 :: b ++ rest) (S i) (S bo) bc ltac:(discriminate) ltac:(lia)) as (last & n & NL & E). rewrite E. cbn [closing]. cbv zeta.
    change (beq x29 x28) with false. change (beq x29 x29) with true. rewrite (beq_no last x5c NL). cbn [andb negb].
    replace (S bo + n =? S (bc + n))%nat with false by (symmetry; apply PeanoNat.Nat.eqb_neq; lia).
    destruct (IHb x29 rest (S (S i + length a)) (S bo + n) (S (bc + n)) ltac:(discriminate) ltac:(lia)) as (last2 & n2 & NL2 & E2). exists last2, (S (n + n2)).
    split; [exact NL2|]. rewrite E2. f_equal; cbn [length]; [rewrite app_length; cbn [length]|..]; lia.
Qed.

(** The first occurrence of an opener is where it stands. *)
Lemma index_first o x : ~ In x28 o -> forall p t, ~ within (x28 :: o) p -> bytes_index (p ++ ((x28 :: o) ++ x) ++ t) ((x28 :: o) ++ x) = Some (length p).
Proof.
  intros NI. induction p as [|c p IH]; intros t NW.
  - cbn [app length]. assert (H : has_prefix ((x28 :: o ++ x) ++ t) (x28 :: o ++ x) = true) by (apply has_prefix_iff; exists t; reflexivity).
    cbn [app] in H |- *. cbn [bytes_index]. rewrite H. reflexivity.
  - cbn [app length]. cbn [bytes_index].
    assert (H : has_prefix (c :: p ++ (x28 :: o ++ x) ++ t) (x28 :: o ++ x) = false).
    { destruct (has_prefix _ _) eqn:H; [|reflexivity]. exfalso. apply has_prefix_iff in H as (t' & H). cbn [app] in H. injection H as HC H. subst c.
      rewrite <- !app_assoc in H. assert (G : forall p o r t', ~ In x28 o -> p ++ x28 :: r = o ++ t' -> exists q, p = o ++ q).
      { clear. induction p as [|d p IH]; intros o r t' NI H.
        - destruct o as [|e o]; [exists []; reflexivity|]. cbn in H. injection H as HE _. exfalso. apply NI. left. symmetry. exact HE.
        - destruct o as [|e o]; [exists (d :: p); reflexivity|]. cbn in H. injection H as HE H. subst e. destruct (IH o r t' (fun F => NI (or_intror F)) H) as (q & ->).
          exists q. reflexivity. }
      destruct (G p o _ _ NI H) as (q & ->). apply NW. exists [], q. reflexivity. }
    cbn [app] in H |- *. rewrite H. cbn [app] in IH. rewrite IH; [reflexivity|]. intros (a & b & ->). apply NW. exists (c :: a), b. reflexivity.
Qed.
(** ... and so the look-around there is removed as a whole. *)
Lemma strip_first esc o y body p q : ~ In x28 o -> ~ within (x28 :: o) p -> bracketed esc (o ++ y ++ body) ->
  bytes_index (p ++ ((x28 :: o) ++ y) ++ body ++ x29 :: q) (x28 :: o) = Some (length p) /\
  strip_at esc (length p) (p ++ ((x28 :: o) ++ y) ++ body ++ x29 :: q) = Ok (p ++ q).
Proof.
  intros NI NW B. set (s := p ++ ((x28 :: o) ++ y) ++ body ++ x29 :: q). split.
  - pose proof (index_first o [] NI p (y ++ body ++ x29 :: q) NW) as H. rewrite app_nil_r in H. unfold s. rewrite <- (app_assoc (x28 :: o) y). exact H.
  - set (ss := (x28 :: o) ++ (y ++ body ++ [x29])).
    assert (Es : s = p ++ ss ++ q). { unfold s, ss. rewrite <- !app_assoc. reflexivity. }
    assert (Lss : length ss = S (S (length (o ++ y ++ body)))). { unfold ss. cbn [app length]. rewrite !app_length. cbn [length]. lia. }
    assert (Sk : skipn (length p) s = x28 :: (o ++ y ++ body) ++ x29 :: q).
    { rewrite Es, skipn_app, skipn_all, PeanoNat.Nat.sub_diag. cbn [skipn app]. unfold ss. cbn [app]. rewrite <- !app_assoc. reflexivity. }
    unfold strip_at. rewrite Sk. destruct (closing_bracketed esc _ B x28 (x29 :: q) (S (length p)) 1 0 ltac:(discriminate) ltac:(lia)) as (last & n & NL & E).
    rewrite E. cbn [closing]. cbv zeta. change (beq x29 x28) with false. change (beq x29 x29) with true. rewrite (beq_no last x5c NL). cbn [andb negb].
    replace (1 + n =? S (0 + n))%nat with true by (symmetry; apply PeanoNat.Nat.eqb_eq; lia).
    rewrite slice_ok; [|lia|rewrite Es, (app_length p), (app_length ss), Lss; lia]. f_equal. rewrite Nat2N.id.
    replace (N.to_nat (N.of_nat (S (S (length p) + length (o ++ y ++ body))) - N.of_nat (length p))) with (length ss) by lia.
    rewrite Es, skipn_app, skipn_all, PeanoNat.Nat.sub_diag. cbn [skipn app].
    rewrite firstn_app, firstn_all, PeanoNat.Nat.sub_diag. cbn [firstn]. rewrite app_nil_r.
    unfold remove_first. unfold ss at 1 2. rewrite (index_first o (y ++ body ++ [x29]) NI p q NW). fold ss.
    rewrite firstn_app, firstn_all, PeanoNat.Nat.sub_diag. cbn [firstn]. rewrite app_nil_r. f_equal.
    rewrite app_assoc, skipn_app, app_length, PeanoNat.Nat.sub_diag. rewrite skipn_all2 by (rewrite app_length; lia). reflexivity.
Qed.
Lemma bracketed_plain esc o b : (forall c, In c o -> c <> x28 /\ c <> x29 /\ c <> x5c) -> bracketed esc b -> bracketed esc (o ++ b).
Proof.
  intros N B. induction o as [|c o IH]; [exact B|]. destruct (N c (or_introl eq_refl)) as (N1 & N2 & N3). cbn [app]. apply B_plain; auto. apply IH. intros d D. apply N. right. exact D.
Qed.
Lemma strip_loop_cut esc o y : ~ In x28 o -> (forall c, In c (o ++ y) -> c <> x28 /\ c <> x29 /\ c <> x5c) -> forall s r, cut_all esc (x28 :: o) ((x28 :: o) ++ y) s r ->
  forall fuel, (length s < fuel)%nat -> strip_loop (x28 :: o) esc fuel s = Some (Ok r).
Proof.
  intros NI NP s r C. induction C as [r N|p body q r NW NE B C IH]; intros fuel L.
  - destruct fuel as [|f]; [lia|]. cbn [strip_loop]. apply index_within in N. rewrite N. reflexivity.
  - destruct fuel as [|f]; [lia|]. assert (B' : bracketed esc (o ++ y ++ body)) by (rewrite app_assoc; apply bracketed_plain; assumption).
    destruct (strip_first esc o y body p q NI NW B') as [E1 E2]. cbn [strip_loop]. rewrite E1, E2. apply IH.
    rewrite !app_length in L. cbn [length] in L. rewrite app_length. lia.
Qed.
(** What the detectors see. *)
Lemma first_close s : In x29 s -> exists a b, s = a ++ x29 :: b /\ ~ In x29 a.
Proof.
  induction s as [|c s IH]; intros H; [destruct H|]. destruct (beq c x29) eqn:E.
  - apply beq_eq in E. subst c. exists [], s. split; [reflexivity|]. intros [].
  - destruct H as [->|H]; [discriminate E|]. destruct (IH H) as (a & b & -> & N). exists (c :: a), b. split; [reflexivity|].
    intros [->|X]; [discriminate E|contradiction].
Qed.
Lemma seen_bracketed esc op p body q : body <> [] -> bracketed esc body -> seen_by op (p ++ op ++ body ++ x29 :: q).
Proof.
  intros NE B. assert (H : exists c b, body = c :: b /\ c <> x29).
  { destruct B as [|c b N1 N2 N3 _|c b _ _ _|a b _ _]; [contradiction|exists c, b; auto|eexists _, _; split; [reflexivity|discriminate]|eexists _, _; split; [reflexivity|discriminate]]. }
  destruct H as (c & b & -> & N). destruct (first_close (b ++ x29 :: q)) as (u & v & E & NU); [apply in_or_app; right; left; reflexivity|].
  exists p, (c :: u), v. cbn [app]. rewrite E. split; [reflexivity|]. split; [discriminate|]. intros [X|X]; [exact (N X)|exact (NU X)].
Qed.
Lemma seen_within op mark s : (exists y, op = mark ++ y) -> seen_by op s -> within mark s.
Proof. intros (y & ->) (a & body & b & -> & _). exists a, (y ++ body ++ x29 :: b). rewrite <- app_assoc. reflexivity. Qed.
Lemma detected_loop esc o y : ~ In x28 o -> (forall c, In c (o ++ y) -> c <> x28 /\ c <> x29 /\ c <> x5c) -> forall s r, cut_all esc (x28 :: o) ((x28 :: o) ++ y) s r ->
  (if detect ((x28 :: o) ++ y) s then strip_loop (x28 :: o) esc (S (length s)) s else Some (Ok s)) = Some (Ok r).
Proof.
  intros NI NP s r C. destruct (detect _ s) eqn:D; [apply (strip_loop_cut esc o y NI NP s r C); lia|]. destruct C as [r N|p body q r NW NE B C]; [reflexivity|].
  assert (X : detect ((x28 :: o) ++ y) (p ++ ((x28 :: o) ++ y) ++ body ++ x29 :: q) = true) by (apply detect_spec; exact (seen_bracketed esc _ p body q NE B)).
  rewrite X in D. discriminate D.
Qed.
Lemma detected_once s r : cut_one (bs "(?!.*") s r ->
  (if detect (bs "(?!.*") s then match bytes_index s (bs "(?!.*") with Some k => Some (strip_at false k s) | None => Some Panic end else Some (Ok s)) = Some (Ok r).
Proof.
  intros [x N|p body q NW NE B].
  - destruct (detect _ x) eqn:D; [|reflexivity]. apply detect_spec in D. contradiction.
  - assert (D : detect (bs "(?!.*") (p ++ bs "(?!.*" ++ body ++ x29 :: q) = true) by (apply detect_spec; exact (seen_bracketed false _ p body q NE B)). rewrite D.
    destruct (strip_first false (bs "?!.*") [] body p q) as [E1 E2].
    + intros F. repeat (destruct F as [F|F]; [discriminate F|]). exact F.
    + exact NW.
    + apply bracketed_plain; [|exact B]. intros c F. repeat (destruct F as [<-|F]; [repeat split; discriminate|]). destruct F.
    + rewrite app_nil_r in E1, E2. change (x28 :: bs "?!.*") with (bs "(?!.*") in E1, E2. rewrite E1, E2. reflexivity.
Qed.
Lemma squeeze_none s : ~ within (bs ")||(") s -> squeeze 0 s = s.
Proof.
  induction s as [|c r IH]; intros N; [reflexivity|]. destruct (squeeze_cases (c :: r)) as [(t & E & _)| ->].
  - exfalso. apply N. rewrite E. exists [], t. reflexivity.
  - f_equal. apply IH. intros (a & b & ->). apply N. exists (c :: a), b. reflexivity.
Qed.
Lemma normalize_exact s1 s2 s3 r : cut_all false (bs "(?<") (bs "(?<!") s1 s2 -> cut_one (bs "(?!.*") s2 s3 -> cut_all true (bs "(?!") (bs "(?!") s3 r ->
  ~ within (bs ")||(") r -> normalize s1 = Some (Ok r).
Proof.
  intros C1 C2 C3 N. unfold normalize.
  pose proof (detected_loop false (bs "?<") (bs "!")) as H1. change ((x28 :: bs "?<") ++ bs "!") with (bs "(?<!") in H1. change (x28 :: bs "?<") with (bs "(?<") in H1.
  rewrite (H1 ltac:(intros F; repeat (destruct F as [F|F]; [discriminate F|]); exact F)
    ltac:(intros c F; repeat (destruct F as [<-|F]; [repeat split; discriminate|]); destruct F) s1 s2 C1). cbn [obind].
  rewrite (detected_once s2 s3 C2). cbn [obind].
  pose proof (detected_loop true (bs "?!") []) as H3. rewrite !app_nil_r in H3. change (x28 :: bs "?!") with (bs "(?!") in H3.
  rewrite (H3 ltac:(intros F; repeat (destruct F as [F|F]; [discriminate F|]); exact F)
    ltac:(intros c F; repeat (destruct F as [<-|F]; [repeat split; discriminate|]); destruct F) s3 r C3). cbn [obind].
  rewrite (squeeze_none r N). reflexivity.
Qed.
Lemma not_within w s : contains_b s w = false -> ~ within w s.
Proof. intros H W. apply index_within in W; [exact W|]. unfold contains_b in H. destruct (bytes_index s w); [discriminate H|reflexivity]. Qed.
Lemma strip_example : exists s2 s3,
  cut_all false (bs "(?<") (bs "(?<!") (bs "A(?<!B)C(?!.*D(?:E|F))G(?!H\)I)J") s2 /\ cut_one (bs "(?!.*") s2 s3 /\ cut_all true (bs "(?!") (bs "(?!") s3 (bs "ACGJ").
Proof.
  exists (bs "AC(?!.*D(?:E|F))G(?!H\)I)J"), (bs "ACG(?!H\)I)J"). split; [|split].
  - apply (C_first false (bs "(?<") (bs "(?<!") (bs "A") (bs "B") (bs "C(?!.*D(?:E|F))G(?!H\)I)J") (bs "AC(?!.*D(?:E|F))G(?!H\)I)J")); [apply not_within; reflexivity|discriminate|repeat (apply B_plain; [discriminate..|]); apply B_end|].
    apply C_none. apply not_within. reflexivity.
  - apply (O_first (bs "(?!.*") (bs "AC") (bs "D(?:E|F)") (bs "G(?!H\)I)J")); [apply not_within; reflexivity|discriminate|].
    apply B_plain; [discriminate..|]. apply (B_pair _ (bs "?:E|F") []); [repeat (apply B_plain; [discriminate..|]); apply B_end|apply B_end].
  - apply (C_first true (bs "(?!") (bs "(?!") (bs "ACG") (bs "H\)I") (bs "J") (bs "ACGJ")); [apply not_within; reflexivity|discriminate| |apply C_none; apply not_within; reflexivity].
    apply B_plain; [discriminate..|]. apply B_escaped; [discriminate|discriminate|]. apply B_plain; [discriminate..|]. apply B_end.
Qed.
Lemma backslash_left : exists p body q, ~ within (bs "(?") (p ++ q) /\ body <> [] /\ bracketed_any body /\
  normalize (p ++ bs "(?!" ++ body ++ x29 :: q) = Some (Ok (p ++ bs "!" ++ body ++ x29 :: q)).
Proof.
  exists (bs "Foo"), (bs "Bar\\"), (bs "/"). split; [apply not_within; reflexivity|]. split; [discriminate|]. split; [|vm_compute; reflexivity].
  repeat (apply A_plain; [discriminate..|]). apply A_escaped. apply A_end.
Qed.

(** C59 for the structured versions: parsing texts that differ only in the case of letters. *)
From Coq Require Import ZifyN ZifyNat ZifyBool.
From Verif Require Import Model_Base Model_Version Model_Ctx Model_Parse Spec_Version Spec_Getters Spec_Structured Spec_Case
  Proof_Base Proof_Case Proof_Letters Proof_Structured.
Open Scope nat_scope.

Lemma letter_digit a b : same_letter a b -> is_digit a = is_digit b /\ (is_digit a = true -> a = b).
Proof.
  unfold same_letter, upper, is_digit. intros E.
  destruct ((97 <=? bn a) && (bn a <=? 122))%N eqn:A, ((97 <=? bn b) && (bn b <=? 122))%N eqn:B; (split; [lia|intros D; apply bn_inj; lia]).
Qed.
Lemma letters_value s t : same_letters s t -> forall acc, digits_value acc s = digits_value acc t.
Proof.
  induction 1 as [|a b s t E F IH]; intros acc; cbn; [reflexivity|]. destruct (letter_digit a b E) as [D D'].
  rewrite <- D. destruct (is_digit a) eqn:X; [|reflexivity]. rewrite (D' eq_refl). apply IH.
Qed.
Lemma letters_nil s t : same_letters s t -> length s = length t.
Proof. induction 1; cbn; congruence. Qed.
Definition unsigned (neg : bool) (ds : bytes) : option Z :=
  match ds with [] => None | _ => match digits_value 0 ds with None => None | Some n =>
     let z := (if neg then - n else n)%Z in
     if ((-9223372036854775808 <=? z) && (z <=? 9223372036854775807))%Z then Some z else None end end.
Lemma atoi_unsigned s : atoi s = match s with [] => None | c :: s' =>
   if beq c x2d then unsigned true s' else if beq c x2b then unsigned false s' else unsigned false s end.
Proof. destruct s as [|c s]; [reflexivity|]. unfold atoi. destruct (beq c x2d); [reflexivity|]. destruct (beq c x2b); reflexivity. Qed.
Lemma letters_unsigned n s t : same_letters s t -> unsigned n s = unsigned n t.
Proof. intros H. pose proof (letters_value s t H 0%Z) as V. destruct H; [reflexivity|]. unfold unsigned. rewrite V. reflexivity. Qed.
Lemma letters_atoi s t : same_letters s t -> atoi s = atoi t.
Proof.
  intros H. rewrite !atoi_unsigned. destruct H as [|a b s t E F]; [reflexivity|].
  rewrite (letter_beq x2d a b) by (cbn; auto || lia). rewrite (letter_beq x2b a b) by (cbn; auto || lia).
  rewrite (letters_unsigned true s t F), (letters_unsigned false s t F), (letters_unsigned false (a :: s) (b :: t)) by (constructor; assumption).
  reflexivity.
Qed.
Lemma letters_firstn n s t : same_letters s t -> same_letters (firstn n s) (firstn n t).
Proof. intros H. revert n. induction H; intros [|n]; cbn; constructor; [assumption|apply IHForall2]. Qed.
Lemma letters_skipn n s t : same_letters s t -> same_letters (skipn n s) (skipn n t).
Proof. intros H. revert n. induction H; intros [|n]; cbn; [constructor|constructor|constructor; assumption|apply IHForall2]. Qed.
Lemma letters_loop is : forall v s t, same_letters s t -> fst (parse_loop is v s) = fst (parse_loop is v t) /\
  match snd (parse_loop is v s), snd (parse_loop is v t) with Some x, Some y => same_letters x y | None, None => True | _, _ => False end.
Proof.
  induction is as [|i is IH]; intros v s t H; cbn [parse_loop]; [split; [reflexivity|exact H]|].
  rewrite (letters_index x2e s t) by (auto; cbn; lia). rewrite (letters_nil s t H).
  destruct (_ || _); [|apply IH; exact H]. destruct (index_byte t x2e) as [k|].
  - rewrite (letters_atoi _ _ (letters_firstn k s t H)). destruct (atoi (firstn k t)) as [d|]; [|split; [reflexivity|exact I]].
    apply IH. destruct (k <? length t); [apply letters_skipn; exact H|constructor].
  - rewrite (letters_atoi _ _ (letters_firstn (length t) s t H)). destruct (atoi _) as [d|]; [|split; [reflexivity|exact I]].
    apply IH. destruct (length t <? length t); [apply letters_skipn; exact H|constructor].
Qed.
Lemma letters_mark s t : same_letters s t -> index_space_hyphen s = index_space_hyphen t.
Proof.
  induction 1 as [|a b s t E F IH]; [reflexivity|]. cbn.
  rewrite (letter_beq x20 a b), (letter_beq x2d a b), IH by (auto; cbn; lia). reflexivity.
Qed.
Lemma version_same_refl v : same_version v v.
Proof. repeat split. apply letters_refl. Qed.
Lemma letters_parse v s t : same_letters s t -> same_version (fst (parse v s)) (fst (parse v t)).
Proof.
  intros H. unfold parse. destruct (v_p v); [apply version_same_refl|]. rewrite (letters_nil s t H).
  destruct (0 <? length t); [|apply version_same_refl].
  destruct (letters_loop [0; 1; 2; 3] v s t H) as [A B].
  destruct (parse_loop [0; 1; 2; 3] v s) as [v1 [x|]], (parse_loop [0; 1; 2; 3] v t) as [v2 [y|]]; cbn [fst snd] in A, B; subst v2;
    try contradiction; [|apply version_same_refl].
  rewrite (letters_nil x y B), (letters_mark x y B). cbn [fst].
  destruct (0 <? length y); [|apply version_same_refl]. destruct (index_space_hyphen y) as [k|]; [|apply version_same_refl].
  repeat split. apply letters_skipn. exact B.
Qed.

Lemma same_structured T mC mD h ua ua' gv gs : version_pair gv gs ->
  same_value (alone T mC mD h ua gs) (alone T mC mD h ua' gs) -> same_value (alone T mC mD h ua gv) (alone T mC mD h ua' gv).
Proof.
  intros V H. rewrite (structured T mC mD h ua gv gs V), (structured T mC mD h ua' gv gs V).
  destruct (alone T mC mD h ua gs) as [[n|s|w]|], (alone T mC mD h ua' gs) as [[m|t|w']|]; try contradiction; try exact I.
  apply letters_parse. exact H.
Qed.

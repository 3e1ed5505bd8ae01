(** Patterns with the prefix (?i) do not see the case of ASCII letters. *)
From Verif Require Import Model_Base Model_Ctx Model_Regex Model_Parse Spec_Case Proof_Base Proof_Pattern.
From Coq Require Import Lia ZifyBool ZifyNat ZifyN.

(** ** Classes *)
Definition mem (rs : list (N * N)) (x : N) : bool := existsb (fun y => in_rng (fst y) (snd y) x) rs.
Definition closed_rs (rs : list (N * N)) : Prop := forall x, (65 <= x <= 90)%N -> mem rs x = mem rs (x + 32)%N.
Lemma mem_app a b x : mem (a ++ b) x = mem a x || mem b x.
Proof. unfold mem. apply existsb_app. Qed.
Lemma closed_app a b : closed_rs a -> closed_rs b -> closed_rs (a ++ b).
Proof. intros A B x H. rewrite !mem_app, (A x H), (B x H). reflexivity. Qed.
Lemma closed_nil : closed_rs []. Proof. intros x H. reflexivity. Qed.
Lemma closed_lit r : closed_rs (lit_rs true r).
Proof.
  intros x H. unfold lit_rs, orbit, mem, in_rng.
  repeat match goal with |- context [if ?b then _ else _] => let E := fresh in destruct b eqn:E end; cbn [map existsb fst snd]; lia.
Qed.
Lemma closed_range lo hi : closed_rs (range_rs true lo hi).
Proof.
  intros x H. unfold range_rs, shift_rng. change ((lo, hi) :: ?l) with ([(lo, hi)] ++ l). rewrite !mem_app. unfold mem, in_rng.
  repeat match goal with |- context [if ?b then _ else _] => let E := fresh in destruct b eqn:E end; cbn [existsb fst snd]; lia.
Qed.
Lemma closed_perl c rs : perl_class true c = Some rs -> closed_rs rs.
Proof.
  unfold perl_class. destruct (c =? 100)%N; [intros H; injection H as <-|destruct (c =? 119)%N; [intros H; injection H as <-|destruct (c =? 115)%N; [intros H; injection H as <-|discriminate]]].
  - intros x H. unfold mem, in_rng. cbn [existsb fst snd]. lia.
  - intros x H. cbv [range_rs shift_rng app]. unfold mem, in_rng. cbn - [N.leb N.add orb andb]. lia.
  - intros x H. unfold mem, in_rng. cbn [existsb fst snd]. lia.
Qed.
Lemma closed_items fuel : forall first s acc rs rest, closed_rs acc -> class_items fuel true first s acc = Some (rs, rest) -> closed_rs rs.
Proof.
  induction fuel as [|fuel IH]; intros first s acc rs rest C H; cbn [class_items] in H; [discriminate H|].
  destruct s as [|c s']; [discriminate H|]. destruct ((c =? 93)%N && negb first); [injection H as <- <-; exact C|].
  destruct (if (c =? 92)%N then match s' with e :: _ => perl_class true e | [] => None end else None) as [rs0|] eqn:E.
  - eapply IH; [|exact H]. apply closed_app; [exact C|]. destruct (c =? 92)%N; [|discriminate E]. destruct s'; [discriminate E|]. eapply closed_perl. exact E.
  - destruct (class_char (c :: s')) as [[lo t]|]; [|discriminate H]. destruct t as [|d [|x t]].
    + eapply IH; [|exact H]. apply closed_app; [exact C|apply closed_lit].
    + eapply IH; [|exact H]. apply closed_app; [exact C|apply closed_lit].
    + destruct ((d =? 45)%N && negb (x =? 93)%N).
      * destruct (class_char (tl (d :: x :: t))) as [[hi t']|]; [|discriminate H]. destruct (hi <? lo)%N; [discriminate H|].
        eapply IH; [|exact H]. apply closed_app; [exact C|apply closed_range].
      * eapply IH; [|exact H]. apply closed_app; [exact C|apply closed_lit].
Qed.

Fixpoint closed (r : re) : Prop :=
  match r with
  | Cls _ rs => closed_rs rs
  | Cat a b | Alt a b => closed a /\ closed b
  | Star _ a | Grp _ a => closed a
  | _ => True
  end.
Lemma closed_class s a rest : parse_class true s = Some (a, rest) -> closed a.
Proof.
  unfold parse_class. destruct (match s with c :: s' => if (c =? 94)%N then (true, s') else (false, s) | [] => (false, s) end) as [neg s1].
  destruct (class_items (S (length s1)) true true s1 []) as [[rs r]|] eqn:E; [|discriminate]. intros H. injection H as <- <-. cbn [closed]. eapply closed_items; [apply closed_nil|exact E].
Qed.
Lemma closed_cat a b : closed a -> closed b -> closed (cat a b).
Proof. intros A B. destruct a; cbn [cat closed] in *; auto. Qed.
Lemma closed_rep_n a : closed a -> forall n, closed (rep_n n a).
Proof. intros A. induction n as [|[|n] IH]; cbn [rep_n closed] in *; auto. Qed.
Lemma closed_opt g a : closed a -> closed (opt g a).
Proof. intros A. destruct g; cbn; auto. Qed.
Lemma closed_rep_opt g a : closed a -> forall n, closed (rep_opt n g a).
Proof. intros A. induction n as [|[|n] IH]; cbn [rep_opt]; [exact I|apply closed_opt; exact A|]. apply closed_opt. split; [exact A|exact IH]. Qed.
Lemma closed_repeat mn mx g a : closed a -> closed (repeat_re mn mx g a).
Proof.
  intros A. unfold repeat_re. destruct mx as [m|].
  - destruct mn; [destruct (m - 0); apply closed_rep_opt; exact A|]. destruct (m - S mn); [apply closed_rep_n; exact A|]. split; [apply closed_rep_n; exact A|apply closed_rep_opt; exact A].
  - destruct mn; [exact A|]. split; [apply closed_rep_n; exact A|exact A].
Qed.
Lemma closed_parse fuel :
  (forall n s a n' s', parse_alt fuel true n s = Some (a, n', s') -> closed a) /\
  (forall n s acc a n' s', closed acc -> parse_seq fuel true n s acc = Some (a, n', s') -> closed a).
Proof.
  induction fuel as [|fuel [IHa IHs]]; [split; discriminate|]. split.
  - intros n s a n' s'. cbn [parse_alt]. destruct (parse_seq fuel true n s Eps) as [[[a1 n1] [|c s1]]|] eqn:E; [| |discriminate].
    + intros H. injection H as <- <- <-. eapply IHs; [|exact E]. exact I.
    + destruct (c =? 124)%N.
      * destruct (parse_alt fuel true n1 s1) as [[[b n2] s2]|] eqn:E2; [|discriminate]. intros H. injection H as <- <- <-. split; [eapply IHs; [|exact E]; exact I|eapply IHa; exact E2].
      * intros H. injection H as <- <- <-. eapply IHs; [|exact E]. exact I.
  - intros n s acc a n' s' C. cbn [parse_seq]. destruct s as [|c s0]; [intros H; injection H as <- <- <-; exact C|].
    destruct ((c =? 124)%N || (c =? 41)%N); [intros H; injection H as <- <- <-; exact C|].
    match goal with |- match ?X with _ => _ end = _ -> _ => set (atom := X) end.
    assert (A : forall a0 n0 s0, atom = Some (a0, n0, s0) -> closed a0).
    { intros a0 n0 s2. subst atom.
      assert (G : forall m t, (match parse_alt fuel true m t with Some (a, n1, e :: s3) => if (e =? 41)%N then Some (Grp m a, n1, s3) else None | _ => None end) = Some (a0, n0, s2) -> closed a0).
      { intros m t. destruct (parse_alt fuel true m t) as [[[b nb] [|e s3]]|] eqn:E; try discriminate. destruct (e =? 41)%N; [|discriminate].
        intros H. injection H as <- <- <-. cbn [closed]. eapply IHa. exact E. }
      destruct (c =? 40)%N.
      - destruct s0 as [|q [|d s1]]; [apply G|apply G|]. destruct (q =? 63)%N; [|apply G]. destruct (d =? 58)%N; [|discriminate].
        destruct (parse_alt fuel true n s1) as [[[b nb] [|e s3]]|] eqn:E; try discriminate. destruct (e =? 41)%N; [|discriminate].
        intros H. injection H as <- <- <-. eapply IHa. exact E.
      - destruct (c =? 91)%N; [destruct (parse_class true s0) as [[b sb]|] eqn:E; [|discriminate]; intros H; injection H as <- <- <-; eapply closed_class; exact E|].
        destruct (c =? 92)%N.
        + destruct s0 as [|e s1]; [discriminate|]. destruct (perl_class true e) as [rs|] eqn:E; [intros H; injection H as <- <- <-; cbn [closed]; eapply closed_perl; exact E|].
          destruct (is_punct e); [|discriminate]. intros H. injection H as <- <- <-. apply closed_lit.
        + destruct (c =? 46)%N; [intros H; injection H as <- <- <-; cbn [closed]; intros x Hx; unfold mem, in_rng; cbn [existsb fst snd]; lia|].
          destruct (c =? 94)%N; [intros H; injection H as <- <- <-; exact I|]. destruct (c =? 36)%N; [intros H; injection H as <- <- <-; exact I|].
          destruct ((c =? 42)%N || (c =? 43)%N || (c =? 63)%N || (c =? 123)%N); [discriminate|]. intros H. injection H as <- <- <-. apply closed_lit. }
    destruct atom as [[[a0 n0] s2]|]; [|discriminate]. specialize (A a0 n0 s2 eq_refl).
    destruct (parse_quant s2) as [[[mn mx] s3]|].
    + destruct (match s3 with d :: s4 => if (d =? 63)%N then (false, s4) else (true, s3) | [] => (true, s3) end) as [g s4].
      destruct (parse_quant s4); [discriminate|]. apply IHs. apply closed_cat; [exact C|apply closed_repeat; exact A].
    + apply IHs. apply closed_cat; assumption.
Qed.

(** ** Texts *)
Definition up (x : N) : N := if ((97 <=? x) && (x <=? 122))%N then (x - 32)%N else x.
Definition alike (a b : N * nat) : Prop := snd a = snd b /\ up (fst a) = up (fst b).
Lemma cls_alike neg rs x y : closed_rs rs -> up x = up y -> cls_mem neg rs x = cls_mem neg rs y.
Proof.
  intros C E. unfold cls_mem. f_equal. fold (mem rs x). fold (mem rs y). unfold up in E.
  destruct ((97 <=? x)%N && (x <=? 122)%N) eqn:X, ((97 <=? y)%N && (y <=? 122)%N) eqn:Y.
  - replace y with x by lia. reflexivity.
  - rewrite (C y) by lia. f_equal. lia.
  - rewrite (C x) by lia. f_equal. lia.
  - rewrite E. reflexivity.
Qed.

Lemma Forall2_length {A B} (R : A -> B -> Prop) l m : Forall2 R l m -> length l = length m.
Proof. induction 1; cbn; congruence. Qed.
Arguments Forall2_length {A B R l m}.
Definition alike_k (k k' : cont_t) : Prop := forall s s' p c, Forall2 alike s s' -> k s p c = k' s' p c.
Lemma mt_alike r : closed r -> forall s s' p c k k', Forall2 alike s s' -> alike_k k k' -> mt r s p c k = mt r s' p c k'.
Proof.
  induction r as [|neg rs| | |a IHa b IHb|a IHa b IHb|g a IHa|n a IHa]; cbn [closed mt]; intros C s s' p c k k' S K.
  - apply K. exact S.
  - destruct S as [|[x w] [y w'] s s' [Hw Hx] S]; [reflexivity|]. cbn [fst snd] in *. subst w'. rewrite (cls_alike neg rs x y C Hx). destruct (cls_mem neg rs y); [apply K; exact S|reflexivity].
  - destruct (p =? 0)%Z; [apply K; exact S|reflexivity].
  - destruct S; [apply K; constructor|reflexivity].
  - destruct C as [Ca Cb]. apply IHa; [exact Ca|exact S|]. intros t t' q d St. apply IHb; auto.
  - destruct C as [Ca Cb]. unfold orelse. rewrite (IHa Ca s s' p c k k' S K). destruct (mt a s' p c k'); [reflexivity|]. apply IHb; auto.
  - assert (L : forall n s s' p c, Forall2 alike s s' -> star_loop (mt a) g k n s p c = star_loop (mt a) g k' n s' p c).
    { induction n as [|n IHn]; intros t t' q d St; cbn [star_loop]; [apply K; exact St|].
      assert (M : mt a t q d (fun s' p' c' => if length s' <? length t then star_loop (mt a) g k n s' p' c' else None) =
                  mt a t' q d (fun s' p' c' => if length s' <? length t' then star_loop (mt a) g k' n s' p' c' else None)).
      { apply IHa; [exact C|exact St|]. intros u u' q' d' Su. rewrite (Forall2_length Su), (Forall2_length St). destruct (length u' <? length t'); [apply IHn; exact Su|reflexivity]. }
      rewrite M, (K t t' q d St). reflexivity. }
    rewrite (Forall2_length S). apply L. exact S.
  - apply IHa; [exact C|exact S|]. intros t t' q d St. apply K. exact St.
Qed.
Lemma find_alike r : closed r -> forall s s' p, Forall2 alike s s' -> find_from r s p = find_from r s' p.
Proof.
  intros C s s' p S. revert p. induction S as [|[x w] [y w'] s s' H S IH]; intros p; cbn [find_from].
  - reflexivity.
  - assert (S2 : Forall2 alike ((x, w) :: s) ((y, w') :: s')) by (constructor; assumption).
    rewrite (mt_alike r C ((x, w) :: s) ((y, w') :: s') p [] _ (fun _ p' c' => Some ((0, (p, p')) :: c')) S2) by (intros ? ? ? ? _; reflexivity).
    unfold orelse. destruct (mt r ((y, w') :: s') p [] _); [reflexivity|]. destruct H as [Hw _]. cbn [snd] in Hw. subst w'. apply IH.
Qed.

Lemma letter_low a b : same_letter a b -> (bn a < 128)%N -> (bn b < 128)%N.
Proof. unfold same_letter, upper. intros E L. destruct ((97 <=? bn a)%N && (bn a <=? 122)%N) eqn:A, ((97 <=? bn b)%N && (bn b <=? 122)%N) eqn:B; lia. Qed.
Lemma letter_high a b : same_letter a b -> (128 <= bn a)%N -> a = b.
Proof. unfold same_letter, upper. intros E L. apply bn_inj. destruct ((97 <=? bn a)%N && (bn a <=? 122)%N) eqn:A, ((97 <=? bn b)%N && (bn b <=? 122)%N) eqn:B; lia. Qed.
Lemma letter_sym a b : same_letter a b -> same_letter b a.
Proof. unfold same_letter. congruence. Qed.
Lemma letter_rng lo hi a b : (128 <= lo)%N -> same_letter a b -> in_rng lo hi (bn a) = in_rng lo hi (bn b) /\ (in_rng lo hi (bn a) = true -> a = b).
Proof.
  intros L E. destruct (N.lt_ge_cases (bn a) 128) as [H|H].
  - pose proof (letter_low _ _ E H). unfold in_rng. split; [lia|intros; lia].
  - pose proof (letter_high _ _ E H). subst b. auto.
Qed.
Lemma second_low x : (128 <= fst (second_rng x))%N.
Proof. unfold second_rng. repeat match goal with |- context [if ?b then _ else _] => destruct b end; cbn [fst]; lia. Qed.
Lemma decode_alike a b s t : same_letter a b -> same_letters s t -> alike (decode_rune (a :: s)) (decode_rune (b :: t)).
Proof.
  intros E S. destruct (N.lt_ge_cases (bn a) 128) as [H|H].
  - rewrite !decode_ascii; [|eapply letter_low; eassumption|exact H]. split; [reflexivity|exact E].
  - pose proof (letter_high _ _ E H). subst b. clear E. cbn [decode_rune]. replace (bn a <? 128)%N with false by lia.
    destruct (in_rng 194 244 (bn a)); [|split; reflexivity]. destruct S as [|a1 b1 s t E1 S]; [split; reflexivity|].
    pose proof (second_low (bn a)) as Sl. destruct (second_rng (bn a)) as [lo hi]. cbn [fst] in Sl.
    destruct (letter_rng lo hi a1 b1 Sl E1) as [R1 Q1]. rewrite <- R1. destruct (in_rng lo hi (bn a1)); cbn [negb]; [|split; reflexivity]. specialize (Q1 eq_refl). subst b1.
    destruct (bn a <? 224)%N; [split; reflexivity|]. destruct S as [|a2 b2 s t E2 S]; [split; reflexivity|]. unfold cont.
    destruct (letter_rng 128 191 a2 b2 (N.le_refl _) E2) as [R2 Q2]. rewrite <- R2. destruct (in_rng 128 191 (bn a2)); cbn [negb]; [|split; reflexivity]. specialize (Q2 eq_refl). subst b2.
    destruct (bn a <? 240)%N; [split; reflexivity|]. destruct S as [|a3 b3 s t E3 S]; [split; reflexivity|].
    destruct (letter_rng 128 191 a3 b3 (N.le_refl _) E3) as [R3 Q3]. rewrite <- R3. destruct (in_rng 128 191 (bn a3)); cbn [negb]; [|split; reflexivity]. specialize (Q3 eq_refl). subst b3.
    split; reflexivity.
Qed.
Lemma Forall2_skipn {A B} (R : A -> B -> Prop) n : forall l m, Forall2 R l m -> Forall2 R (skipn n l) (skipn n m).
Proof. induction n; intros l m H; [exact H|]. destruct H; [constructor|apply IHn; assumption]. Qed.
Lemma Forall2_firstn {A B} (R : A -> B -> Prop) n : forall l m, Forall2 R l m -> Forall2 R (firstn n l) (firstn n m).
Proof. induction n; intros l m H; [constructor|]. destruct H; [constructor|constructor; auto]. Qed.
Lemma runes_alike s t : same_letters s t -> Forall2 alike (runes s) (runes t).
Proof.
  unfold runes. intros S. rewrite (Forall2_length S). generalize (length t) as f. intros f. revert s t S. induction f as [|f IH]; intros s t S; cbn [runes_fuel]; [constructor|].
  pose proof S as S0. destruct S as [|a b s t E S]; [constructor|]. pose proof (decode_alike a b s t E S) as D. destruct (decode_rune (a :: s)) as [r w], (decode_rune (b :: t)) as [r' w'].
  constructor; [exact D|]. destruct D as [Dw _]. cbn [snd] in Dw. subst w'. apply IH. apply Forall2_skipn. exact S0.
Qed.

Definition ignores_case (r : regex) : Prop := forall s t, same_letters s t -> re_find r s = re_find r t.
Lemma ci_ignores src : has_prefix src (bs "(?i)") = true -> ignores_case (compile src).
Proof.
  intros H s t S. apply has_prefix_iff in H as [body ->]. unfold compile. cbn [re_find].
  destruct (parse_re (bs "(?i)" ++ body)) as [[a ng]|] eqn:P; [|reflexivity].
  assert (C : closed a).
  { unfold parse_re in P. rewrite runes_ascii_app in P by (repeat constructor). cbn [map app bs] in P.
    rewrite map_app in P. cbn in P. remember (map fst (runes body)) as cs. 
    match type of P with context [parse_alt ?f true 0 cs] => destruct (parse_alt f true 0 cs) as [[[a1 n1] [|? ?]]|] eqn:E; try discriminate P end.
    injection P as <- <-. eapply (proj1 (closed_parse _)). exact E. }
  unfold find_re. rewrite (find_alike a C (runes s) (runes t) 0 (runes_alike s t S)). reflexivity.
Qed.

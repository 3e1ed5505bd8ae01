(** Putting text around a pattern: the parser sees the pattern inside. *)
From Verif Require Import Model_Base Model_Ctx Model_Regex Model_Compiler Model_Built Spec_Regex Spec_Word Spec_Database Proof_Pattern.
From Coq Require Import Lia ZifyBool ZifyNat ZifyN.
Open Scope nat_scope.

Definition fresh (t : list N) : Prop := exists c t', t = c :: t' /\ ~ In c [42; 43; 63; 123; 125; 44]%N /\ in_rng 48 57 c = false.

Lemma num_more t : fresh t -> forall s acc, parse_num (s ++ t) acc = (fst (parse_num s acc), snd (parse_num s acc) ++ t).
Proof.
  intros (c & t' & -> & _ & Hc) s. induction s as [|x s IH]; intros acc; cbn [app parse_num].
  - rewrite Hc. reflexivity.
  - destruct (in_rng 48 57 x); [apply IH|reflexivity].
Qed.
Lemma quant_more t s : fresh t -> parse_quant (s ++ t) = match parse_quant s with Some (mn, mx, r) => Some (mn, mx, r ++ t) | None => None end.
Proof.
  intros F. assert (F' := F). destruct F' as (c & t' & -> & Hc & Hd). set (t := c :: t') in *. cbn [In] in Hc.
  destruct s as [|x s].
  - cbn [app]. unfold parse_quant, t. replace (c =? 42)%N with false by lia. replace (c =? 43)%N with false by lia. replace (c =? 63)%N with false by lia. replace (c =? 123)%N with false by lia. reflexivity.
  - cbn [app]. unfold parse_quant. destruct (x =? 42)%N; [reflexivity|]. destruct (x =? 43)%N; [reflexivity|]. destruct (x =? 63)%N; [reflexivity|]. destruct (x =? 123)%N; [|reflexivity].
    rewrite (num_more t F). destruct (parse_num s None) as [[n|] [|d r]]; cbn [fst snd app]; try reflexivity.
    + unfold t. replace (c =? 125)%N with false by lia. replace (c =? 44)%N with false by lia. reflexivity.
    + destruct (d =? 125)%N; [reflexivity|]. destruct (d =? 44)%N; [|reflexivity].
      rewrite (num_more t F). destruct (parse_num r None) as [[m|] [|e r']]; cbn [fst snd app]; try reflexivity.
      * unfold t. replace (c =? 125)%N with false by lia. reflexivity.
      * destruct ((e =? 125)%N && (n <=? m)); reflexivity.
      * unfold t. replace (c =? 125)%N with false by lia. reflexivity.
      * destruct (e =? 125)%N; reflexivity.
Qed.
Lemma class_char_more s lo r t : class_char s = Some (lo, r) -> class_char (s ++ t) = Some (lo, r ++ t).
Proof.
  destruct s as [|c s]; [discriminate|]. cbn [class_char app]. destruct (c =? 92)%N.
  - destruct s as [|e s]; [discriminate|]. cbn [app]. destruct (is_punct e); [|discriminate]. intros H. injection H as <- <-. reflexivity.
  - intros H. injection H as <- <-. reflexivity.
Qed.
Lemma class_more fold t : forall f f' first s acc rs r, f <= f' -> class_items f fold first s acc = Some (rs, r) -> class_items f' fold first (s ++ t) acc = Some (rs, r ++ t).
Proof.
  induction f as [|f IH]; intros f' first s acc rs r L H; [discriminate H|]. destruct f' as [|f']; [lia|]. assert (L' : f <= f') by lia.
  cbn [class_items] in H |- *. destruct s as [|c s]; [discriminate H|]. cbn [app].
  destruct ((c =? 93)%N && negb first). { injection H as <- <-. reflexivity. }
  destruct (if (c =? 92)%N then match s with e :: _ => perl_class fold e | [] => None end else None) as [p|] eqn:E.
  - assert (E2 : (if (c =? 92)%N then match s ++ t with e :: _ => perl_class fold e | [] => None end else None) = Some p).
    { destruct (c =? 92)%N; [|discriminate E]. destruct s as [|e s]; [discriminate E|]. exact E. }
    rewrite E2. destruct s as [|e s]; [destruct (c =? 92)%N; discriminate E|]. cbn [tl app] in H |- *. apply (IH f' false s _ rs r L' H).
  - destruct (class_char (c :: s)) as [[lo u]|] eqn:Ec; [|discriminate H].
    assert (E2 : (if (c =? 92)%N then match s ++ t with e :: _ => perl_class fold e | [] => None end else None) = None).
    { destruct (c =? 92)%N eqn:E92; [|reflexivity]. destruct s as [|e s]; [|exact E]. cbn [class_char] in Ec. rewrite E92 in Ec. discriminate Ec. }
    rewrite E2. pose proof (class_char_more (c :: s) lo u t Ec) as Em. cbn [app] in Em. rewrite Em.
    destruct u as [|d [|x u]].
    + destruct f as [|f]; [discriminate H|]. discriminate H.
    + cbn [app] in *. destruct (d =? 45)%N eqn:Ed.
      * exfalso. apply N.eqb_eq in Ed. subst d. destruct f as [|f]; [discriminate H|]. cbn in H. destruct f; discriminate H.
      * assert (G : match t with x :: _ => if false && negb (x =? 93)%N then match class_char (tl (d :: t)) with Some (hi, t') => if (hi <? lo)%N then None else class_items f' fold false t' (acc ++ range_rs fold lo hi) | None => None end else class_items f' fold false (d :: t) (acc ++ lit_rs fold lo) | [] => class_items f' fold false (d :: t) (acc ++ lit_rs fold lo) end = class_items f' fold false (d :: t) (acc ++ lit_rs fold lo)) by (destruct t; reflexivity).
        cbn [tl] in G |- *. rewrite G. exact (IH f' false [d] _ rs r L' H).
    + cbn [app]. destruct ((d =? 45)%N && negb (x =? 93)%N).
      * cbn [tl] in H |- *. destruct (class_char (x :: u)) as [[hi u']|] eqn:Eh; [|discriminate H]. pose proof (class_char_more (x :: u) hi u' t Eh) as Em'. cbn [app] in Em'. rewrite Em'.
        destruct (hi <? lo)%N; [discriminate H|]. exact (IH f' false u' _ rs r L' H).
      * exact (IH f' false (d :: x :: u) _ rs r L' H).
Qed.
Lemma pclass_more fold s a r t : parse_class fold s = Some (a, r) -> parse_class fold (s ++ t) = Some (a, r ++ t).
Proof.
  unfold parse_class. destruct s as [|c s].
  { cbn. discriminate. }
  cbn [app]. destruct (c =? 94)%N.
  - destruct (class_items (S (length s)) fold true s []) as [[rs q]|] eqn:E; [|discriminate]. intros H. injection H as <- <-.
    rewrite (class_more fold t (S (length s)) (S (length (s ++ t))) true s [] rs q) by (try exact E; rewrite app_length; lia). reflexivity.
  - change (c :: s ++ t) with ((c :: s) ++ t). destruct (class_items (S (length (c :: s))) fold true (c :: s) []) as [[rs q]|] eqn:E; [|discriminate]. intros H. injection H as <- <-.
    rewrite (class_more fold t (S (length (c :: s))) (S (length ((c :: s) ++ t))) true (c :: s) [] rs q) by (try exact E; rewrite app_length; lia). reflexivity.
Qed.

(** One atom, as in [parse_seq]. *)
Definition atom (fuel : nat) (fold : bool) (n : nat) (c : N) (s' : list N) : option (re * nat * list N) :=
  if (c =? 40)%N then
    match s' with
    | q :: d :: s2 =>
        if (q =? 63)%N then
          if (d =? 58)%N then
            match parse_alt fuel fold n s2 with
            | Some (a, n1, e :: s3) => if (e =? 41)%N then Some (a, n1, s3) else None
            | _ => None
            end
          else None
        else
          match parse_alt fuel fold (S n) s' with
          | Some (a, n1, e :: s3) => if (e =? 41)%N then Some (Grp (S n) a, n1, s3) else None
          | _ => None
          end
    | _ =>
        match parse_alt fuel fold (S n) s' with
        | Some (a, n1, e :: s3) => if (e =? 41)%N then Some (Grp (S n) a, n1, s3) else None
        | _ => None
        end
    end
  else if (c =? 91)%N then
    match parse_class fold s' with Some (a, s1) => Some (a, n, s1) | None => None end
  else if (c =? 92)%N then
    match s' with
    | e :: s1 =>
        match perl_class fold e with
        | Some rs => Some (Cls false rs, n, s1)
        | None => if is_punct e then Some (Cls false (lit_rs fold e), n, s1) else None
        end
    | [] => None
    end
  else if (c =? 46)%N then Some (Cls true [(10, 10)%N], n, s')
  else if (c =? 94)%N then Some (Bol, n, s')
  else if (c =? 36)%N then Some (Eol, n, s')
  else if (c =? 42)%N || (c =? 43)%N || (c =? 63)%N || (c =? 123)%N then None
  else Some (Cls false (lit_rs fold c), n, s').
Definition after (s2 : list N) : bool * list N :=
  match s2 with d :: s3 => if (d =? 63)%N then (false, s3) else (true, s2) | [] => (true, s2) end.
Lemma seq_step fuel fold n c s' acc : parse_seq (S fuel) fold n (c :: s') acc =
  if (c =? 124)%N || (c =? 41)%N then Some (acc, n, c :: s')
  else match atom fuel fold n c s' with
       | None => None
       | Some (a, n1, s1) =>
           match parse_quant s1 with
           | Some (mn, mx, s2) =>
               let '(greedy, s3) := after s2 in
               match parse_quant s3 with
               | Some _ => None
               | None => parse_seq fuel fold n1 s3 (cat acc (repeat_re mn mx greedy a))
               end
           | None => parse_seq fuel fold n1 s1 (cat acc a)
           end
       end.
Proof. reflexivity. Qed.
Lemma after_more s t : fresh t -> after (s ++ t) = (fst (after s), snd (after s) ++ t).
Proof.
  intros (c & t' & -> & Hc & _). destruct s as [|d s]; cbn [app after].
  - cbn [In] in Hc. replace (c =? 63)%N with false by lia. reflexivity.
  - destruct (d =? 63)%N; reflexivity.
Qed.

Definition alt_more f fold t : Prop := forall f' n s a n1 r, f <= f' -> parse_alt f fold n s = Some (a, n1, r) ->
  r <> [] \/ hd 0%N t = 41%N -> parse_alt f' fold n (s ++ t) = Some (a, n1, r ++ t).
Definition seq_more f fold t : Prop := forall f' n s acc a n1 r, f <= f' -> parse_seq f fold n s acc = Some (a, n1, r) ->
  r <> [] \/ hd 0%N t = 41%N -> parse_seq f' fold n (s ++ t) acc = Some (a, n1, r ++ t).

Lemma atom_more f fold t : alt_more f fold t -> forall f' n c s a n1 r, f <= f' -> atom f fold n c s = Some (a, n1, r) -> atom f' fold n c (s ++ t) = Some (a, n1, r ++ t).
Proof.
  intros A f' n c s a n1 r L. unfold atom. destruct (c =? 40)%N.
  - assert (G : forall m w s (b : re -> re), (match parse_alt f fold m s with Some (a, n1, e :: s3) => if (e =? 41)%N then Some (b a, n1, s3) else None | _ => None end) = Some w ->
       (match parse_alt f' fold m (s ++ t) with Some (a, n1, e :: s3) => if (e =? 41)%N then Some (b a, n1, s3) else None | _ => None end) = Some (fst (fst w), snd (fst w), snd w ++ t)).
    { intros m w s0 b. destruct (parse_alt f fold m s0) as [[[x nx] [|e s3]]|] eqn:E; try discriminate. rewrite (A f' m s0 x nx (e :: s3) L E) by (left; discriminate).
      cbn [app]. destruct (e =? 41)%N; [|discriminate]. intros H. injection H as <-. reflexivity. }
    destruct s as [|q [|d s]].
    + intros H. destruct f as [|f]; [discriminate H|]. destruct f as [|f]; discriminate H.
    + intros H. destruct (q =? 63)%N eqn:Eq. { apply N.eqb_eq in Eq. subst q. exfalso. destruct f as [|[|f]]; discriminate H. }
      apply (G (S n) (a, n1, r) [q] (Grp (S n))) in H. cbn [app fst snd] in *. destruct t as [|d t]; [exact H|]. rewrite Eq. exact H.
    + cbn [app]. destruct (q =? 63)%N.
      * destruct (d =? 58)%N; [|discriminate]. intros H. exact (G n (a, n1, r) s (fun x => x) H).
      * intros H. exact (G (S n) (a, n1, r) (q :: d :: s) (Grp (S n)) H).
  - destruct (c =? 91)%N.
    + destruct (parse_class fold s) as [[x q]|] eqn:E; [|discriminate]. intros H. injection H as <- <- <-. rewrite (pclass_more fold s x q t E). reflexivity.
    + destruct (c =? 92)%N.
      * destruct s as [|e s]; [discriminate|]. cbn [app]. destruct (perl_class fold e); [|destruct (is_punct e); [|discriminate]]; intros H; injection H as <- <- <-; reflexivity.
      * repeat (match goal with |- (if ?b then _ else _) = _ -> _ => destruct b end; try discriminate; try (intros H; injection H as <- <- <-; reflexivity)).
Qed.

Lemma parse_more fold t : fresh t -> forall f, alt_more f fold t /\ seq_more f fold t.
Proof.
  intros F. induction f as [|f [IHa IHs]]; split.
  - intros f' n s a n1 r _ H. discriminate H.
  - intros f' n s acc a n1 r _ H. discriminate H.
  - intros f' n s a n1 r L H R. destruct f' as [|f']; [lia|]. assert (L' : f <= f') by lia. cbn [parse_alt] in H |- *.
    destruct (parse_seq f fold n s Eps) as [[[x nx] [|c s1]]|] eqn:E; [| |discriminate H].
    + injection H as <- <- <-. destruct R as [R|R]; [contradiction|]. rewrite (IHs f' n s Eps x nx [] L' E) by (right; exact R). cbn [app].
      destruct t as [|c t]; [reflexivity|]. cbn [hd] in R. subst c. reflexivity.
    + rewrite (IHs f' n s Eps x nx (c :: s1) L' E) by (left; discriminate). cbn [app]. destruct (c =? 124)%N.
      * destruct (parse_alt f fold nx s1) as [[[b n2] s2]|] eqn:E2; [|discriminate H]. injection H as <- <- <-. rewrite (IHa f' nx s1 b n2 s2 L' E2 R). reflexivity.
      * injection H as <- <- <-. reflexivity.
  - intros f' n s acc a n1 r L H R. destruct f' as [|f']; [lia|]. assert (L' : f <= f') by lia. destruct s as [|c s].
    + cbn [parse_seq] in H. injection H as <- <- <-. destruct R as [R|R]; [contradiction|]. destruct t as [|c t]; [reflexivity|]. cbn [hd] in R. subst c. reflexivity.
    + cbn [app]. rewrite seq_step in H |- *. destruct ((c =? 124)%N || (c =? 41)%N). { injection H as <- <- <-. reflexivity. }
      destruct (atom f fold n c s) as [[[x nx] s1]|] eqn:E; [|discriminate H]. rewrite (atom_more f fold t IHa f' n c s x nx s1 L' E).
      rewrite (quant_more t s1 F). destruct (parse_quant s1) as [[[mn mx] s2]|]; [|exact (IHs f' nx s1 _ a n1 r L' H R)].
      rewrite (after_more s2 t F). destruct (after s2) as [g s3]. cbn [fst snd]. rewrite (quant_more t s3 F). destruct (parse_quant s3) as [[[? ?] ?]|]; [discriminate H|].
      exact (IHs f' nx s3 _ a n1 r L' H R).
Qed.

(** Text behind a sequence. *)
Lemma seq_then fold t : fresh t -> forall f n s acc a n1, parse_seq f fold n s acc = Some (a, n1, []) ->
  exists k, k <= f /\ forall f', f <= k + f' -> parse_seq (k + f') fold n (s ++ t) acc = parse_seq f' fold n1 t a.
Proof.
  intros F. induction f as [|f IH]; intros n s acc a n1 H; [discriminate H|]. destruct s as [|c s].
  { cbn [parse_seq] in H. injection H as <- <-. exists 0. split; [lia|]. intros f' _. reflexivity. }
  rewrite seq_step in H. destruct ((c =? 124)%N || (c =? 41)%N) eqn:Ec; [discriminate H|].
  destruct (atom f fold n c s) as [[[x nx] s1]|] eqn:E; [|discriminate H].
  destruct (parse_quant s1) as [[[mn mx] s2]|] eqn:Q.
  - destruct (after s2) as [g s3] eqn:Af. destruct (parse_quant s3) as [[[? ?] ?]|] eqn:Q3; [discriminate H|]. destruct (IH _ _ _ _ _ H) as (k & Lk & K).
    exists (S k). split; [lia|]. intros f' L. cbn [Nat.add app]. rewrite seq_step, Ec, (atom_more f fold t (proj1 (parse_more fold t F f)) (k + f') n c s x nx s1) by (try exact E; lia).
    rewrite (quant_more t s1 F), Q, (after_more s2 t F), Af. cbn [fst snd]. rewrite (quant_more t s3 F), Q3. apply K. lia.
  - destruct (IH _ _ _ _ _ H) as (k & Lk & K).
    exists (S k). split; [lia|]. intros f' L. cbn [Nat.add app]. rewrite seq_step, Ec, (atom_more f fold t (proj1 (parse_more fold t F f)) (k + f') n c s x nx s1) by (try exact E; lia).
    rewrite (quant_more t s1 F), Q. apply K. lia.
Qed.

(** A group without number. *)
Lemma seq_group fold f f' n s rest acc a n1 : f <= f' -> parse_alt f fold n s = Some (a, n1, []) -> parse_quant rest = None ->
  parse_seq (S f') fold n (40%N :: 63%N :: 58%N :: s ++ 41%N :: rest) acc = parse_seq f' fold n1 rest (cat acc a).
Proof.
  intros L H Q. rewrite seq_step. cbn [N.eqb Pos.eqb orb]. unfold atom. cbn [N.eqb Pos.eqb].
  assert (F : fresh (41%N :: rest)). { exists 41%N, rest. split; [reflexivity|]. split; [intros I; cbn [In] in I; lia|reflexivity]. }
  rewrite (proj1 (parse_more fold _ F f) f' n s a n1 [] L H) by (right; reflexivity). cbn [app N.eqb Pos.eqb]. rewrite Q. reflexivity.
Qed.

(** Bytes: an ASCII byte behind a text does not change how the text is decoded. *)
Lemma decode_more b s c t : (bn c < 128)%N -> decode_rune (b :: s ++ c :: t) = decode_rune (b :: s).
Proof.
  intros H. cbn [decode_rune]. destruct (bn b <? 128)%N; [reflexivity|]. destruct (in_rng 194 244 (bn b)) eqn:Eb; [|reflexivity].
  assert (Cc : cont (bn c) = false) by (unfold cont, in_rng; lia).
  assert (C2 : forall lo hi, second_rng (bn b) = (lo, hi) -> in_rng lo hi (bn c) = false).
  { intros lo hi E. unfold second_rng in E. repeat match type of E with (if ?x then _ else _) = _ => destruct x end; injection E as <- <-; unfold in_rng; lia. }
  destruct (second_rng (bn b)) as [lo hi]. specialize (C2 lo hi eq_refl).
  destruct s as [|b1 s]; cbn [app]; [rewrite C2; reflexivity|]. destruct (in_rng lo hi (bn b1)); cbn [negb]; [|reflexivity]. destruct (bn b <? 224)%N; [reflexivity|].
  destruct s as [|b2 s]; cbn [app]; [rewrite Cc; reflexivity|]. destruct (cont (bn b2)); cbn [negb]; [|reflexivity]. destruct (bn b <? 240)%N; [reflexivity|].
  destruct s as [|b3 s]; cbn [app]; [rewrite Cc; reflexivity|reflexivity].
Qed.
Lemma decode_short b s : snd (decode_rune (b :: s)) <= length (b :: s).
Proof.
  cbn [decode_rune length]. destruct (bn b <? 128)%N; [cbn; lia|]. destruct (in_rng 194 244 (bn b)); [|cbn; lia].
  destruct (second_rng (bn b)) as [lo hi]. destruct s as [|b1 s]; [cbn; lia|]. destruct (negb (in_rng lo hi (bn b1))); [cbn; lia|]. destruct (bn b <? 224)%N; [cbn; lia|].
  destruct s as [|b2 s]; [cbn; lia|]. destruct (negb (cont (bn b2))); [cbn; lia|]. destruct (bn b <? 240)%N; [cbn; lia|].
  destruct s as [|b3 s]; [cbn; lia|]. destruct (negb (cont (bn b3))); cbn; lia.
Qed.
Lemma runes_more c t : (bn c < 128)%N -> forall m s, length s <= m -> runes (s ++ c :: t) = runes s ++ runes (c :: t).
Proof.
  intros H. induction m as [|m IH]; intros s L; (destruct s as [|b s]; [reflexivity|]); [cbn in L; lia|].
  cbn [app]. rewrite (runes_cons b (s ++ c :: t)), (runes_cons b s), (decode_more b s c t H). pose proof (decode_rune_pos b s) as P. pose proof (decode_short b s) as Sh.
  destruct (decode_rune (b :: s)) as [r w]. cbn [snd] in P, Sh. cbn [app]. f_equal.
  change (b :: s ++ c :: t) with ((b :: s) ++ c :: t). rewrite skipn_app. replace (w - length (b :: s)) with 0 by lia. cbn [skipn].
  apply IH. rewrite skipn_length. cbn [length] in *. lia.
Qed.

(** ** The start of a word *)

Definition start_re : re :=
  match parse_alt 60 true 0 (map bn (bs "^|[^A-Z0-9\-_]|[^A-Z0-9\-]_|sprd-|MZ-")) with Some (a, _, _) => a | None => Eps end.
Lemma start_parse : parse_alt 60 true 0 (map bn (bs "^|[^A-Z0-9\-_]|[^A-Z0-9\-]_|sprd-|MZ-")) = Some (start_re, 0, []).
Proof. reflexivity. Qed.

Lemma body_any_case p : map fst (runes (any_case p)) = 40%N :: 63%N :: 105%N :: 41%N :: map fst (runes p).
Proof.
  unfold any_case. rewrite runes_ascii_app by (repeat (constructor; [reflexivity|]); constructor). rewrite map_app. reflexivity.
Qed.
Lemma parse_any_case p : parse_re (any_case p) =
  match parse_alt (2 * length (map fst (runes p)) + 2) true 0 (map fst (runes p)) with Some (a, n, []) => Some (a, n) | _ => None end.
Proof. unfold parse_re. rewrite body_any_case. reflexivity. Qed.
Lemma word_start_any p : word_start p = any_case (bs "(?:^|[^A-Z0-9\-_]|[^A-Z0-9\-]_|sprd-|MZ-)(?:" ++ p ++ [x29]%byte).
Proof. reflexivity. Qed.
Lemma parse_word_start p a ng : parse_re (any_case p) = Some (a, ng) -> parse_re (word_start p) = Some (Cat start_re a, ng).
Proof.
  rewrite word_start_any, !parse_any_case. rewrite runes_ascii_app by (repeat (constructor; [reflexivity|]); constructor).
  rewrite (runes_more x29 [] ltac:(reflexivity) (length p) p (le_n _)). rewrite !map_app.
  change (map fst (runes [x29]%byte)) with [41%N]. set (cs := map fst (runes p)). intros H.
  destruct (parse_alt (2 * length cs + 2) true 0 cs) as [[[a' n'] [|? ?]]|] eqn:E; try discriminate H. injection H as -> ->.
  set (pre := map fst (map (fun b => (bn b, 1)) (bs "(?:^|[^A-Z0-9\-_]|[^A-Z0-9\-]_|sprd-|MZ-)(?:"))).
  assert (Ep : pre ++ cs ++ [41%N] = 40%N :: 63%N :: 58%N :: map bn (bs "^|[^A-Z0-9\-_]|[^A-Z0-9\-]_|sprd-|MZ-") ++ 41%N :: (40%N :: 63%N :: 58%N :: cs ++ [41%N])) by reflexivity.
  assert (Lp : length (pre ++ cs ++ [41%N]) = length cs + 45).
  { rewrite !app_length. change (length pre) with 44. cbn [length]. lia. }
  rewrite Lp. replace (2 * (length cs + 45) + 2) with (S (S (S (2 * length cs + 89)))) by lia. rewrite Ep.
  set (R := map bn _ ++ _). cbn [parse_alt]. subst R.
  rewrite (seq_group true 60 (S (2 * length cs + 89)) 0 _ (40%N :: 63%N :: 58%N :: cs ++ [41%N]) Eps start_re 0) by (try lia; try exact start_parse; reflexivity).
  rewrite (seq_group true (2 * length cs + 2) (2 * length cs + 89) 0 cs [] (cat Eps start_re) a ng) by (try lia; try exact E; reflexivity).
  replace (2 * length cs + 89) with (S (2 * length cs + 88)) by lia. reflexivity.
Qed.

Definition variants (l : list (list N)) : re := fold_left (fun acc vs => cat acc (Cls false (map (fun x => (x, x)) vs))) l Eps.
Lemma mem_variants vs x : cls_mem false (map (fun x => (x, x)) vs) x = true <-> In x vs.
Proof.
  unfold cls_mem. rewrite Bool.xorb_false_l, existsb_exists. split.
  - intros ([lo hi] & I & H). apply in_map_iff in I as (y & E & I). injection E as <- <-. cbn [fst snd] in H. unfold in_rng in H. assert (x = y) by lia. subst. exact I.
  - intros I. exists (x, x). split; [apply in_map_iff; exists x; auto|]. cbn [fst snd]. unfold in_rng. lia.
Qed.
Lemma lang_cls neg rs u v w : lang (Cls neg rs) u v w <-> exists x wd, v = [(x, wd)] /\ cls_mem neg rs x = true.
Proof.
  split.
  - intros H. inversion H; subst. eauto.
  - intros (x & wd & -> & H). constructor. exact H.
Qed.
Lemma lang_cat_inv a b u v w : lang (Cat a b) u v w <-> exists v1 v2, v = v1 ++ v2 /\ lang a u v1 (v2 ++ w) /\ lang b (u ++ v1) v2 w.
Proof.
  split.
  - intros H. inversion H; subst. eauto.
  - intros (v1 & v2 & -> & H1 & H2). constructor; assumption.
Qed.
Lemma lang_alt a b u v w : lang (Alt a b) u v w <-> lang a u v w \/ lang b u v w.
Proof. split; [intros H; inversion H; subst; auto|]. intros [H|H]; [apply L_left|apply L_right]; exact H. Qed.
Lemma lang_variants l : forall u v w, lang (variants l) u v w <-> reads v l.
Proof.
  unfold variants, reads. induction l as [|vs l IH] using rev_ind; intros u v w.
  - cbn [fold_left]. split; [intros H; inversion H; constructor|]. intros H. inversion H. constructor.
  - rewrite fold_left_app. cbn [fold_left]. rewrite lang_cat_eps, lang_cat_inv. split.
    + intros (v1 & v2 & -> & H1 & H2). apply IH in H1. apply lang_cls in H2 as (x & wd & -> & M). apply Forall2_app; [exact H1|]. constructor; [|constructor]. apply mem_variants in M. exact M.
    + intros H. apply Forall2_app_inv_r in H as (v1 & v2 & H1 & H2 & ->). exists v1, v2. split; [reflexivity|]. split; [apply IH; exact H1|].
      inversion H2 as [|[x wd] ? ? ? Hx Ht]; subst. inversion Ht; subst. apply lang_cls. exists x, wd. split; [reflexivity|]. apply mem_variants. exact Hx.
Qed.

Definition wordy : list (N * N) := [(65, 90); (97, 122); (383, 383); (8490, 8490); (48, 57); (45, 45)]%N.
Lemma start_shape : start_re = Alt Bol (Alt (Cls true (wordy ++ [(95, 95)%N])) (Alt (Cat (Cls true wordy) (Cls false [(95, 95)%N])) (Alt (variants sprd) (variants mz)))).
Proof. reflexivity. Qed.
Lemma mem_wordy x : cls_mem true wordy x = true <-> ~ word_char x.
Proof. unfold cls_mem, wordy, in_rng, word_char. rewrite Bool.xorb_true_l. cbn [existsb fst snd]. lia. Qed.
Lemma mem_wordy_ x : cls_mem true (wordy ++ [(95, 95)%N]) x = true <-> ~ word_char x /\ x <> underscore.
Proof. unfold cls_mem, wordy, in_rng, word_char, underscore. rewrite Bool.xorb_true_l. cbn [existsb fst snd app]. lia. Qed.
Lemma mem_under x : cls_mem false [(95, 95)%N] x = true <-> x = underscore.
Proof. unfold cls_mem, in_rng, underscore. rewrite Bool.xorb_false_l. cbn [existsb fst snd]. lia. Qed.
Lemma lang_start u : at_start u <-> forall w, exists u1 v1, u = u1 ++ v1 /\ lang start_re u1 v1 w.
Proof.
  rewrite start_shape. split.
  - intros H w. destruct H as [->|v x wd -> N1 N2|v x wd wd' -> N|v s -> R|v s -> R].
    + exists [], []. split; [reflexivity|]. apply L_left. constructor.
    + exists v, [(x, wd)]. split; [reflexivity|]. apply L_right, L_left, L_cls. apply mem_wordy_. auto.
    + exists v, [(x, wd); (underscore, wd')]. split; [reflexivity|]. apply L_right, L_right, L_left. apply (L_cat _ _ v [(x, wd)] [(underscore, wd')]).
      * apply L_cls. apply mem_wordy. exact N.
      * apply L_cls. reflexivity.
    + exists v, s. split; [reflexivity|]. apply L_right, L_right, L_right, L_left. apply lang_variants. exact R.
    + exists v, s. split; [reflexivity|]. apply L_right, L_right, L_right, L_right. apply lang_variants. exact R.
  - intros H. destruct (H []) as (u1 & v1 & -> & L). rewrite !lang_alt in L. destruct L as [L|[L|[L|[L|L]]]].
    + inversion L; subst. apply A_begin. reflexivity.
    + apply lang_cls in L as (x & wd & -> & M). apply mem_wordy_ in M as [M1 M2]. eapply A_other; [reflexivity|exact M1|exact M2].
    + apply lang_cat_inv in L as (v2 & v3 & -> & L2 & L3). apply lang_cls in L2 as (x & wd & -> & M2). apply lang_cls in L3 as (y & wd' & -> & M3).
      apply mem_wordy in M2. apply mem_under in M3. subst y. eapply A_under; [reflexivity|exact M2].
    + apply lang_variants in L. eapply A_sprd; [reflexivity|exact L].
    + apply lang_variants in L. eapply A_mz; [reflexivity|exact L].
Qed.
(** The prefix does not look at what follows. *)
Lemma lang_start_any u v w w' : lang start_re u v w -> lang start_re u v w'.
Proof.
  rewrite start_shape, !lang_alt. intros [L|[L|[L|[L|L]]]].
  - left. inversion L; subst. constructor.
  - right; left. apply lang_cls in L. apply lang_cls. exact L.
  - right; right; left. apply lang_cat_inv in L as (v2 & v3 & -> & L2 & L3). apply lang_cat_inv. exists v2, v3. split; [reflexivity|]. split; apply lang_cls; eapply lang_cls; eassumption.
  - right; right; right; left. apply lang_variants in L. apply lang_variants. exact L.
  - right; right; right; right. apply lang_variants in L. apply lang_variants. exact L.
Qed.
Lemma word_start_lang p a ng ua : parse_re (any_case p) = Some (a, ng) ->
  re_find (compile (word_start p)) ua <> None <-> exists u v w, runes ua = u ++ v ++ w /\ at_start u /\ lang a u v w.
Proof.
  intros H. rewrite (compile_lang _ _ _ ua (parse_word_start p a ng H)). split.
  - intros (u & v & w & E & L). apply lang_cat_inv in L as (v1 & v2 & -> & L1 & L2). exists (u ++ v1), v2, w. rewrite E, <- !app_assoc. split; [reflexivity|]. split; [|exact L2].
    apply lang_start. intros w'. exists u, v1. split; [reflexivity|]. exact (lang_start_any _ _ _ _ L1).
  - intros (u & v & w & E & S & L). apply lang_start with (w := v ++ w) in S as (u1 & v1 & -> & L1). exists u1, (v1 ++ v), w. rewrite E, <- !app_assoc. split; [reflexivity|]. apply lang_cat_inv. eauto.
Qed.

(** ** Behind a vendor pattern *)

Definition tail_of (r s : list N) : Prop := exists p, s = p ++ r.
Lemma tail_refl s : tail_of s s.
Proof. exists []. reflexivity. Qed.
Lemma tail_cons r c s : tail_of r s -> tail_of r (c :: s).
Proof. intros [p ->]. exists (c :: p). reflexivity. Qed.
Lemma tail_trans a b c : tail_of a b -> tail_of b c -> tail_of a c.
Proof. intros [p ->] [q ->]. exists (q ++ p). rewrite app_assoc. reflexivity. Qed.
Lemma tail_tl a b c : tail_of (c :: a) b -> tail_of a b.
Proof. intros [p ->]. exists (p ++ [c]). rewrite <- app_assoc. reflexivity. Qed.
Lemma tail_in a b x : tail_of a b -> In x a -> In x b.
Proof. intros [p ->] I. apply in_app_iff. auto. Qed.
#[local] Hint Resolve tail_refl tail_cons tail_tl : tails.
Lemma num_tail s : forall acc, tail_of (snd (parse_num s acc)) s.
Proof. induction s as [|c s IH]; intros acc; cbn [parse_num]; [apply tail_refl|]. destruct (in_rng 48 57 c); [apply tail_cons, IH|apply tail_refl]. Qed.
Lemma quant_tail s mn mx r : parse_quant s = Some (mn, mx, r) -> tail_of r s.
Proof.
  destruct s as [|c s]; [discriminate|]. unfold parse_quant. pose proof (num_tail s None) as T.
  destruct (c =? 42)%N; [intros H; injection H as <- <- <-; auto with tails|]. destruct (c =? 43)%N; [intros H; injection H as <- <- <-; auto with tails|].
  destruct (c =? 63)%N; [intros H; injection H as <- <- <-; auto with tails|]. destruct (c =? 123)%N; [|discriminate].
  destruct (parse_num s None) as [[n|] [|d t]]; try discriminate. cbn [snd] in T.
  destruct (d =? 125)%N; [intros H; injection H as <- <- <-; eauto with tails|]. destruct (d =? 44)%N; [|discriminate].
  pose proof (num_tail t None) as T2. destruct (parse_num t None) as [[m|] [|e t']]; try discriminate; cbn [snd] in T2;
    (destruct (_ : bool); [|discriminate]); intros H; injection H as <- <- <-; apply tail_cons; exact (tail_trans _ _ _ (tail_tl _ _ _ T2) (tail_tl _ _ _ T)).
Qed.
Lemma class_char_tail s lo r : class_char s = Some (lo, r) -> tail_of r s.
Proof.
  destruct s as [|c s]; [discriminate|]. cbn [class_char]. destruct (c =? 92)%N; [destruct s as [|e s]; [discriminate|]; destruct (is_punct e); [|discriminate]|];
    intros H; injection H as <- <-; auto with tails.
Qed.
Lemma class_tail fold : forall f first s acc rs r, class_items f fold first s acc = Some (rs, r) -> tail_of r s.
Proof.
  induction f as [|f IH]; intros first s acc rs r H; [discriminate H|]. cbn [class_items] in H. destruct s as [|c s]; [discriminate H|].
  destruct ((c =? 93)%N && negb first). { injection H as <- <-. auto with tails. }
  destruct (if (c =? 92)%N then _ else None) as [p|]. { apply IH in H. apply tail_cons. destruct s; [exact H|apply tail_cons; exact H]. }
  destruct (class_char (c :: s)) as [[lo t]|] eqn:E; [|discriminate H]. apply class_char_tail in E.
  destruct t as [|d [|x t]]; [exact (tail_trans _ _ _ (IH _ _ _ _ _ H) E)|exact (tail_trans _ _ _ (IH _ _ _ _ _ H) E)|].
  destruct ((d =? 45)%N && negb (x =? 93)%N); [|exact (tail_trans _ _ _ (IH _ _ _ _ _ H) E)].
  cbn [tl] in H. destruct (class_char (x :: t)) as [[hi t']|] eqn:Eh; [|discriminate H]. apply class_char_tail in Eh. destruct (hi <? lo)%N; [discriminate H|].
  exact (tail_trans _ _ _ (tail_trans _ _ _ (IH _ _ _ _ _ H) Eh) (tail_tl _ _ _ E)).
Qed.
Lemma pclass_tail fold s a r : parse_class fold s = Some (a, r) -> tail_of r s.
Proof.
  unfold parse_class. destruct s as [|c s]; [discriminate|]. destruct (c =? 94)%N.
  - destruct (class_items (S (length s)) fold true s []) as [[rs q]|] eqn:E; [|discriminate]. intros H. injection H as <- <-. apply tail_cons. exact (class_tail _ _ _ _ _ _ _ E).
  - destruct (class_items (S (length (c :: s))) fold true (c :: s) []) as [[rs q]|] eqn:E; [|discriminate]. intros H. injection H as <- <-. exact (class_tail _ _ _ _ _ _ _ E).
Qed.
Lemma parse_tail fold : forall f,
  (forall n s a n1 r, parse_alt f fold n s = Some (a, n1, r) -> tail_of r s) /\ (forall n s acc a n1 r, parse_seq f fold n s acc = Some (a, n1, r) -> tail_of r s).
Proof.
  induction f as [|f [IHa IHs]]; split; try discriminate.
  - intros n s a n1 r H. cbn [parse_alt] in H. destruct (parse_seq f fold n s Eps) as [[[x nx] [|c s1]]|] eqn:E; [| |discriminate H]; apply IHs in E.
    + injection H as <- <- <-. exact E.
    + destruct (c =? 124)%N; [|injection H as <- <- <-; exact E]. destruct (parse_alt f fold nx s1) as [[[b n2] s2]|] eqn:E2; [|discriminate H]. injection H as <- <- <-.
      exact (tail_trans _ _ _ (IHa _ _ _ _ _ E2) (tail_tl _ _ _ E)).
  - intros n s acc a n1 r H. destruct s as [|c s]; [cbn [parse_seq] in H; injection H as <- <- <-; apply tail_refl|]. rewrite seq_step in H.
    destruct ((c =? 124)%N || (c =? 41)%N). { injection H as <- <- <-. apply tail_refl. }
    destruct (atom f fold n c s) as [[[x nx] s1]|] eqn:E; [|discriminate H].
    assert (T : tail_of s1 s).
    { unfold atom in E. assert (G : forall m u (b : re -> re), (match parse_alt f fold m u with Some (a, n1, e :: s3) => if (e =? 41)%N then Some (b a, n1, s3) else None | _ => None end) = Some (x, nx, s1) -> tail_of s1 u).
      { intros m u b. destruct (parse_alt f fold m u) as [[[y ny] [|e s3]]|] eqn:Ea; try discriminate. destruct (e =? 41)%N; [|discriminate]. intros Hx. injection Hx as _ _ <-. exact (tail_tl _ _ _ (IHa _ _ _ _ _ Ea)). }
      destruct (c =? 40)%N.
      - destruct s as [|q [|d s2]]; [exact (G _ _ (Grp (S n)) E)|exact (G _ _ (Grp (S n)) E)|]. destruct (q =? 63)%N; [|exact (G _ _ (Grp (S n)) E)].
        destruct (d =? 58)%N; [|discriminate E]. apply tail_cons, tail_cons. exact (G _ _ (fun x => x) E).
      - destruct (c =? 91)%N. { destruct (parse_class fold s) as [[y q]|] eqn:Ec; [|discriminate E]. injection E as _ _ <-. exact (pclass_tail _ _ _ _ Ec). }
        destruct (c =? 92)%N. { destruct s as [|e s]; [discriminate E|]. destruct (perl_class fold e); [|destruct (is_punct e); [|discriminate E]]; injection E as _ _ <-; auto with tails. }
        repeat (match type of E with (if ?b then _ else _) = _ => destruct b end; try discriminate E; try (injection E as _ _ <-; apply tail_refl)). }
    apply tail_cons. destruct (parse_quant s1) as [[[mn mx] s2]|] eqn:Q.
    + apply quant_tail in Q. assert (A : tail_of (snd (after s2)) s2). { destruct s2 as [|d s2]; [apply tail_refl|]. cbn [after]. destruct (d =? 63)%N; cbn [snd]; auto with tails. }
      destruct (after s2) as [g s3]. cbn [snd] in A. destruct (parse_quant s3); [discriminate H|]. apply IHs in H. exact (tail_trans _ _ _ (tail_trans _ _ _ (tail_trans _ _ _ H A) Q) T).
    + apply IHs in H. exact (tail_trans _ _ _ H T).
Qed.

Definition small : re := Cls true [(97, 122); (48, 57)]%N.
Lemma mem_small x : cls_mem true [(97, 122); (48, 57)]%N x = true <-> ~ small_char x.
Proof. unfold cls_mem, in_rng, small_char. rewrite Bool.xorb_true_l. cbn [existsb fst snd]. lia. Qed.
Definition vtail : list N := map bn (bs "[^a-z0-9]+").
Lemma parse_vtail f n acc : parse_seq (S (S f)) false n vtail acc = Some (cat acc (Cat small (Star true small)), n, []).
Proof. reflexivity. Qed.
(** Patterns that do not set the flag. *)
Definition no_flag (cs : list N) : Prop := match cs with a :: b :: c :: d :: _ => (a =? 40)%N && (b =? 63)%N && (c =? 105)%N && (d =? 41)%N = false | _ => True end.
Lemma parse_no_flag p : no_flag (map fst (runes p)) -> parse_re p =
  match parse_alt (2 * length (map fst (runes p)) + 2) false 0 (map fst (runes p)) with Some (a, n, []) => Some (a, n) | _ => None end.
Proof.
  unfold parse_re, no_flag. destruct (map fst (runes p)) as [|a [|b [|c [|d r]]]]; try reflexivity. intros ->. reflexivity.
Qed.
Lemma no_flag_more cs : no_flag cs -> no_flag (cs ++ vtail).
Proof.
  destruct cs as [|a [|b [|c [|d r]]]]; cbn [app no_flag vtail map bs]; intros H; try exact H; try reflexivity; unfold vtail; cbn; lia.
Qed.
Lemma parse_vendor p a ng : no_flag (map fst (runes p)) -> ~ In 124%N (map fst (runes p)) -> parse_re p = Some (a, ng) ->
  parse_re (p ++ bs "[^a-z0-9]+") = Some (cat a (Cat small (Star true small)), ng).
Proof.
  intros NF NB. rewrite (parse_no_flag p NF). set (cs := map fst (runes p)) in *. intros H.
  assert (E : map fst (runes (p ++ bs "[^a-z0-9]+")) = cs ++ vtail).
  { change (bs "[^a-z0-9]+") with (x5b :: bs "^a-z0-9]+"). rewrite (runes_more x5b _ ltac:(reflexivity) (length p) p (le_n _)), map_app. reflexivity. }
  rewrite parse_no_flag by (rewrite E; apply no_flag_more; exact NF). rewrite E.
  destruct (parse_alt (2 * length cs + 2) false 0 cs) as [[[a' n'] [|? ?]]|] eqn:Ea; try discriminate H. injection H as -> ->.
  replace (2 * length cs + 2) with (S (2 * length cs + 1)) in Ea by lia. cbn [parse_alt] in Ea.
  destruct (parse_seq (2 * length cs + 1) false 0 cs Eps) as [[[x nx] [|c s1]]|] eqn:Es; [| |discriminate Ea].
  - injection Ea as -> ->. assert (F : fresh vtail). { exists 91%N, (map bn (bs "^a-z0-9]+")). split; [reflexivity|]. split; [intros I; cbn [In] in I; lia|reflexivity]. }
    destruct (seq_then false vtail F _ _ _ _ _ _ Es) as (k & Lk & K).
    assert (Lv : length (cs ++ vtail) = length cs + 10) by (rewrite app_length; reflexivity). rewrite Lv.
    replace (2 * (length cs + 10) + 2) with (S (k + S (S (2 * length cs + 19 - k)))) by lia. cbn [parse_alt].
    rewrite K by lia. rewrite parse_vtail. reflexivity.
  - exfalso. apply NB. apply (proj2 (parse_tail false _)) in Es. destruct (c =? 124)%N eqn:Ec; [|discriminate Ea]. apply N.eqb_eq in Ec. subst c.
    apply (tail_in _ _ _ Es). left. reflexivity.
Qed.
Lemma vendor_lang p a ng ua : no_flag (map fst (runes p)) -> ~ In 124%N (map fst (runes p)) -> parse_re p = Some (a, ng) ->
  re_find (compile (p ++ bs "[^a-z0-9]+")) ua <> None <-> exists u v x wd w, runes ua = u ++ v ++ (x, wd) :: w /\ lang a u v ((x, wd) :: w) /\ ~ small_char x.
Proof.
  intros NF NB H. rewrite (compile_lang _ _ _ ua (parse_vendor p a ng NF NB H)). split.
  - intros (u & v & w & E & L). apply lang_cat_eps, lang_cat_inv in L as (v1 & v2 & -> & L1 & L2). apply lang_cat_inv in L2 as (v3 & v4 & -> & L3 & _).
    apply lang_cls in L3 as (x & wd & -> & M). apply mem_small in M. exists u, v1, x, wd, (v4 ++ w). rewrite E. rewrite <- !app_assoc. split; [reflexivity|]. split; [exact L1|exact M].
  - intros (u & v & x & wd & w & E & L & N). exists u, (v ++ [(x, wd)]), w. split; [rewrite E, <- !app_assoc; reflexivity|]. apply lang_cat_eps, lang_cat_inv. exists v, [(x, wd)].
    split; [reflexivity|]. split; [exact L|]. apply lang_cat_inv. exists [(x, wd)], []. split; [reflexivity|]. split; [|constructor]. apply lang_cls. exists x, wd. split; [reflexivity|]. apply mem_small. exact N.
Qed.

Lemma runes_bar p : ~ In "|"%byte p -> ~ In 124%N (map fst (runes p)).
Proof.
  intros H I. apply H. apply in_map_iff in I as ([x wd] & E & I). cbn [fst] in E. subst x. apply in_split in I as (u & w & E).
  destruct (sub_runes_bytes [124%N] u p [(124%N, wd)] w) as (a & q & b & -> & Eq); [repeat constructor|exact E|reflexivity|].
  destruct q as [|y [|? ?]]; try discriminate Eq. cbn [map] in Eq. injection Eq as Eq. apply in_app_iff. right. apply in_app_iff. left. left. apply bn_inj. exact Eq.
Qed.
Lemma runes_no_flag p : (forall q, p <> bs "(?i)" ++ q) -> no_flag (map fst (runes p)).
Proof.
  intros H. unfold no_flag. destruct (map fst (runes p)) as [|a [|b [|c [|d r]]]] eqn:E; try exact I.
  destruct ((a =? 40)%N && (b =? 63)%N && (c =? 105)%N && (d =? 41)%N) eqn:F; [|reflexivity]. exfalso.
  assert (Ev : runes p = firstn 4 (runes p) ++ skipn 4 (runes p)) by (symmetry; apply firstn_skipn).
  assert (Em : map fst (firstn 4 (runes p)) = [40; 63; 105; 41]%N).
  { rewrite <- firstn_map, E. cbn [firstn]. repeat (apply andb_prop in F as [F ?]). repeat f_equal; lia. }
  destruct (runes_prefix [40; 63; 105; 41]%N p _ _ ltac:(repeat constructor) Ev Em) as (q & b' & -> & Eq).
  apply (H b'). f_equal. clear - Eq. do 5 (destruct q as [|? q]; try discriminate Eq). cbn [map] in Eq. injection Eq as E1 E2 E3 E4.
  change (bs "(?i)") with [x28; x3f; x69; x29]%byte. apply (bn_inj _ x28) in E1. apply (bn_inj _ x3f) in E2. apply (bn_inj _ x69) in E3. apply (bn_inj _ x29) in E4. subst. reflexivity.
Qed.
Lemma vendor_word p a ng ua : ~ In "|"%byte p -> (forall q, p <> bs "(?i)" ++ q) -> parse_re p = Some (a, ng) ->
  re_find (compile (p ++ bs "[^a-z0-9]+")) ua <> None <-> exists u v x wd w, runes ua = u ++ v ++ (x, wd) :: w /\ lang a u v ((x, wd) :: w) /\ ~ small_char x.
Proof. intros B Q. apply vendor_lang; [apply runes_no_flag; exact Q|apply runes_bar; exact B]. Qed.

(** An entry of the database with a pattern. *)
Lemma client_entry K repl rs n a ng ua : ~ plain rs -> normalize rs = Some (Ok n) ->
  parse_re (any_case (match repl n with Some x => x | None => n end)) = Some (a, ng) -> k_valid K (match repl n with Some x => x | None => n end) = true ->
  db_applies K repl word_start rs ua <-> exists u v w, runes ua = u ++ v ++ w /\ at_start u /\ lang a u v w.
Proof.
  intros NP En Pa V. rewrite <- (word_start_lang _ _ _ ua Pa). unfold db_applies, db_finds, pattern_for. split.
  - intros [[P _]|(m & r & (_ & n' & En' & _ & ->) & F)]; [contradiction|]. rewrite En in En'. injection En' as <-. rewrite F. discriminate.
  - intros F. right. destruct (re_find (compile (word_start _)) ua) as [m|] eqn:E in F; [|contradiction]. exists m, (compile (word_start (match repl n with Some x => x | None => n end))).
    split; [|exact E]. split; [exact NP|]. exists n. split; [exact En|]. split; [exact V|reflexivity].
Qed.

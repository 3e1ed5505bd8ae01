(** The parser reads every pattern as it is meant. *)
From Verif Require Import Model_Base Model_Ctx Model_Regex Spec_Regex Proof_Pattern Spec_Syntax.
From Coq Require Import Lia ZifyBool ZifyNat ZifyN.

(** ** Meanings of the expressions the parser builds *)
Lemma lang_cat a b u v w : lang (Cat a b) u v w <-> exists v1 v2, v = v1 ++ v2 /\ lang a u v1 (v2 ++ w) /\ lang b (u ++ v1) v2 w.
Proof.
  split; [intros H; inversion H; subst; eauto|]. intros (v1 & v2 & -> & A & B). constructor; assumption.
Qed.
Lemma lang_eps u v w : lang Eps u v w <-> v = [].
Proof. split; [intros H; inversion H; reflexivity|intros ->; constructor]. Qed.
Lemma lang_alt a b u v w : lang (Alt a b) u v w <-> lang a u v w \/ lang b u v w.
Proof. split; [intros H; inversion H; subst; auto|]. intros [H|H]; [apply L_left|apply L_right]; exact H. Qed.
Lemma lang_grp n a u v w : lang (Grp n a) u v w <-> lang a u v w.
Proof. split; [intros H; inversion H; subst; assumption|intros H; constructor; exact H]. Qed.
Lemma lang_cls neg rs u v w : lang (Cls neg rs) u v w <-> one_rune (fun y => cls_mem neg rs y = true) v.
Proof. split; [intros H; inversion H; subst; eexists _, _; eauto|]. intros (y & wd & -> & H). constructor. exact H. Qed.

Lemma times_ext M M' : (forall u v w, M u v w <-> M' u v w) -> forall n u v w, times M n u v w <-> times M' n u v w.
Proof.
  intros E. induction n as [|n IH]; intros u v w; cbn [times]; [reflexivity|].
  split; intros (v1 & v2 & -> & A & B); exists v1, v2; (split; [reflexivity|]); (split; [apply E; exact A|apply IH; exact B]).
Qed.
Lemma times_app M n : forall m u v w, times M (n + m) u v w <-> exists v1 v2, v = v1 ++ v2 /\ times M n u v1 (v2 ++ w) /\ times M m (u ++ v1) v2 w.
Proof.
  induction n as [|n IH]; intros m u v w; cbn [times plus].
  - split; [intros H; exists [], v; rewrite app_nil_r; auto|]. intros (v1 & v2 & -> & -> & H). rewrite app_nil_r in H. exact H.
  - split.
    + intros (a & b & -> & Ma & T). apply IH in T as (c & d & -> & T1 & T2). exists (a ++ c), d. rewrite <- app_assoc. split; [reflexivity|].
      split; [|rewrite app_assoc; exact T2]. exists a, c. rewrite <- app_assoc in Ma. auto.
    + intros (v1 & d & -> & (a & c & -> & Ma & Tc) & Td). exists a, (c ++ d). rewrite <- !app_assoc. split; [reflexivity|]. split; [exact Ma|].
      apply IH. exists c, d. rewrite <- app_assoc. auto.
Qed.
Lemma times_one M u v w : times M 1 u v w <-> M u v w.
Proof.
  cbn [times]. split; [intros (v1 & v2 & -> & A & ->); rewrite app_nil_r; exact A|]. intros H. exists v, []. rewrite app_nil_r. auto.
Qed.
Lemma lang_rep_n a n : forall u v w, lang (rep_n n a) u v w <-> times (lang a) n u v w.
Proof.
  induction n as [|n IH]; intros u v w; [apply lang_eps|]. destruct n as [|n]; [cbn [rep_n]; rewrite times_one; reflexivity|].
  change (rep_n (S (S n)) a) with (Cat a (rep_n (S n) a)). rewrite lang_cat. cbn [times].
  split; intros (v1 & v2 & -> & A & B); exists v1, v2; (split; [reflexivity|]); (split; [exact A|]); [apply IH in B|apply IH]; exact B.
Qed.
Lemma lang_opt g a u v w : lang (opt g a) u v w <-> v = [] \/ lang a u v w.
Proof. unfold opt. destruct g; rewrite lang_alt, lang_eps; tauto. Qed.
Lemma lang_rep_opt g a n : forall u v w, lang (rep_opt n g a) u v w <-> exists m, m <= n /\ times (lang a) m u v w.
Proof.
  induction n as [|n IH]; intros u v w.
  - cbn [rep_opt]. rewrite lang_eps. split; [intros ->; exists 0; split; [lia|reflexivity]|]. intros (m & L & T). replace m with 0 in T by lia. exact T.
  - assert (X : lang (rep_opt (S n) g a) u v w <-> v = [] \/ exists m, m <= n /\ times (lang a) (S m) u v w).
    { destruct n as [|n].
      - cbn [rep_opt]. rewrite lang_opt. split; (intros [H|H]; [left; exact H|right]).
        + exists 0. split; [lia|]. apply times_one. exact H.
        + destruct H as (m & L & T). replace m with 0 in T by lia. exact (proj1 (times_one _ _ _ _) T).
      - change (rep_opt (S (S n)) g a) with (opt g (Cat a (rep_opt (S n) g a))). rewrite lang_opt, lang_cat.
        split; (intros [H|H]; [left; exact H|right]).
        + destruct H as (v1 & v2 & -> & A & B). apply IH in B as (m & L & T). exists m. split; [exact L|]. exists v1, v2. auto.
        + destruct H as (m & L & v1 & v2 & -> & A & T). exists v1, v2. split; [reflexivity|]. split; [exact A|]. apply IH. eauto. }
    rewrite X. split.
    + intros [->|(m & L & T)]; [exists 0; split; [lia|reflexivity]|exists (S m); split; [lia|exact T]].
    + intros ([|m] & L & T); [left; exact T|right; exists m; split; [lia|exact T]].
Qed.
Lemma lang_star g a u v w : lang (Star g a) u v w <-> exists n, times (lang a) n u v w.
Proof.
  split.
  - intros H. remember (Star g a) as r eqn:E. induction H as [| | | | | | |g0 a0 u w|g0 a0 u v1 v2 w H1 _ H2 IH|]; try discriminate E; injection E as -> ->.
    + exists 0. reflexivity.
    + destruct (IH eq_refl) as (n & T). exists (S n), v1, v2. auto.
  - intros (n & T). revert u v w T. induction n as [|n IH]; intros u v w; cbn [times]; [intros ->; constructor|].
    intros (v1 & v2 & -> & A & B). constructor; [exact A|apply IH; exact B].
Qed.
Lemma lang_repeat g a mn mx u v w : match mx with Some m => mn <= m | None => True end ->
  lang (repeat_re mn mx g a) u v w <-> exists n, mn <= n /\ match mx with Some m => n <= m | None => True end /\ times (lang a) n u v w.
Proof.
  intros L. unfold repeat_re. destruct mx as [m|].
  - assert (X : lang (Cat (rep_n mn a) (rep_opt (m - mn) g a)) u v w <-> exists n, mn <= n /\ n <= m /\ times (lang a) n u v w).
    { rewrite lang_cat. split.
      - intros (v1 & v2 & -> & A & B). apply lang_rep_n in A. apply lang_rep_opt in B as (k & Lk & B). exists (mn + k). split; [lia|]. split; [lia|].
        apply times_app. eauto.
      - intros (n & L1 & L2 & T). replace n with (mn + (n - mn)) in T by lia. apply times_app in T as (v1 & v2 & -> & A & B).
        exists v1, v2. split; [reflexivity|]. split; [apply lang_rep_n; exact A|apply lang_rep_opt]. exists (n - mn). split; [lia|exact B]. }
    destruct mn as [|mn].
    + rewrite lang_rep_opt. replace (m - 0) with m by lia. split; intros (k & T); exists k; [split; [lia|exact T]|exact (proj2 T)].
    + destruct (m - S mn) as [|k] eqn:E; [|exact X]. rewrite <- X, lang_cat. cbn [rep_opt]. rewrite lang_rep_n. split.
      * intros T. exists v, []. rewrite app_nil_r. split; [reflexivity|]. split; [apply lang_rep_n; exact T|apply lang_eps; reflexivity].
      * intros (v1 & v2 & -> & A & B). apply lang_eps in B as ->. rewrite app_nil_r. apply lang_rep_n in A. exact A.
  - destruct mn as [|mn].
    + rewrite lang_star. split; intros (k & T); exists k; [split; [lia|auto]|exact (proj2 (proj2 T))].
    + rewrite lang_cat. split.
      * intros (v1 & v2 & -> & A & B). apply lang_rep_n in A. apply lang_star in B as (k & B). exists (S mn + k). split; [lia|]. split; [exact I|].
        apply times_app. eauto.
      * intros (n & L1 & _ & T). replace n with (S mn + (n - S mn)) in T by lia. apply times_app in T as (v1 & v2 & -> & A & B).
        exists v1, v2. split; [reflexivity|]. split; [apply lang_rep_n; exact A|apply lang_star; eauto].
Qed.

(** ** Classes *)
Definition in_ranges (rs : list (N * N)) (y : N) : Prop := exists x, In x rs /\ (fst x <= y <= snd x)%N.
Lemma existsb_ranges rs y : existsb (fun x => in_rng (fst x) (snd x) y) rs = true <-> in_ranges rs y.
Proof.
  rewrite existsb_exists. unfold in_ranges, in_rng. split; intros (x & I & H); exists x; (split; [exact I|lia]).
Qed.
Lemma in_ranges_app a b y : in_ranges (a ++ b) y <-> in_ranges a y \/ in_ranges b y.
Proof.
  unfold in_ranges. split.
  - intros (x & I & H). apply in_app_or in I as [I|I]; [left|right]; eauto.
  - intros [(x & I & H)|(x & I & H)]; exists x; (split; [apply in_or_app; auto|exact H]).
Qed.
Lemma in_ranges_cons lo hi a y : in_ranges ((lo, hi) :: a) y <-> (lo <= y <= hi)%N \/ in_ranges a y.
Proof.
  unfold in_ranges. split.
  - intros (x & [<-|I] & H); [left; exact H|right; eauto].
  - intros [H|(x & I & H)]; [exists (lo, hi); cbn; auto|exists x; cbn; auto].
Qed.
Lemma in_ranges_nil y : in_ranges [] y <-> False.
Proof. unfold in_ranges. split; [intros (x & [] & _)|contradiction]. Qed.
Lemma cls_pos rs y : cls_mem false rs y = true <-> in_ranges rs y.
Proof. unfold cls_mem. rewrite <- existsb_ranges. destruct (existsb _ rs); cbn; split; auto. Qed.
Lemma cls_neg rs y : cls_mem true rs y = true <-> ~ in_ranges rs y.
Proof. unfold cls_mem. rewrite <- existsb_ranges. destruct (existsb _ rs); cbn; split; congruence. Qed.

Lemma lit_spec fold x y : in_ranges (lit_rs fold x) y <-> variant fold x y.
Proof.
  unfold lit_rs, variant. destruct fold.
  - unfold in_ranges. split.
    + intros (z & I & H). apply in_map_iff in I as (t & <- & I). cbn [fst snd] in H. replace y with t by lia. exact I.
    + intros I. exists (y, y). split; [apply in_map_iff; eauto|cbn; lia].
  - rewrite in_ranges_cons, in_ranges_nil. lia.
Qed.
Lemma orbit_ascii z y : (z < 128)%N -> In y (orbit z) <->
  (y = z \/ 65 <= z <= 90 /\ y = z + 32 \/ 97 <= z <= 122 /\ y + 32 = z \/ (z = 83 \/ z = 115) /\ y = 383 \/ (z = 75 \/ z = 107) /\ y = 8490)%N.
Proof.
  intros L. unfold orbit, in_rng.
  destruct (((65 <=? z)%N && (z <=? 90)%N || (97 <=? z)%N && (z <=? 122)%N || (z =? 383)%N || (z =? 8490)%N)) eqn:E.
  - replace (z =? 383)%N with false by lia. replace (z =? 8490)%N with false by lia. destruct (z <? 97)%N eqn:E1.
    + destruct (z + 32 =? 115)%N eqn:E2; [|destruct (z + 32 =? 107)%N eqn:E3]; cbn [In]; lia.
    + destruct (z =? 115)%N eqn:E2; [|destruct (z =? 107)%N eqn:E3]; cbn [In]; lia.
  - replace ((1040 <=? z)%N && (z <=? 1103)%N) with false by lia. replace ((8544 <=? z)%N && (z <=? 8559)%N) with false by lia.
    replace ((8560 <=? z)%N && (z <=? 8575)%N) with false by lia. cbn [In]. lia.
Qed.
Lemma shift_spec lo hi a b f y : in_ranges (shift_rng lo hi a b f) y <-> (N.max lo a <= N.min hi b /\ f (N.max lo a) <= y <= f (N.min hi b))%N.
Proof.
  unfold shift_rng. destruct (N.max lo a <=? N.min hi b)%N eqn:E; [rewrite in_ranges_cons|]; rewrite in_ranges_nil; lia.
Qed.
Lemma range_spec fold lo hi y : (lo <= hi)%N -> (fold = true -> (hi < 128)%N) -> in_ranges (range_rs fold lo hi) y <-> exists z, (lo <= z <= hi)%N /\ variant fold z y.
Proof.
  intros L0 L. unfold range_rs, variant. destruct fold.
  2:{ rewrite in_ranges_cons, in_ranges_nil. split; [intros [H|[]]; eauto|intros (z & H & ->); auto]. }
  specialize (L eq_refl). rewrite in_ranges_cons, !in_ranges_app, !shift_spec.
  split.
  - intros H. assert (K : (lo <= y <= hi \/ lo <= y - 32 <= hi /\ 97 <= y <= 122 \/ lo <= y + 32 <= hi /\ 65 <= y <= 90 \/
       y = 383 /\ (lo <= 83 <= hi \/ lo <= 115 <= hi) \/ y = 8490 /\ (lo <= 75 <= hi \/ lo <= 107 <= hi))%N).
    { destruct H as [H|[H|[H|[H|H]]]].
      - auto.
      - right. left. lia.
      - right. right. left. lia.
      - right. right. right. left. unfold in_rng in H. match type of H with context [if ?b then _ else _] => destruct b eqn:E end;
          [rewrite in_ranges_cons, in_ranges_nil in H; lia|rewrite in_ranges_nil in H; contradiction].
      - right. right. right. right. unfold in_rng in H. match type of H with context [if ?b then _ else _] => destruct b eqn:E end;
          [rewrite in_ranges_cons, in_ranges_nil in H; lia|rewrite in_ranges_nil in H; contradiction]. }
    clear H. destruct K as [K|[K|[K|[[-> [K|K]]|[-> [K|K]]]]]].
    + exists y. split; [exact K|]. apply orbit_ascii; lia.
    + exists (y - 32)%N. split; [lia|]. apply orbit_ascii; lia.
    + exists (y + 32)%N. split; [lia|]. apply orbit_ascii; lia.
    + exists 83%N. split; [exact K|]. apply orbit_ascii; lia.
    + exists 115%N. split; [exact K|]. apply orbit_ascii; lia.
    + exists 75%N. split; [exact K|]. apply orbit_ascii; lia.
    + exists 107%N. split; [exact K|]. apply orbit_ascii; lia.
  - intros (z & Hz & O). apply orbit_ascii in O; [|lia]. unfold in_rng. destruct O as [->|[O|[O|[[O ->]|[O ->]]]]].
    + auto.
    + right. left. lia.
    + right. right. left. lia.
    + right. right. right. left. match goal with |- context [if ?b then _ else _] => replace b with true by lia end. rewrite in_ranges_cons. lia.
    + right. right. right. right. match goal with |- context [if ?b then _ else _] => replace b with true by lia end. rewrite in_ranges_cons. lia.
Qed.
Lemma perl_spec fold c : perl c -> exists rs, perl_class fold c = Some rs /\ forall y, in_ranges rs y <-> exists z, in_perl c z /\ variant fold z y.
Proof.
  intros [->|[->| ->]]; unfold perl_class; cbn [N.eqb Pos.eqb]; eexists; (split; [reflexivity|]); intros y.
  - rewrite in_ranges_cons, in_ranges_nil. unfold in_perl. split.
    + intros [H|[]]. exists y. split; [lia|]. unfold variant. destruct fold; [apply orbit_ascii; lia|reflexivity].
    + intros (z & Hz & V). unfold variant in V. destruct fold; [apply orbit_ascii in V; lia|lia].
  - rewrite !in_ranges_app, !range_spec, !in_ranges_cons, !in_ranges_nil by lia. unfold in_perl. split.
    + intros [[H|[]]|[(z & Hz & V)|[[H|[]]|(z & Hz & V)]]].
      * exists y. split; [lia|]. unfold variant. destruct fold; [apply orbit_ascii; lia|reflexivity].
      * exists z. split; [lia|exact V].
      * exists y. split; [lia|]. unfold variant. destruct fold; [apply orbit_ascii; lia|reflexivity].
      * exists z. split; [lia|exact V].
    + intros (z & Hz & V).
      assert (K : (48 <= z <= 57 \/ 65 <= z <= 90 \/ z = 95 \/ 97 <= z <= 122)%N) by lia. clear Hz. destruct K as [K|[K|[K|K]]].
      * left. left. unfold variant in V. destruct fold; [apply orbit_ascii in V; lia|lia].
      * right. left. eauto.
      * right. right. left. left. unfold variant in V. destruct fold; [apply orbit_ascii in V; lia|lia].
      * right. right. right. eauto.
  - rewrite !in_ranges_cons, in_ranges_nil. unfold in_perl. split.
    + intros H. exists y. split; [lia|]. unfold variant. destruct fold; [apply orbit_ascii; lia|reflexivity].
    + intros (z & Hz & V). unfold variant in V. destruct fold; [apply orbit_ascii in V; lia|lia].
Qed.
Lemma punct_ok x : punct x -> is_punct x = true.
Proof. unfold punct, is_punct, in_rng. lia. Qed.
Lemma punct_no_perl fold x : punct x -> perl_class fold x = None.
Proof.
  unfold punct, perl_class. intros H. replace (x =? 100)%N with false by lia. replace (x =? 119)%N with false by lia. replace (x =? 115)%N with false by lia. reflexivity.
Qed.
Lemma class_char_reads c l : ok_cchar c \/ c = Bare 93%N -> class_char (w_cchar c ++ l) = Some (char_of c, l).
Proof.
  intros H. destruct c as [x|x]; cbn [w_cchar app class_char char_of].
  - replace (x =? 92)%N with false; [reflexivity|]. destruct H as [H|H]; [cbn [ok_cchar In] in H; lia|injection H as ->; reflexivity].
  - destruct H as [H|H]; [|discriminate H]. cbn [N.eqb Pos.eqb]. rewrite (punct_ok x H). reflexivity.
Qed.
Lemma class_start fuel fold first c t acc : ok_cchar c \/ first = true /\ c = Bare 93%N ->
  class_items (S fuel) fold first (w_cchar c ++ t) acc =
  match t with
  | d :: x :: _ =>
      if (d =? 45)%N && negb (x =? 93)%N then
        match class_char (tl t) with
        | Some (hi, t') => if (hi <? char_of c)%N then None else class_items fuel fold false t' (acc ++ range_rs fold (char_of c) hi)
        | None => None
        end
      else class_items fuel fold false t (acc ++ lit_rs fold (char_of c))
  | _ => class_items fuel fold false t (acc ++ lit_rs fold (char_of c))
  end.
Proof.
  intros H. assert (C : class_char (w_cchar c ++ t) = Some (char_of c, t)) by (apply class_char_reads; destruct H as [H|[_ H]]; auto).
  destruct c as [x|x]; cbn [w_cchar app] in *; cbn [class_items].
  - replace ((x =? 93)%N && negb first) with false.
    2:{ destruct H as [H|[-> H]]; [cbn [ok_cchar In] in H|]; lia. }
    replace (x =? 92)%N with false.
    2:{ destruct H as [H|[_ H]]; [cbn [ok_cchar In] in H; lia|injection H as ->; reflexivity]. }
    rewrite C. reflexivity.
  - destruct H as [H|[_ H]]; [|discriminate H]. cbn [ok_cchar] in H. cbn [N.eqb Pos.eqb andb].
    rewrite (punct_no_perl fold x H), C. reflexivity.
Qed.
Lemma w_cchar_pos c : 1 <= length (w_cchar c).
Proof. destruct c; cbn; lia. Qed.
Lemma w_items_head i l : exists h t, w_items (i :: l) = h :: t.
Proof.
  unfold w_items. cbn [flat_map]. destruct i as [c|a b|c]; cbn [w_item]; [destruct c|destruct a|]; cbn [w_cchar app]; eauto.
Qed.
Lemma class_reads l : forall fold first acc fuel rest, ok_items fold first l -> length (w_items l) < fuel -> (l = [] -> first = false) ->
  exists rs, class_items fuel fold first (w_items l ++ 93%N :: rest) acc = Some (acc ++ rs, rest) /\
    forall y, in_ranges rs y <-> exists i, In i l /\ in_item fold i y.
Proof.
  induction l as [|i l IH]; intros fold first acc fuel rest Ok Lf Nf; (destruct fuel as [|fuel]; [lia|]).
  - rewrite (Nf eq_refl). cbn [w_items flat_map app class_items N.eqb Pos.eqb negb andb]. exists []. rewrite app_nil_r. split; [reflexivity|].
    intros y. rewrite in_ranges_nil. split; [contradiction|]. intros (i & [] & _).
  - cbn [ok_items] in Ok. destruct Ok as [Oi Ok]. unfold w_items in Lf. cbn [flat_map] in Lf. rewrite app_length in Lf. fold (w_items l) in Lf.
    assert (E : forall X, w_items (i :: l) ++ X = w_item i ++ w_items l ++ X) by (intros X; unfold w_items; cbn [flat_map]; rewrite <- app_assoc; reflexivity).
    rewrite E. clear E.
    assert (Fin : forall rs0, (forall y, in_ranges rs0 y <-> in_item fold i y) -> length (w_items l) < fuel ->
      exists rs, class_items fuel fold false (w_items l ++ 93%N :: rest) (acc ++ rs0) = Some (acc ++ rs, rest) /\
      forall y, in_ranges rs y <-> exists j, In j (i :: l) /\ in_item fold j y).
    { intros rs0 H0 L. destruct (IH fold false (acc ++ rs0) fuel rest Ok L (fun _ => eq_refl)) as (rs & R & S). exists (rs0 ++ rs). rewrite app_assoc. split; [exact R|].
      intros y. rewrite in_ranges_app, H0, S. split.
      - intros [H|(j & I & H)]; [exists i|exists j]; cbn; auto.
      - intros (j & [<-|I] & H); [left; exact H|right; eauto]. }
    destruct i as [c|a b|c]; cbn [w_item] in *.
    + destruct Oi as [Oc On]. rewrite (class_start _ _ _ _ _ _ Oc). pose proof (w_cchar_pos c) as P. cbn [in_item] in Fin.
      assert (G : exists rs, class_items fuel fold false (w_items l ++ 93%N :: rest) (acc ++ lit_rs fold (char_of c)) = Some (acc ++ rs, rest) /\
        forall y, in_ranges rs y <-> exists j, In j (IChar c :: l) /\ in_item fold j y).
      { apply Fin; [intros y; apply lit_spec|lia]. }
      clear Fin. destruct On as [->|On].
      * cbn [w_items flat_map w_item w_cchar app] in *. cbn [N.eqb Pos.eqb negb andb]. exact G.
      * destruct l as [|j l]; [cbn [w_items flat_map app] in *; destruct rest as [|r rest]; exact G|].
        destruct (w_items_head j l) as (h & t & E). rewrite E in *. cbn [hd] in On. cbn [app] in *.
        replace (h =? 45)%N with false by lia. cbn [andb]. destruct (t ++ 93%N :: rest); exact G.
    + destruct Oi as (Oa & Ob & Le & Lo). rewrite <- app_assoc. rewrite class_start by (left; exact Oa). cbn [app].
      assert (Hb : exists x t, w_cchar b ++ w_items l ++ 93%N :: rest = x :: t /\ x <> 93%N).
      { destruct b as [x|x]; cbn [w_cchar app]; eexists _, _; (split; [reflexivity|]); [cbn [ok_cchar In] in Ob; lia|lia]. }
      destruct Hb as (x & t & Eb & Nx). rewrite Eb. cbn [tl N.eqb Pos.eqb andb]. replace (x =? 93)%N with false by lia. cbn [negb]. rewrite <- Eb.
      rewrite class_char_reads by (left; exact Ob). replace (char_of b <? char_of a)%N with false by lia.
      rewrite app_length in Lf. pose proof (w_cchar_pos a) as P. apply Fin; [|lia].
      intros y. cbn [in_item]. apply range_spec; assumption.
    + cbn [app]. cbn [class_items N.eqb Pos.eqb andb tl]. destruct (perl_spec fold c Oi) as (rs0 & Ep & Sp). rewrite Ep.
      cbn [length] in Lf. apply Fin; [intros y; apply Sp|lia].
Qed.
Lemma parse_class_reads fold neg l rest : ok_atom fold (ASet neg l) ->
  exists rs, parse_class fold ((if neg then [94%N] else []) ++ w_items l ++ 93%N :: rest) = Some (Cls neg rs, rest) /\
    forall y, in_ranges rs y <-> exists i, In i l /\ in_item fold i y.
Proof.
  intros (N & Ok & H). unfold parse_class.
  assert (C : exists rs, class_items (S (length (w_items l ++ 93%N :: rest))) fold true (w_items l ++ 93%N :: rest) [] = Some (rs, rest) /\
    forall y, in_ranges rs y <-> exists i, In i l /\ in_item fold i y).
  { apply (class_reads l fold true []); [exact Ok|rewrite app_length; lia|intros ->; contradiction]. }
  destruct C as (rs & C & S). exists rs. split; [|exact S]. destruct neg.
  - cbn [app N.eqb Pos.eqb]. rewrite C. reflexivity.
  - cbn [app]. specialize (H eq_refl). destruct l as [|i l]; [contradiction|]. destruct (w_items_head i l) as (h & t & E). rewrite E in *. cbn [hd app] in *.
    replace (h =? 94)%N with false by lia. rewrite C. reflexivity.
Qed.

(** ** Counts *)
Definition no_quant (l : list N) : Prop := match l with [] => True | c :: _ => ~ In c [42; 43; 63; 123]%N end.
Lemma no_quant_none l : no_quant l -> parse_quant l = None.
Proof.
  destruct l as [|c l]; [reflexivity|]. cbn [no_quant In]. intros H. unfold parse_quant.
  replace (c =? 42)%N with false by lia. replace (c =? 43)%N with false by lia. replace (c =? 63)%N with false by lia. replace (c =? 123)%N with false by lia. reflexivity.
Qed.
Lemma parse_num_reads d : forall acc t, Forall (fun x => (x < 10)%N) d -> (match t with [] => True | c :: _ => ~ (48 <= c <= 57)%N end) ->
  parse_num (w_digits d ++ t) acc =
  (match d with [] => acc | _ => Some (fold_left (fun n x => n * 10 + N.to_nat x) d (match acc with Some n => n | None => 0 end)) end, t).
Proof.
  induction d as [|x d IH]; intros acc t F H; cbn [w_digits map app].
  - destruct t as [|c t]; [reflexivity|]. cbn [parse_num]. unfold in_rng. replace ((48 <=? c)%N && (c <=? 57)%N) with false by lia. reflexivity.
  - inversion F as [|? ? Hx F']; subst. cbn [parse_num]. unfold in_rng. replace ((48 <=? 48 + x)%N && (48 + x <=? 57)%N) with true by lia.
    fold (w_digits d). rewrite IH by assumption. replace (48 + x - 48)%N with x by lia. cbn [fold_left].
    destruct d as [|y d]; cbn [fold_left]; destruct acc; reflexivity.
Qed.
Lemma parse_num_value d t : ok_number d -> (match t with [] => True | c :: _ => ~ (48 <= c <= 57)%N end) ->
  parse_num (w_digits d ++ t) None = (Some (value d), t).
Proof. intros (N & F & _) H. rewrite parse_num_reads by assumption. destruct d; [contradiction|reflexivity]. Qed.

Definition least (c : count) : nat := match c with Once | OneMore => 1 | ZeroMore | ZeroOne => 0 | Exactly d | AtLeast d | Between d _ => value d end.
Definition most (c : count) : option nat :=
  match c with Once | ZeroOne => Some 1 | ZeroMore | OneMore | AtLeast _ => None | Exactly d => Some (value d) | Between _ e => Some (value e) end.
Lemma allowed_spec c n : ok_count c -> allowed c n <-> least c <= n /\ match most c with Some m => n <= m | None => True end.
Proof. destruct c; cbn [ok_count allowed least most]; lia. Qed.
Lemma most_least c : ok_count c -> match most c with Some m => least c <= m | None => True end.
Proof. destruct c; cbn [ok_count least most]; intros; try exact I; lia. Qed.
Lemma quant_reads c l : ok_count c -> c <> Once -> parse_quant (w_count c ++ l) = Some (least c, most c, l).
Proof.
  intros Ok N. destruct c as [| | | |d|d|d e]; [contradiction|reflexivity|reflexivity|reflexivity| | |]; cbn [w_count app least most ok_count] in *;
    unfold parse_quant; cbn [N.eqb Pos.eqb]; rewrite <- ?app_assoc.
  - rewrite parse_num_value by (try exact Ok; cbn; lia). reflexivity.
  - rewrite parse_num_value by (try exact Ok; cbn; lia). cbn [app N.eqb Pos.eqb parse_num in_rng N.leb N.compare Pos.compare Pos.compare_cont andb]. reflexivity.
  - destruct Ok as (Od & Oe & L). rewrite parse_num_value by (try exact Od; cbn; lia). cbn [app N.eqb Pos.eqb]. rewrite <- app_assoc.
    rewrite parse_num_value by (try exact Oe; cbn; lia). cbn [app N.eqb Pos.eqb andb]. replace (value d <=? value e) with true by lia. reflexivity.
Qed.

(** ** Atoms and sequences *)
Definition read_atom (fuel : nat) (fold : bool) (n : nat) (c : N) (s' : list N) : option (re * nat * list N) :=
  if (c =? 40)%N then
    match s' with
    | q :: d :: s2 =>
        if (q =? 63)%N then
          if (d =? 58)%N then
            match parse_alt fuel fold n s2 with
            | Some (a, n1, e :: s3) => if (e =? 41)%N then Some (a, n1, s3) else None
            | _ => None
            end
          else None
        else
          match parse_alt fuel fold (S n) s' with
          | Some (a, n1, e :: s3) => if (e =? 41)%N then Some (Grp (S n) a, n1, s3) else None
          | _ => None
          end
    | _ =>
        match parse_alt fuel fold (S n) s' with
        | Some (a, n1, e :: s3) => if (e =? 41)%N then Some (Grp (S n) a, n1, s3) else None
        | _ => None
        end
    end
  else if (c =? 91)%N then
    match parse_class fold s' with Some (a, s1) => Some (a, n, s1) | None => None end
  else if (c =? 92)%N then
    match s' with
    | e :: s1 =>
        match perl_class fold e with
        | Some rs => Some (Cls false rs, n, s1)
        | None => if is_punct e then Some (Cls false (lit_rs fold e), n, s1) else None
        end
    | [] => None
    end
  else if (c =? 46)%N then Some (Cls true [(10, 10)%N], n, s')
  else if (c =? 94)%N then Some (Bol, n, s')
  else if (c =? 36)%N then Some (Eol, n, s')
  else if (c =? 42)%N || (c =? 43)%N || (c =? 63)%N || (c =? 123)%N then None
  else Some (Cls false (lit_rs fold c), n, s').
Lemma parse_seq_step fuel fold n c s' acc : (c =? 124)%N || (c =? 41)%N = false ->
  parse_seq (S fuel) fold n (c :: s') acc =
  match read_atom fuel fold n c s' with
  | None => None
  | Some (a, n1, s1) =>
      match parse_quant s1 with
      | Some (mn, mx, s2) =>
          let '(greedy, s3) := match s2 with d :: s3 => if (d =? 63)%N then (false, s3) else (true, s2) | [] => (true, s2) end in
          match parse_quant s3 with
          | Some _ => None
          | None => parse_seq fuel fold n1 s3 (cat acc (repeat_re mn mx greedy a))
          end
      | None => parse_seq fuel fold n1 s1 (cat acc a)
      end
  end.
Proof. intros E. cbn [parse_seq]. rewrite E. reflexivity. Qed.

Scheme alts_ind2 := Induction for alts Sort Prop with sequ_ind2 := Induction for sequ Sort Prop with atom_ind2 := Induction for atom Sort Prop.
Combined Scheme syntax_ind from alts_ind2, sequ_ind2, atom_ind2.

(** Where alternatives end, and where a sequence ends. *)
Definition ends_alts (l : list N) : Prop := match l with [] => True | c :: _ => c = 41%N end.
Definition ends_sequ (l : list N) : Prop := match l with [] => True | c :: _ => c = 41%N \/ c = 124%N end.
Definition reads_alts (a : alts) : Prop := forall fold fuel n rest, go_alts a -> ok_alts fold a -> ends_alts rest -> 2 * length (w_alts a) + 2 <= fuel ->
  exists r, parse_alt fuel fold n (w_alts a ++ rest) = Some (r, n + n_alts a, rest) /\ forall u v w, lang r u v w <-> m_alts fold a u v w.
Definition reads_sequ (s : sequ) : Prop := forall fold fuel n acc rest, go_sequ s -> ok_sequ fold s -> ends_sequ rest -> 2 * length (w_sequ s) + 1 <= fuel ->
  exists r, parse_seq fuel fold n (w_sequ s ++ rest) acc = Some (r, n + n_sequ s, rest) /\
  forall u v w, lang r u v w <-> exists v1 v2, v = v1 ++ v2 /\ lang acc u v1 (v2 ++ w) /\ m_sequ fold s (u ++ v1) v2 w.
Definition reads_atom (x : atom) : Prop := forall fold fuel n rest, go_atom x -> ok_atom fold x -> 2 * length (w_atom x) <= fuel ->
  exists c s r, w_atom x ++ rest = c :: s /\ ~ In c [124; 41; 42; 43; 63; 123]%N /\
  read_atom fuel fold n c s = Some (r, n + n_atom x, rest) /\ forall u v w, lang r u v w <-> m_atom fold x u v w.

Lemma w_sequ_head s fold : go_sequ s -> ok_sequ fold s -> forall rest, ends_sequ rest -> no_quant (w_sequ s ++ rest).
Proof.
  destruct s as [|x c z s]; cbn [w_sequ go_sequ ok_sequ].
  - intros _ _ [|d rest]; cbn [app no_quant ends_sequ In]; lia.
  - intros [G _] [Ok _] rest _. destruct x; cbn [w_atom app no_quant go_atom ok_atom] in *; try (cbn [In]; lia).
    + unfold meta in Ok. cbn [In] in *. lia.
    + destruct capture; cbn [app no_quant In]; lia.
Qed.
Lemma group_close fuel fold n a rest : reads_alts a -> go_alts a -> ok_alts fold a -> 2 * length (w_alts a) + 2 <= fuel ->
  exists r, parse_alt fuel fold n (w_alts a ++ 41%N :: rest) = Some (r, n + n_alts a, 41%N :: rest) /\ forall u v w, lang r u v w <-> m_alts fold a u v w.
Proof. intros R G O L. apply R; try assumption. reflexivity. Qed.
Lemma w_alts_noquery a fold : go_alts a -> ok_alts fold a -> forall rest, match w_alts a ++ 41%N :: rest with [] => True | c :: _ => c <> 63%N end.
Proof.
  intros G O rest.
  assert (H : forall s t, go_sequ s -> ok_sequ fold s -> ends_sequ t -> match w_sequ s ++ t with [] => True | c :: _ => c <> 63%N end).
  { intros s t G' O' E. pose proof (w_sequ_head s fold G' O' t E) as Q. destruct (w_sequ s ++ t) as [|c l]; [exact I|]. cbn [no_quant In] in Q. lia. }
  destruct a as [s|s a]; cbn [w_alts go_alts ok_alts] in *.
  - apply H; [exact G|exact O|cbn; auto].
  - rewrite <- app_assoc. apply H; [apply G|apply O|cbn; auto].
Qed.

Lemma syntax_reads : (forall a, reads_alts a) /\ (forall s, reads_sequ s) /\ (forall x, reads_atom x).
Proof.
  apply syntax_ind.
  - (* One *) intros s R fold fuel n rest G O E L. destruct fuel as [|fuel]; [lia|]. cbn [parse_alt w_alts n_alts m_alts go_alts ok_alts] in *.
    destruct (R fold fuel n Eps rest G O) as (r & P & M); [destruct rest; cbn in *; auto|lia|]. rewrite P. exists r. split.
    + destruct rest as [|c rest]; [reflexivity|]. cbn in E. subst c. reflexivity.
    + intros u v w. rewrite M. split.
      * intros (v1 & v2 & -> & A & B). apply lang_eps in A as ->. rewrite app_nil_r in B. exact B.
      * intros H. exists [], v. rewrite app_nil_r. split; [reflexivity|]. split; [constructor|exact H].
  - (* Or *) intros s Rs a Ra fold fuel n rest G O E L. destruct fuel as [|fuel]; [lia|]. cbn [parse_alt w_alts n_alts m_alts go_alts ok_alts] in *.
    rewrite app_length in L. cbn [length] in L. destruct G as [Gs Ga], O as [Os Oa].
    destruct (Rs fold fuel n Eps (124%N :: w_alts a ++ rest) Gs Os) as (r & P & M); [cbn; auto|lia|].
    rewrite <- app_assoc. cbn [app]. rewrite P. cbn [N.eqb Pos.eqb].
    destruct (Ra fold fuel (n + n_sequ s) rest Ga Oa E) as (r2 & P2 & M2); [lia|]. rewrite P2. exists (Alt r r2). split; [rewrite Nat.add_assoc; reflexivity|].
    intros u v w. rewrite lang_alt, M, M2. split; (intros [H|H]; [left|right; exact H]).
    + destruct H as (v1 & v2 & -> & A & B). apply lang_eps in A as ->. rewrite app_nil_r in B. exact B.
    + exists [], v. rewrite app_nil_r. split; [reflexivity|]. split; [constructor|exact H].
  - (* Empty *) intros fold fuel n acc rest _ _ E L. destruct fuel as [|fuel]; [lia|]. exists acc. cbn [w_sequ app n_sequ m_sequ]. split.
    + rewrite Nat.add_0_r. destruct rest as [|c rest]; [reflexivity|]. cbn in E. cbn [parse_seq]. replace ((c =? 124)%N || (c =? 41)%N) with true by lia. reflexivity.
    + intros u v w. split; [intros H; exists v, []; rewrite app_nil_r; auto|]. intros (v1 & v2 & -> & A & ->). rewrite app_nil_r. exact A.
  - (* Then *) intros x Rx c z s Rs fold fuel n acc rest G O E L. destruct fuel as [|fuel]; [lia|]. cbn [w_sequ n_sequ go_sequ ok_sequ] in *.
    destruct G as [Gx Gs], O as (Ox & Oc & Os). rewrite !app_length in L.
    pose proof (w_sequ_head s fold Gs Os rest E) as Q.
    rewrite <- !app_assoc. destruct (Rx fold fuel n (w_count c ++ w_lazy c z ++ w_sequ s ++ rest) Gx Ox) as (h & t & r & Ew & Nh & Pa & Ma); [lia|].
    assert (Lx : 1 <= length (w_atom x)).
    { destruct x; cbn; try lia. - destruct capture; cbn; lia. - destruct ahead; cbn; lia. }
    rewrite Ew, parse_seq_step by (cbn [In] in Nh; lia). rewrite Pa.
    assert (Next : forall b, (forall u v w, lang b u v w <-> exists k, allowed c k /\ times (lang r) k u v w) ->
      exists r', parse_seq fuel fold (n + n_atom x) (w_sequ s ++ rest) (cat acc b) = Some (r', n + (n_atom x + n_sequ s), rest) /\
      forall u v w, lang r' u v w <-> exists v1 v2, v = v1 ++ v2 /\ lang acc u v1 (v2 ++ w) /\ m_sequ fold (Then x c z s) (u ++ v1) v2 w).
    { intros b Hb. destruct (Rs fold fuel (n + n_atom x) (cat acc b) rest Gs Os E) as (r' & P & M); [lia|]. exists r'. rewrite Nat.add_assoc. split; [exact P|].
      intros u v w. rewrite M. cbn [m_sequ]. split.
      - intros (v1 & v2 & -> & A & B). apply lang_cat_eps, lang_cat in A as (a1 & a2 & -> & A1 & A2). apply Hb in A2 as (k & Hk & T).
        exists a1, (a2 ++ v2). rewrite <- !app_assoc. split; [reflexivity|]. split; [exact A1|].
        exists a2, v2, k. split; [reflexivity|]. split; [exact Hk|]. split; [apply (times_ext _ _ Ma); exact T|]. rewrite <- app_assoc in *. exact B.
      - intros (v1 & v' & -> & A & a2 & v2 & k & -> & Hk & T & B). exists (v1 ++ a2), v2. rewrite !app_assoc. split; [reflexivity|]. split; [|exact B].
        apply lang_cat_eps, lang_cat. exists v1, a2. split; [reflexivity|]. rewrite <- app_assoc in A. split; [exact A|]. apply Hb. exists k. split; [exact Hk|].
        apply (times_ext _ _ Ma). exact T. }
    destruct (match c with Once => true | _ => false end) eqn:C1.
    + assert (C : c = Once) by (destruct c; try discriminate C1; reflexivity). subst c. cbn [w_count w_lazy app]. rewrite (no_quant_none _ Q).
      apply Next. intros u v w. cbn [allowed]. rewrite <- times_one. split; [eauto|intros (k & -> & T); exact T].
    + assert (C : c <> Once) by (intros ->; discriminate C1). rewrite (quant_reads c _ Oc C).
      assert (Z : match w_lazy c z ++ w_sequ s ++ rest with d :: s3 => if (d =? 63)%N then (false, s3) else (true, w_lazy c z ++ w_sequ s ++ rest) | [] => (true, w_lazy c z ++ w_sequ s ++ rest) end
        = (negb z, w_sequ s ++ rest)).
      { unfold w_lazy. destruct z; [destruct c; try contradiction; reflexivity|].
        replace (match c with Once => [] | _ => [] end) with (@nil N) by (destruct c; reflexivity). cbn [app negb].
        destruct (w_sequ s ++ rest) as [|d l]; [reflexivity|]. cbn [no_quant In] in Q. replace (d =? 63)%N with false by lia. reflexivity. }
      rewrite Z. rewrite (no_quant_none _ Q). apply Next. intros u v w. rewrite lang_repeat by (apply most_least; exact Oc).
      split.
      * intros (k & L1 & L2 & T). exists k. split; [apply allowed_spec; auto|exact T].
      * intros (k & Al & T). exists k. apply allowed_spec in Al as [L1 L2]; [|exact Oc]. auto.
  - (* AChar *) intros x fold fuel n rest _ O L. cbn [w_atom app n_atom m_atom ok_atom] in *. eexists _, _, _. split; [reflexivity|]. unfold meta in O. cbn [In] in O.
    split; [cbn [In]; lia|]. split.
    + unfold read_atom. replace (x =? 40)%N with false by lia. replace (x =? 91)%N with false by lia. replace (x =? 92)%N with false by lia.
      replace (x =? 46)%N with false by lia. replace (x =? 94)%N with false by lia. replace (x =? 36)%N with false by lia.
      replace ((x =? 42)%N || (x =? 43)%N || (x =? 63)%N || (x =? 123)%N) with false by lia. rewrite Nat.add_0_r. reflexivity.
    + intros u v w. rewrite lang_cls. unfold one_rune. split; intros (y & wd & -> & H); exists y, wd; (split; [reflexivity|]); [rewrite cls_pos in H|apply cls_pos]; apply lit_spec; exact H.
  - (* AEsc *) intros x fold fuel n rest _ O L. cbn [w_atom app n_atom m_atom ok_atom] in *. eexists _, _, _. split; [reflexivity|].
    split; [cbn [In]; lia|]. split.
    + unfold read_atom. cbn [N.eqb Pos.eqb]. rewrite (punct_no_perl fold x O), (punct_ok x O), Nat.add_0_r. reflexivity.
    + intros u v w. rewrite lang_cls. unfold one_rune. split; intros (y & wd & -> & H); exists y, wd; (split; [reflexivity|]); [rewrite cls_pos in H|apply cls_pos]; apply lit_spec; exact H.
  - (* APerl *) intros c fold fuel n rest _ O L. cbn [w_atom app n_atom m_atom ok_atom] in *. destruct (perl_spec fold c O) as (rs & Ep & Sp). eexists _, _, _. split; [reflexivity|].
    split; [cbn [In]; lia|]. split.
    + unfold read_atom. cbn [N.eqb Pos.eqb]. rewrite Ep, Nat.add_0_r. reflexivity.
    + intros u v w. rewrite lang_cls. unfold one_rune. split; intros (y & wd & -> & H); exists y, wd; (split; [reflexivity|]); [rewrite cls_pos in H|apply cls_pos]; apply Sp; exact H.
  - (* AAny *) intros fold fuel n rest _ _ L. cbn [w_atom app n_atom m_atom] in *. eexists _, _, _. split; [reflexivity|]. split; [cbn [In]; lia|]. split.
    + unfold read_atom. cbn [N.eqb Pos.eqb]. rewrite Nat.add_0_r. reflexivity.
    + intros u v w. rewrite lang_cls. unfold one_rune. split; intros (y & wd & -> & H); exists y, wd; (split; [reflexivity|]).
      * rewrite cls_neg, in_ranges_cons, in_ranges_nil in H. lia.
      * rewrite cls_neg, in_ranges_cons, in_ranges_nil. lia.
  - (* ABegin *) intros fold fuel n rest _ _ L. cbn [w_atom app n_atom m_atom] in *. eexists _, _, _. split; [reflexivity|]. split; [cbn [In]; lia|]. split.
    + unfold read_atom. cbn [N.eqb Pos.eqb]. rewrite Nat.add_0_r. reflexivity.
    + intros u v w. split; [intros H; inversion H; auto|]. intros [-> ->]. constructor.
  - (* AEnd *) intros fold fuel n rest _ _ L. cbn [w_atom app n_atom m_atom] in *. eexists _, _, _. split; [reflexivity|]. split; [cbn [In]; lia|]. split.
    + unfold read_atom. cbn [N.eqb Pos.eqb]. rewrite Nat.add_0_r. reflexivity.
    + intros u v w. split; [intros H; inversion H; auto|]. intros [-> ->]. constructor.
  - (* ASet *) intros neg l fold fuel n rest _ O L. destruct (parse_class_reads fold neg l rest O) as (rs & P & S). cbn [w_atom n_atom].
    exists 91%N, ((if neg then [94%N] else []) ++ w_items l ++ 93%N :: rest), (Cls neg rs). split; [cbn [app]; rewrite <- !app_assoc; reflexivity|]. split; [cbn [In]; lia|]. split.
    + unfold read_atom. cbn [N.eqb Pos.eqb]. rewrite P, Nat.add_0_r. reflexivity.
    + intros u v w. rewrite lang_cls. unfold one_rune. destruct neg; cbn [m_atom]; unfold one_rune;
        split; intros (y & wd & -> & H); exists y, wd; (split; [reflexivity|]); rewrite ?cls_pos, ?cls_neg, <- ?S in *; exact H.
  - (* AGroup *) intros cap a R fold fuel n rest G O L. cbn [go_atom ok_atom] in *. pose proof (w_alts_noquery a fold G O rest) as Q. destruct cap; cbn [w_atom n_atom m_atom] in *.
    + cbn [length] in L. rewrite app_length in L. cbn [length] in L.
      destruct (group_close fuel fold (S n) a rest R G O) as (r & P & M); [lia|].
      exists 40%N, (w_alts a ++ 41%N :: rest), (Grp (S n) r). split; [cbn [app]; rewrite <- app_assoc; reflexivity|]. split; [cbn [In]; lia|]. split.
      * unfold read_atom. cbn [N.eqb Pos.eqb]. replace (n + S (n_alts a)) with (S n + n_alts a) by lia.
        destruct (w_alts a ++ 41%N :: rest) as [|q [|d l]] eqn:E; [destruct (w_alts a); discriminate E|rewrite P; reflexivity|].
        replace (q =? 63)%N with false by lia. rewrite P. reflexivity.
      * intros u v w. rewrite lang_grp. apply M.
    + cbn [length] in L. rewrite app_length in L. cbn [length] in L.
      destruct (group_close fuel fold n a rest R G O) as (r & P & M); [lia|].
      exists 40%N, (63%N :: 58%N :: w_alts a ++ 41%N :: rest), r. split; [cbn [app]; rewrite <- app_assoc; reflexivity|]. split; [cbn [In]; lia|]. split.
      * unfold read_atom. cbn [N.eqb Pos.eqb]. rewrite P. reflexivity.
      * exact M.
  - (* ALook *) intros ahead a _ fold fuel n rest G. destruct G.
Qed.

(** ** Whole patterns *)
Lemma encodes_runes src l : encodes src l -> map fst (runes src) = l.
Proof. intros [S E]. rewrite (runes_utf8 l src S E), map_map. cbn [fst]. apply map_id. Qed.
Lemma reads_pattern src fold a : encodes src (written fold a) -> ok_alts fold a -> go_alts a ->
  exists r, parse_re src = Some (r, n_alts a) /\ forall u v w, lang r u v w <-> m_alts fold a u v w.
Proof.
  intros En O G. unfold parse_re. rewrite (encodes_runes _ _ En). unfold written.
  destruct (proj1 syntax_reads a fold (2 * length (w_alts a) + 2) 0 [] G O I ltac:(lia)) as (r & P & M). rewrite app_nil_r in P. cbn [plus] in P.
  exists r. split; [|exact M]. destruct fold; cbn [app].
  - cbn [N.eqb Pos.eqb andb]. change (n_alts a) with (0 + n_alts a). rewrite P. reflexivity.
  - assert (E : (match w_alts a with
       | x :: b :: c :: d :: t => if ((x =? 40)%N && (b =? 63)%N && (c =? 105)%N && (d =? 41)%N) then (true, t) else (false, w_alts a)
       | _ => (false, w_alts a) end) = (false, w_alts a)).
    { destruct (w_alts a) as [|x [|b [|c [|d t]]]] eqn:Ea; try reflexivity.
      destruct ((x =? 40)%N && (b =? 63)%N && (c =? 105)%N && (d =? 41)%N) eqn:T; [exfalso|reflexivity].
      assert (Hx : x = 40%N /\ b = 63%N /\ c = 105%N) by lia. destruct Hx as (-> & -> & ->).
      assert (S : forall s X, go_sequ s -> ok_sequ false s -> w_sequ s ++ X = 40%N :: 63%N :: 105%N :: d :: t -> match X with [] => True | e :: _ => e = 124%N end -> False).
      { intros s X Gs Os Es HX. destruct s as [|y k z s]; cbn [w_sequ app] in Es.
        - subst X. cbn in HX. discriminate HX.
        - cbn [go_sequ ok_sequ] in Gs, Os. destruct Gs as [Gy _], Os as [Oy _].
          destruct y as [x|x|x| | | |neg l|[|] g|ah g]; cbn [w_atom app go_atom ok_atom] in Gy, Oy, Es; try discriminate Es; [| |contradiction Gy].
          + injection Es as E1 _. unfold meta in Oy. cbn [In] in Oy. lia.
          + injection Es as E1. pose proof (w_alts_noquery g false Gy Oy (w_count k ++ w_lazy k z ++ w_sequ s ++ X)) as Q.
            rewrite <- !app_assoc in E1. cbn [app] in E1. rewrite <- ?app_assoc in E1. rewrite E1 in Q. contradiction. }
      destruct a as [s|s a]; cbn [w_alts go_alts ok_alts] in *.
      - apply (S s [] G O); [rewrite app_nil_r; exact Ea|exact I].
      - apply (S s (124%N :: w_alts a) (proj1 G) (proj1 O) Ea). reflexivity. }
    rewrite E. rewrite P. reflexivity.
Qed.
Lemma finds_meaning src fold a s : encodes src (written fold a) -> ok_alts fold a -> go_alts a ->
  re_find (compile src) s <> None <-> occurs fold a (runes s).
Proof.
  intros En O G. destruct (reads_pattern src fold a En O G) as (r & P & M). rewrite (compile_lang src r _ s P). unfold occurs.
  split; intros (u & v & w & E & H); exists u, v, w; (split; [exact E|]); apply M; exact H.
Qed.
Lemma flat_map_length {A} (f : nat -> list A) k l : (forall n, length (f n) = k) -> length (flat_map f l) = length l * k.
Proof. intros H. induction l as [|x l IH]; [reflexivity|]. cbn [flat_map length]. rewrite app_length, H, IH. lia. Qed.
Lemma finds_groups src fold a s m : encodes src (written fold a) -> ok_alts fold a -> go_alts a ->
  re_find (compile src) s = Some m -> length m = 2 * (1 + n_alts a).
Proof.
  intros En O G. destruct (reads_pattern src fold a En O G) as (r & P & _). unfold compile. cbn [re_find]. rewrite P. unfold find_re.
  destruct (find_from r (runes s) 0) as [c|]; [|discriminate]. intros [= <-]. unfold flat_caps. rewrite (flat_map_length _ 2) by reflexivity. rewrite seq_length. lia.
Qed.

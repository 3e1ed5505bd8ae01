(** A sound test that one pattern is found wherever another one is. *)
From Coq Require Import Lia ZifyBool ZifyNat ZifyN.
From Verif Require Import Model_Base Model_Ctx Model_Regex Spec_Regex Proof_Pattern Proof_Syntax.

(** Sequences of expressions. *)
Fixpoint langs (l : list re) (u v w : text) : Prop :=
  match l with
  | [] => v = []
  | a :: l' => exists v1 v2, v = v1 ++ v2 /\ lang a u v1 (v2 ++ w) /\ langs l' (u ++ v1) v2 w
  end.

Lemma langs_cat a b l u v w : langs (Cat a b :: l) u v w <-> langs (a :: b :: l) u v w.
Proof.
  cbn [langs]. split.
  - intros (v1 & v2 & -> & H & K). apply Proof_Syntax.lang_cat in H. destruct H as (x & y & -> & X & Y).
    exists x, (y ++ v2). rewrite <- !app_assoc in *. split; [reflexivity|]. split; [exact X|].
    exists y, v2. rewrite <- !app_assoc. auto.
  - intros (x & r & -> & X & y & v2 & -> & Y & K). exists (x ++ y), v2. rewrite <- !app_assoc in *. split; [reflexivity|].
    split; [|exact K]. apply Proof_Syntax.lang_cat. exists x, y. auto.
Qed.
Lemma langs_grp n a l u v w : langs (Grp n a :: l) u v w <-> langs (a :: l) u v w.
Proof. cbn [langs]. setoid_rewrite lang_grp. reflexivity. Qed.
Lemma langs_alt a b l u v w : langs (Alt a b :: l) u v w <-> langs (a :: l) u v w \/ langs (b :: l) u v w.
Proof. cbn [langs]. setoid_rewrite Proof_Syntax.lang_alt. firstorder. Qed.
Lemma langs_eps l u v w : langs (Eps :: l) u v w <-> langs l u v w.
Proof.
  cbn [langs]. split.
  - intros (v1 & v2 & -> & H & K). apply lang_eps in H. subst v1. rewrite app_nil_r in K. exact K.
  - intros H. exists [], v. rewrite app_nil_r. split; [reflexivity|]. split; [constructor|exact H].
Qed.
Lemma langs_star_stop g a l u v w : langs l u v w -> langs (Star g a :: l) u v w.
Proof. intros H. exists [], v. rewrite app_nil_r. split; [reflexivity|]. split; [constructor|exact H]. Qed.
Lemma langs_star_more g a l u v w : langs (a :: Star g a :: l) u v w -> langs (Star g a :: l) u v w.
Proof.
  intros (x & r & -> & X & y & v2 & -> & Y & K). exists (x ++ y), v2. rewrite <- !app_assoc in *. split; [reflexivity|].
  split; [|exact K]. constructor; assumption.
Qed.
Lemma langs_bol l u v w : langs (Bol :: l) u v w <-> u = [] /\ langs l u v w.
Proof.
  cbn [langs]. split.
  - intros (v1 & v2 & -> & H & K). inversion H; subst. split; [reflexivity|exact K].
  - intros (-> & H). exists [], v. split; [reflexivity|]. split; [constructor|exact H].
Qed.
Lemma langs_eol l u v w : langs (Eol :: l) u v w <-> v = [] /\ w = [] /\ langs l u v w.
Proof.
  cbn [langs]. split.
  - intros (v1 & v2 & -> & H & K). remember (v2 ++ w) as r eqn:E. inversion H; subst. symmetry in H3. apply app_eq_nil in H3. destruct H3 as [-> ->].
    rewrite app_nil_r in K. auto.
  - intros (-> & -> & H). exists [], []. rewrite (app_nil_r u). split; [reflexivity|]. split; [exact (L_eol u)|exact H].
Qed.
Lemma langs_cls neg rs l u v w : langs (Cls neg rs :: l) u v w <->
  exists x wd v2, v = (x, wd) :: v2 /\ cls_mem neg rs x = true /\ langs l (u ++ [(x, wd)]) v2 w.
Proof.
  cbn [langs]. split.
  - intros (v1 & v2 & -> & H & K). inversion H; subst. exists x, wd, v2. auto.
  - intros (x & wd & v2 & -> & H & K). exists [(x, wd)], v2. split; [reflexivity|]. split; [constructor; exact H|exact K].
Qed.

(** Equality and classes. *)
Definition rng_eqb (a b : N * N) : bool := ((fst a =? fst b) && (snd a =? snd b))%N.
Fixpoint rngs_eqb (a b : list (N * N)) : bool :=
  match a, b with [], [] => true | x :: a', y :: b' => rng_eqb x y && rngs_eqb a' b' | _, _ => false end.
Fixpoint re_eqb (a b : re) : bool :=
  match a, b with
  | Eps, Eps | Bol, Bol | Eol, Eol => true
  | Cls n rs, Cls m ss => Bool.eqb n m && rngs_eqb rs ss
  | Cat a1 a2, Cat b1 b2 | Alt a1 a2, Alt b1 b2 => re_eqb a1 b1 && re_eqb a2 b2
  | Star g a1, Star h b1 => Bool.eqb g h && re_eqb a1 b1
  | Grp n a1, Grp m b1 => (n =? m) && re_eqb a1 b1
  | _, _ => false
  end.
Lemma rngs_eqb_eq a : forall b, rngs_eqb a b = true -> a = b.
Proof.
  induction a as [|[x y] a IH]; intros [|[x' y'] b] H; try discriminate H; [reflexivity|].
  cbn in H. apply andb_prop in H. destruct H as [E H]. unfold rng_eqb in E. cbn in E. f_equal; [f_equal; lia|exact (IH _ H)].
Qed.
Lemma re_eqb_eq a : forall b, re_eqb a b = true -> a = b.
Proof.
  induction a; intros b H; destruct b; try discriminate H; try reflexivity; cbn in H; try apply andb_prop in H; try destruct H as [E H];
    try (apply Bool.eqb_prop in E; subst); try (apply rngs_eqb_eq in H; subst); try (apply PeanoNat.Nat.eqb_eq in E; subst);
    f_equal; auto.
Qed.

Definition within_rng (a b : N * N) : bool := ((fst b <=? fst a) && (snd a <=? snd b))%N.
Definition apart (a b : N * N) : bool := ((snd a <? fst b) || (snd b <? fst a))%N.
Definition sub_cls (n : bool) (rs : list (N * N)) (m : bool) (ss : list (N * N)) : bool :=
  match n, m with
  | false, false => forallb (fun a => existsb (within_rng a) ss) rs
  | true, true => forallb (fun b => existsb (within_rng b) rs) ss
  | false, true => forallb (fun a => forallb (apart a) ss) rs
  | true, false => false
  end.
Lemma mem_rng rs x : existsb (fun y => in_rng (fst y) (snd y) x) rs = true <-> exists a, In a rs /\ (fst a <= x <= snd a)%N.
Proof.
  rewrite existsb_exists. unfold in_rng. split; intros (a & I & H); exists a; (split; [exact I|]); [apply andb_prop in H; lia|].
  apply andb_true_intro. lia.
Qed.
Lemma sub_within rs ss x : forallb (fun a => existsb (within_rng a) ss) rs = true ->
  existsb (fun y => in_rng (fst y) (snd y) x) rs = true -> existsb (fun y => in_rng (fst y) (snd y) x) ss = true.
Proof.
  intros H K. apply mem_rng in K. destruct K as (a & I & B). rewrite forallb_forall in H. specialize (H a I).
  apply existsb_exists in H. destruct H as (b & J & W). apply mem_rng. exists b. split; [exact J|].
  unfold within_rng in W. apply andb_prop in W. lia.
Qed.
Lemma sub_cls_ok n rs m ss x : sub_cls n rs m ss = true -> cls_mem n rs x = true -> cls_mem m ss x = true.
Proof.
  unfold cls_mem. destruct n, m; cbn [sub_cls]; rewrite ?Bool.xorb_true_l, ?Bool.xorb_false_l; intros H K; [|discriminate H| |].
  - destruct (existsb _ ss) eqn:E; [|reflexivity]. rewrite (sub_within ss rs x H E) in K. exact K.
  - destruct (existsb _ ss) eqn:E; [|reflexivity]. exfalso.
    apply mem_rng in K. apply mem_rng in E. destruct K as (a & I & A). destruct E as (b & J & B).
    rewrite forallb_forall in H. specialize (H a I). rewrite forallb_forall in H. specialize (H b J).
    unfold apart in H. apply Bool.orb_prop in H. lia.
  - exact (sub_within rs ss x H K).
Qed.

(** Whatever text the sequence [p] matches, [q] matches a text beginning there. *)
Fixpoint pre (n : nat) (p q : list re) {struct n} : bool :=
  match n with
  | 0 => false
  | S n =>
    match q with
    | [] => true
    | b :: q' =>
      match p with
      | Cat a1 a2 :: p' => pre n (a1 :: a2 :: p') q
      | Grp _ a :: p' => pre n (a :: p') q
      | Alt a1 a2 :: p' => if pre n (a1 :: p') q then pre n (a2 :: p') q else false
      | Eps :: p' => pre n p' q
      | _ =>
        match b with
        | Eps => pre n p q'
        | Cat b1 b2 => pre n p (b1 :: b2 :: q')
        | Grp _ b1 => pre n p (b1 :: q')
        | Alt b1 b2 => if pre n p (b1 :: q') then true else pre n p (b2 :: q')
        | Bol => match p with Bol :: _ => pre n p q' | Eol :: p' => pre n p' q | _ => false end
        | Eol => match p with Eol :: _ => pre n p q' | Bol :: p' => pre n p' q | _ => false end
        | Cls m ss => match p with
                      | Cls k rs :: p' => if sub_cls k rs m ss then pre n p' q' else false
                      | Bol :: p' | Eol :: p' => pre n p' q
                      | _ => false
                      end
        | Star h c =>
          if pre n p q' then true else
          match p with
          | Cls _ _ :: _ => pre n p (c :: b :: q')
          | Star g a :: p' => if re_eqb a c then pre n p' q' else false
          | Bol :: p' | Eol :: p' => pre n p' q
          | _ => false
          end
        end
      end
    end
  end.

Definition begins (p q : list re) : Prop :=
  forall u v w, langs p u v w -> exists v' w', v ++ w = v' ++ w' /\ langs q u v' w'.
Lemma begins_bol p q : begins p q -> begins (Bol :: p) q.
Proof. intros H u v w L. apply langs_bol in L. exact (H u v w (proj2 L)). Qed.
Lemma begins_eol p q : begins p q -> begins (Eol :: p) q.
Proof. intros H u v w L. apply langs_eol in L. exact (H u v w (proj2 (proj2 L))). Qed.
Lemma begins_weaker p q q' : (forall u v w, langs q u v w -> langs q' u v w) -> begins p q -> begins p q'.
Proof. intros I H u v w L. destruct (H u v w L) as (v' & w' & E & K). exists v', w'. auto. Qed.
Lemma begins_both_bol p q : begins (Bol :: p) q -> begins (Bol :: p) (Bol :: q).
Proof.
  intros H u v w L. destruct (H u v w L) as (v' & w' & E & K). exists v', w'. split; [exact E|]. apply langs_bol.
  apply langs_bol in L. split; [exact (proj1 L)|exact K].
Qed.
Lemma begins_both_eol p q : begins (Eol :: p) q -> begins (Eol :: p) (Eol :: q).
Proof.
  intros H u v w L. destruct (H u v w L) as (v' & w' & E & K). apply langs_eol in L. destruct L as (-> & -> & L).
  exists v', w'. split; [exact E|]. apply langs_eol. symmetry in E. apply app_eq_nil in E. destruct E as [-> ->]. auto.
Qed.
Lemma begins_cls k rs m ss p q : sub_cls k rs m ss = true -> begins p q -> begins (Cls k rs :: p) (Cls m ss :: q).
Proof.
  intros S H u v w L. apply langs_cls in L. destruct L as (x & wd & v2 & -> & M & L). destruct (H _ _ _ L) as (v' & w' & E & K).
  exists ((x, wd) :: v'), w'. split; [cbn; rewrite E; reflexivity|]. apply langs_cls. exists x, wd, v'.
  split; [reflexivity|]. split; [exact (sub_cls_ok _ _ _ _ _ S M)|exact K].
Qed.
Lemma star_any g h a : forall u v w, lang (Star g a) u v w -> lang (Star h a) u v w.
Proof.
  intros u v w H. apply lang_star. apply lang_star in H. exact H.
Qed.
Lemma begins_star g h a p q : begins p q -> begins (Star g a :: p) (Star h a :: q).
Proof.
  intros H u v w (v1 & v2 & -> & A & L). destruct (H _ _ _ L) as (v' & w' & E & K).
  exists (v1 ++ v'), w'. split; [rewrite <- !app_assoc, E; reflexivity|]. exists v1, v'. split; [reflexivity|].
  split; [|exact K]. apply (star_any g). rewrite <- E. exact A.
Qed.
Lemma begins_split p q a1 a2 : begins (a1 :: p) q -> begins (a2 :: p) q -> begins (Alt a1 a2 :: p) q.
Proof. intros H K u v w L. apply langs_alt in L. destruct L as [L|L]; [exact (H _ _ _ L)|exact (K _ _ _ L)]. Qed.
Lemma begins_from p p' q : (forall u v w, langs p u v w -> langs p' u v w) -> begins p' q -> begins p q.
Proof. intros I H u v w L. exact (H u v w (I u v w L)). Qed.
Ltac choose H := match type of H with (if ?c then _ else _) = true => let E := fresh "E" in destruct c eqn:E end.
Ltac one IH H := match type of H with
  | false = true => discriminate H
  | pre _ _ _ = true => apply IH in H
  | (if pre _ _ _ then _ else _) = true => let E := fresh "E" in destruct (pre _ _ _) eqn:E in H; [apply IH in E|clear E]; one IH H
  | (if sub_cls _ _ _ _ then _ else _) = true => let E := fresh "E" in destruct (sub_cls _ _ _ _) eqn:E in H; one IH H
  | (if re_eqb _ _ then _ else _) = true => let E := fresh "E" in destruct (re_eqb _ _) eqn:E in H; [apply re_eqb_eq in E; subst; one IH H|discriminate H]
  | true = true => idtac
  end.
Lemma pre_begins n : forall p q, pre n p q = true -> begins p q.
Proof.
  induction n as [|n IH]; intros p q H; [discriminate H|].
  destruct q as [|b q]; [intros u v w L; exists [], (v ++ w); split; reflexivity|].
  assert (W : forall p b' q', begins p b' -> (forall u v w, langs b' u v w -> langs q' u v w) -> begins p q')
    by (intros p0 b' q' A B; exact (begins_weaker _ _ _ B A)).
  destruct p as [|[ |k rs| | |a1 a2|a1 a2|g a|g a] p]; cbn [pre] in H.
  2: { apply IH in H. refine (begins_from _ _ _ _ H). intros u v w. apply langs_eps. }
  5: { apply IH in H. refine (begins_from _ _ _ _ H). intros u v w. apply langs_cat. }
  5: { one IH H. exact (begins_split _ _ _ _ E H). }
  6: { apply IH in H. refine (begins_from _ _ _ _ H). intros u v w. apply langs_grp. }
  all: destruct b as [ |m ss| | |b1 b2|b1 b2|h c|h c]; one IH H;
    try (apply begins_bol; assumption); try (apply begins_eol; assumption);
    try (refine (W _ _ _ H _); intros u v w; apply langs_eps);
    try (refine (W _ _ _ H _); intros u v w; apply langs_cat);
    try (refine (W _ _ _ H _); intros u v w; apply langs_grp);
    try (refine (W _ _ _ E _); intros u v w L; apply langs_alt; left; exact L);
    try (refine (W _ _ _ H _); intros u v w L; apply langs_alt; right; exact L);
    try (apply begins_both_bol; assumption); try (apply begins_both_eol; assumption);
    try (refine (W _ _ _ E _); intros u v w; apply langs_star_stop);
    try (refine (W _ _ _ H _); intros u v w; apply langs_star_more);
    try (apply begins_star; assumption); try (apply begins_cls; assumption).
Qed.

(** Wherever [p] is found, one of [qs] is. *)
Fixpoint has (n : nat) (p : list re) (qs : list re) {struct n} : bool :=
  match n with
  | 0 => false
  | S n =>
    if existsb (fun q => pre (60 + n) p [q]) qs then true else
    match p with
    | Cat a1 a2 :: p' => has n (a1 :: a2 :: p') qs
    | Grp _ a :: p' => has n (a :: p') qs
    | Alt a1 a2 :: p' => if has n (a1 :: p') qs then has n (a2 :: p') qs else false
    | _ :: p' => has n p' qs
    | [] => false
    end
  end.
Definition found (q : re) (s : text) : Prop := exists u v w, s = u ++ v ++ w /\ lang q u v w.
Lemma has_found n : forall p qs, has n p qs = true -> forall u v w, langs p u v w -> exists q, In q qs /\ found q (u ++ v ++ w).
Proof.
  induction n as [|n IH]; intros p qs H u v w L; [discriminate H|]. cbn [has] in H.
  destruct (existsb _ qs) eqn:E in H.
  - apply existsb_exists in E. destruct E as (q & I & E). apply pre_begins in E. destruct (E u v w L) as (v' & w' & V & v1 & v2 & -> & A & ->).
    exists q. split; [exact I|]. exists u, v1, w'. rewrite V, app_nil_r. split; [reflexivity|exact A].
  - clear E.
    assert (D : forall a p', p = a :: p' -> has n p' qs = true -> exists q, In q qs /\ found q (u ++ v ++ w)).
    { intros a p' -> K. destruct L as (v1 & v2 & -> & A & L). destruct (IH p' qs K _ _ _ L) as (q & I & F). exists q. split; [exact I|].
      rewrite <- !app_assoc in *. exact F. }
    destruct p as [|a p]; [discriminate H|]. destruct a; try exact (D _ _ eq_refl H).
    + exact (IH _ _ H _ _ _ (proj1 (langs_cat _ _ _ _ _ _) L)).
    + apply (proj1 (langs_alt _ _ _ _ _ _)) in L. destruct (has n (a1 :: p) qs) eqn:E; [|discriminate H]. destruct L as [L|L]; [exact (IH _ _ E _ _ _ L)|exact (IH _ _ H _ _ _ L)].
    + exact (IH _ _ H _ _ _ (proj1 (langs_grp _ _ _ _ _ _) L)).
Qed.

(** For patterns in text form. *)
Definition covered (n : nat) (p : bytes) (qs : list bytes) : bool :=
  match parse_re p with
  | Some (a, _) => has n [a] (flat_map (fun q => match parse_re q with Some (b, _) => [b] | None => [] end) qs)
  | None => true
  end.
Lemma covered_found n p qs ua : covered n p qs = true -> re_find (compile p) ua <> None -> exists q, In q qs /\ re_find (compile q) ua <> None.
Proof.
  unfold covered. intros H F. destruct (parse_re p) as [[a ng]|] eqn:P.
  - apply (compile_lang p a ng ua P) in F. destruct F as (u & v & w & E & L).
    assert (L' : langs [a] u v w) by (exists v, []; rewrite app_nil_r; split; [reflexivity|split; [exact L|reflexivity]]).
    destruct (has_found n _ _ H u v w L') as (b & I & B). apply in_flat_map in I. destruct I as (q & I & J).
    destruct (parse_re q) as [[b' ng']|] eqn:Q; [|destruct J]. destruct J as [->|[]]. exists q. split; [exact I|].
    apply (compile_lang q b ng' ua Q). destruct B as (u' & v' & w' & E' & L2). exists u', v', w'. split; [congruence|exact L2].
  - exfalso. apply F. unfold compile. rewrite P. reflexivity.
Qed.

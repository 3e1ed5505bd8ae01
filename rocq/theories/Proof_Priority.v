(** The match a written pattern finds is the preferred one. *)
From Verif Require Import Model_Base Model_Ctx Model_Regex Model_Shipped Spec_Regex Spec_Syntax Spec_Priority Proof_Pattern Proof_Syntax Proof_SyntaxShipped.
From Coq Require Import Lia ZifyBool ZifyNat ZifyN.
Open Scope nat_scope.

(** ** The ways of an expression *)
Fixpoint star_ways (f : state -> list state) (lazy : bool) (n : nat) (s : state) : list state :=
  match n with 0 => [s] | S n' => choose lazy s (flat_map (star_ways f lazy n') (filter (moved s) (f s))) end.
Definition close_group (n : nat) (p : Z) (s' : state) : state := let '(p', w', c') := s' in (p', w', (n, (p, p')) :: c').
Fixpoint ways (r : re) (s : state) : list state :=
  match r with
  | Eps => [s]
  | Cls neg rs => let '(p, w, c) := s in match w with (x, wd) :: w' => if cls_mem neg rs x then [((p + Z.of_nat wd)%Z, w', c)] else [] | [] => [] end
  | Bol => if (fst (fst s) =? 0)%Z then [s] else []
  | Eol => match rest_of s with [] => [s] | _ => [] end
  | Cat a b => flat_map (ways b) (ways a s)
  | Alt a b => ways a s ++ ways b s
  | Star g a => star_ways (ways a) (negb g) (S (length (rest_of s))) s
  | Grp n a => map (close_group n (fst (fst s))) (ways a s)
  end.
Fixpoint first_ok {A} (k : state -> option A) (l : list state) : option A := match l with [] => None | s :: l => orelse (k s) (fun _ => first_ok k l) end.
Lemma first_ext {A} (k k' : state -> option A) l : (forall s, k s = k' s) -> first_ok k l = first_ok k' l.
Proof. intros H. induction l as [|s l IH]; [reflexivity|]. cbn [first_ok]. rewrite H, IH. reflexivity. Qed.
Lemma first_app {A} (k : state -> option A) l l' : first_ok k (l ++ l') = orelse (first_ok k l) (fun _ => first_ok k l').
Proof. induction l as [|s l IH]; [reflexivity|]. cbn [first_ok app]. rewrite IH. destruct (k s); reflexivity. Qed.
Lemma first_flat {A} (k : state -> option A) f l : first_ok k (flat_map f l) = first_ok (fun s => first_ok k (f s)) l.
Proof. induction l as [|s l IH]; [reflexivity|]. cbn [first_ok flat_map]. rewrite first_app, IH. reflexivity. Qed.
Lemma first_map {A} (k : state -> option A) f l : first_ok k (map f l) = first_ok (fun s => k (f s)) l.
Proof. induction l as [|s l IH]; [reflexivity|]. cbn [first_ok map]. rewrite IH. reflexivity. Qed.
Lemma first_filter {A} (k : state -> option A) f l : first_ok k (filter f l) = first_ok (fun s => if f s then k s else None) l.
Proof. induction l as [|s l IH]; [reflexivity|]. cbn [first_ok filter]. destruct (f s); cbn [first_ok]; rewrite IH; [reflexivity|]. destruct (first_ok _ l); reflexivity. Qed.
Definition of_k (k : cont_t) (s : state) : option caps := let '(p, w, c) := s in k w p c.
Lemma mt_ways r : forall s p c k, mt r s p c k = first_ok (of_k k) (ways r (p, s, c)).
Proof.
  induction r as [|neg rs| | |a IHa b IHb|a IHa b IHb|g a IHa|n a IHa]; intros s p c k; cbn [mt ways].
  - cbn. destruct (k s p c); reflexivity.
  - destruct s as [|[x wd] s]; [reflexivity|]. destruct (cls_mem neg rs x); [|reflexivity]. cbn. destruct (k s _ c); reflexivity.
  - cbn [fst]. destruct (p =? 0)%Z; [|reflexivity]. cbn. destruct (k s p c); reflexivity.
  - cbn [rest_of fst snd]. destruct s; [|reflexivity]. cbn. destruct (k [] p c); reflexivity.
  - rewrite first_flat, IHa. apply first_ext. intros [[p' s'] c']. cbn [of_k]. apply IHb.
  - rewrite first_app, IHa, IHb. reflexivity.
  - cbn [rest_of fst snd]. generalize (S (length s)) as m. intros m. revert s p c. induction m as [|m IH]; intros s p c; cbn [star_loop star_ways].
    + cbn. destruct (k s p c); reflexivity.
    + assert (E : mt a s p c (fun s' p' c' => if length s' <? length s then star_loop (mt a) g k m s' p' c' else None) =
        first_ok (of_k k) (flat_map (star_ways (ways a) (negb g) m) (filter (moved (p, s, c)) (ways a (p, s, c))))).
      { rewrite IHa, first_flat, first_filter. apply first_ext. intros [[p' s'] c']. cbn [of_k]. unfold moved, rest_of. cbn [fst snd].
        destruct (length s' <? length s); [apply IH|reflexivity]. }
      rewrite E. destruct g; cbn [negb choose].
      * rewrite first_app. cbn [first_ok of_k]. destruct (first_ok _ (flat_map _ _)); [reflexivity|]. cbn [orelse]. destruct (k s p c); reflexivity.
      * cbn [first_ok of_k]. reflexivity.
  - rewrite first_map, IHa. apply first_ext. intros [[p' s'] c']. reflexivity.
Qed.

(** ** The ways of what the parser builds *)
Lemma each_flat (R : state -> list state -> Prop) f ss : (forall s, R s (f s)) -> each R ss (flat_map f ss).
Proof. intros H. induction ss as [|s ss IH]; cbn [flat_map]; constructor; auto. Qed.
Lemma each_in (R : state -> list state -> Prop) f ss : (forall s, In s ss -> R s (f s)) -> each R ss (flat_map f ss).
Proof. induction ss as [|s ss IH]; intros H; cbn [flat_map]; constructor; [apply H; left; reflexivity|apply IH; intros x I; apply H; right; exact I]. Qed.
Lemma each_one (R : state -> list state -> Prop) s l : R s l -> each R [s] l.
Proof. intros H. rewrite <- (app_nil_r l). constructor; [exact H|constructor]. Qed.
Lemma each_app (R : state -> list state -> Prop) a b l l' : each R a l -> each R b l' -> each R (a ++ b) (l ++ l').
Proof. induction 1; intros H'; [exact H'|]. cbn [app]. rewrite <- app_assoc. constructor; auto. Qed.
Lemma each_each (R : state -> list state -> Prop) (f g : state -> list state) ss : (forall s, each R (f s) (g s)) -> each R (flat_map f ss) (flat_map g ss).
Proof. intros H. induction ss as [|s ss IH]; cbn [flat_map]; [constructor|]. apply each_app; auto. Qed.
Lemma flat_single (l : list state) : flat_map (fun s => [s]) l = l.
Proof. induction l as [|s l IH]; [reflexivity|]. cbn. rewrite IH. reflexivity. Qed.
Lemma flat_flat (f g : state -> list state) l : flat_map g (flat_map f l) = flat_map (fun s => flat_map g (f s)) l.
Proof. induction l as [|s l IH]; [reflexivity|]. cbn [flat_map]. rewrite flat_map_app, IH. reflexivity. Qed.
Section Repeat.
Variables (a : re) (R : state -> list state -> Prop).
Hypothesis H : forall s, R s (ways a s).
Lemma exactly_ways n : forall s, exactly n R s (ways (rep_n n a) s).
Proof.
  induction n as [|n IH]; intros s; [reflexivity|]. cbn [exactly]. exists (ways a s). split; [apply H|]. destruct n as [|n].
  - cbn [rep_n]. rewrite <- (flat_single (ways a s)) at 2. apply each_flat. intros x. reflexivity.
  - change (rep_n (S (S n)) a) with (Cat a (rep_n (S n) a)). cbn [ways]. apply each_flat. exact IH.
Qed.
Lemma opt_ways g b s : ways (opt g b) s = choose (negb g) s (ways b s).
Proof. destruct g; reflexivity. Qed.
Lemma at_most_ways g n : forall s, at_most n (negb g) R s (ways (rep_opt n g a) s).
Proof.
  induction n as [|n IH]; intros s; [reflexivity|]. cbn [at_most]. exists (ways a s), (flat_map (ways (rep_opt n g a)) (ways a s)). split; [apply H|]. split; [apply each_flat; exact IH|].
  destruct n as [|n]; cbn [rep_opt]; rewrite opt_ways; [|reflexivity]. cbn [ways]. rewrite flat_single. reflexivity.
Qed.
Lemma unbounded_ways lazy n : forall s, length (rest_of s) < n -> unbounded lazy R s (star_ways (ways a) lazy n s).
Proof.
  induction n as [|n IH]; intros s L; [lia|]. cbn [star_ways]. econstructor; [apply H|]. apply each_in. intros x I. apply filter_In in I as [_ M]. apply IH. unfold moved in M. lia.
Qed.
Lemma star_unbounded g s : unbounded (negb g) R s (ways (Star g a) s).
Proof. cbn [ways]. apply unbounded_ways. lia. Qed.
Lemma counted_ways c g s : ok_count c -> c <> Once -> counted c (negb g) R s (ways (repeat_re (least c) (most c) g a) s).
Proof.
  intros O C. destruct c as [| | | |d|d|d e]; cbn [least most counted ok_count] in *; [contradiction (C eq_refl)| | | | | |].
  - apply star_unbounded.
  - exists (ways a s). split; [exact (exactly_ways 1 s)|]. apply each_flat. apply star_unbounded.
  - exact (at_most_ways g 1 s).
  - unfold repeat_re. destruct (value d) as [|n]; [reflexivity|]. rewrite Nat.sub_diag. exact (exactly_ways (S n) s).
  - unfold repeat_re. exists (ways (rep_n (value d) a) s). split; [apply exactly_ways|]. destruct (value d) as [|n].
    + cbn [rep_n]. apply each_one. apply star_unbounded.
    + apply each_flat. apply star_unbounded.
  - unfold repeat_re. exists (ways (rep_n (value d) a) s). split; [apply exactly_ways|]. destruct (value d) as [|n].
    + cbn [rep_n]. apply each_one. rewrite Nat.sub_0_r. apply at_most_ways.
    + destruct (value e - S n) as [|k]; [|apply each_flat; apply at_most_ways].
      rewrite <- (flat_single (ways (rep_n (S n) a) s)) at 2. apply each_flat. intros x. reflexivity.
Qed.
End Repeat.
Lemma cat_ways a b s : ways (cat a b) s = flat_map (ways b) (ways a s).
Proof. destruct a; try reflexivity. cbn [cat ways flat_map]. rewrite app_nil_r. reflexivity. Qed.
Lemma cls_ways (P : N -> Prop) neg rs s : (forall y, cls_mem neg rs y = true <-> P y) -> rune_ways P s (ways (Cls neg rs) s).
Proof.
  intros H. destruct s as [[p w] c]. destruct w as [|[y wd] w]; [reflexivity|]. cbn [ways rune_ways]. destruct (cls_mem neg rs y) eqn:E; [left|right]; (split; [|reflexivity]).
  - apply H. exact E.
  - rewrite <- H, E. discriminate.
Qed.

Definition orders_alts (a : alts) : Prop := forall fold fuel n rest, go_alts a -> ok_alts fold a -> ends_alts rest -> 2 * length (w_alts a) + 2 <= fuel ->
  exists r, parse_alt fuel fold n (w_alts a ++ rest) = Some (r, n + n_alts a, rest) /\ forall s, o_alts fold n a s (ways r s).
Definition orders_sequ (q : sequ) : Prop := forall fold fuel n acc rest, go_sequ q -> ok_sequ fold q -> ends_sequ rest -> 2 * length (w_sequ q) + 1 <= fuel ->
  exists r, parse_seq fuel fold n (w_sequ q ++ rest) acc = Some (r, n + n_sequ q, rest) /\ forall s, each (o_sequ fold n q) (ways acc s) (ways r s).
Definition orders_atom (x : atom) : Prop := forall fold fuel n rest, go_atom x -> ok_atom fold x -> 2 * length (w_atom x) <= fuel ->
  exists c s r, w_atom x ++ rest = c :: s /\ ~ In c [124; 41; 42; 43; 63; 123]%N /\
  read_atom fuel fold n c s = Some (r, n + n_atom x, rest) /\ forall s, o_atom fold n x s (ways r s).
Lemma each_start (R : state -> list state -> Prop) s l : each R (ways Eps s) l -> R s l.
Proof. cbn [ways]. intros H. inversion H as [|? ? l1 l2 H1 H2]; subst. inversion H2; subst. rewrite app_nil_r. exact H1. Qed.
Lemma each_then (R X : state -> list state -> Prop) b ss : (forall s, X s (ways b s)) -> forall l, each R (flat_map (ways b) ss) l -> each (fun s l => exists l1, X s l1 /\ each R l1 l) ss l.
Proof.
  intros HX. induction ss as [|s ss IH]; cbn [flat_map]; intros l E; [inversion E; subst; constructor|].
  assert (K : forall a c l, each R (a ++ c) l -> exists l1 l2, l = l1 ++ l2 /\ each R a l1 /\ each R c l2).
  { clear. induction a as [|x a IH]; intros c l E; [exists [], l; split; [reflexivity|split; [constructor|exact E]]|]. cbn [app] in E. inversion E as [|? ? l1 l2 H1 H2]; subst.
    destruct (IH c l2 H2) as (m1 & m2 & -> & A & C). exists (l1 ++ m1), m2. rewrite app_assoc. split; [reflexivity|]. split; [constructor; assumption|exact C]. }
  destruct (K _ _ _ E) as (l1 & l2 & -> & A & C). constructor; [exists (ways b s); auto|apply IH; exact C].
Qed.
Lemma syntax_orders : (forall a, orders_alts a) /\ (forall q, orders_sequ q) /\ (forall x, orders_atom x).
Proof.
  apply syntax_ind.
  - (* One *) intros q R fold fuel n rest G O E L. destruct fuel as [|fuel]; [lia|]. cbn [parse_alt w_alts n_alts o_alts go_alts ok_alts] in *.
    destruct (R fold fuel n Eps rest G O) as (r & P & M); [destruct rest; cbn in *; auto|lia|]. rewrite P. exists r. split.
    + destruct rest as [|c rest]; [reflexivity|]. cbn in E. subst c. reflexivity.
    + intros s. apply each_start. apply M.
  - (* Or *) intros q Rs a Ra fold fuel n rest G O E L. destruct fuel as [|fuel]; [lia|]. cbn [parse_alt w_alts n_alts o_alts go_alts ok_alts] in *.
    rewrite app_length in L. cbn [length] in L. destruct G as [Gs Ga], O as [Os Oa].
    destruct (Rs fold fuel n Eps (124%N :: w_alts a ++ rest) Gs Os) as (r & P & M); [cbn; auto|lia|].
    rewrite <- app_assoc. cbn [app]. rewrite P. cbn [N.eqb Pos.eqb].
    destruct (Ra fold fuel (n + n_sequ q) rest Ga Oa E) as (r2 & P2 & M2); [lia|]. rewrite P2. exists (Alt r r2). split; [rewrite Nat.add_assoc; reflexivity|].
    intros s. exists (ways r s), (ways r2 s). split; [apply each_start; apply M|]. split; [apply M2|reflexivity].
  - (* Empty *) intros fold fuel n acc rest _ _ E L. destruct fuel as [|fuel]; [lia|]. exists acc. cbn [w_sequ app n_sequ o_sequ]. split.
    + rewrite Nat.add_0_r. destruct rest as [|c rest]; [reflexivity|]. cbn in E. cbn [parse_seq]. replace ((c =? 124)%N || (c =? 41)%N) with true by lia. reflexivity.
    + intros s. rewrite <- (flat_single (ways acc s)) at 2. apply each_flat. reflexivity.
  - (* Then *) intros x Rx c z q Rs fold fuel n acc rest G O E L. destruct fuel as [|fuel]; [lia|]. cbn [w_sequ n_sequ go_sequ ok_sequ] in *.
    destruct G as [Gx Gs], O as (Ox & Oc & Os). rewrite !app_length in L.
    pose proof (w_sequ_head q fold Gs Os rest E) as Q.
    rewrite <- !app_assoc. destruct (Rx fold fuel n (w_count c ++ w_lazy c z ++ w_sequ q ++ rest) Gx Ox) as (h & t & r & Ew & Nh & Pa & Ma); [lia|].
    assert (Lx : 1 <= length (w_atom x)).
    { destruct x; cbn; try lia. - destruct capture; cbn; lia. - destruct ahead; cbn; lia. }
    rewrite Ew, parse_seq_step by (cbn [In] in Nh; lia). rewrite Pa.
    assert (Next : forall b, (forall s, counted c z (o_atom fold n x) s (ways b s)) ->
      exists r', parse_seq fuel fold (n + n_atom x) (w_sequ q ++ rest) (cat acc b) = Some (r', n + (n_atom x + n_sequ q), rest) /\
      forall s, each (o_sequ fold n (Then x c z q)) (ways acc s) (ways r' s)).
    { intros b Hb. destruct (Rs fold fuel (n + n_atom x) (cat acc b) rest Gs Os E) as (r' & P & M); [lia|]. exists r'. rewrite Nat.add_assoc. split; [exact P|].
      intros s. specialize (M s). rewrite cat_ways in M. exact (each_then _ _ b _ Hb _ M). }
    destruct (match c with Once => true | _ => false end) eqn:C1.
    + assert (C : c = Once) by (destruct c; try discriminate C1; reflexivity). subst c. cbn [w_count w_lazy app]. rewrite (no_quant_none _ Q).
      apply Next. intros s. apply Ma.
    + assert (C : c <> Once) by (intros ->; discriminate C1). rewrite (quant_reads c _ Oc C).
      assert (Z : match w_lazy c z ++ w_sequ q ++ rest with d :: s3 => if (d =? 63)%N then (false, s3) else (true, w_lazy c z ++ w_sequ q ++ rest) | [] => (true, w_lazy c z ++ w_sequ q ++ rest) end
        = (negb z, w_sequ q ++ rest)).
      { unfold w_lazy. destruct z; [destruct c; try contradiction; reflexivity|].
        replace (match c with Once => [] | _ => [] end) with (@nil N) by (destruct c; reflexivity). cbn [app negb].
        destruct (w_sequ q ++ rest) as [|d l]; [reflexivity|]. cbn [no_quant In] in Q. replace (d =? 63)%N with false by lia. reflexivity. }
      rewrite Z. rewrite (no_quant_none _ Q). apply Next. intros s. rewrite <- (Bool.negb_involutive z) at 1. apply counted_ways; assumption.
  - (* AChar *) intros x fold fuel n rest _ O L. cbn [w_atom app n_atom o_atom ok_atom] in *. eexists _, _, _. split; [reflexivity|]. unfold meta in O. cbn [In] in O.
    split; [cbn [In]; lia|]. split.
    + unfold read_atom. replace (x =? 40)%N with false by lia. replace (x =? 91)%N with false by lia. replace (x =? 92)%N with false by lia.
      replace (x =? 46)%N with false by lia. replace (x =? 94)%N with false by lia. replace (x =? 36)%N with false by lia.
      replace ((x =? 42)%N || (x =? 43)%N || (x =? 63)%N || (x =? 123)%N) with false by lia. rewrite Nat.add_0_r. reflexivity.
    + intros s. apply cls_ways. intros y. rewrite cls_pos. apply lit_spec.
  - (* AEsc *) intros x fold fuel n rest _ O L. cbn [w_atom app n_atom o_atom ok_atom] in *. eexists _, _, _. split; [reflexivity|].
    split; [cbn [In]; lia|]. split.
    + unfold read_atom. cbn [N.eqb Pos.eqb]. rewrite (punct_no_perl fold x O), (punct_ok x O), Nat.add_0_r. reflexivity.
    + intros s. apply cls_ways. intros y. rewrite cls_pos. apply lit_spec.
  - (* APerl *) intros c fold fuel n rest _ O L. cbn [w_atom app n_atom o_atom ok_atom] in *. destruct (perl_spec fold c O) as (rs & Ep & Sp). eexists _, _, _. split; [reflexivity|].
    split; [cbn [In]; lia|]. split.
    + unfold read_atom. cbn [N.eqb Pos.eqb]. rewrite Ep, Nat.add_0_r. reflexivity.
    + intros s. apply cls_ways. intros y. rewrite cls_pos. apply Sp.
  - (* AAny *) intros fold fuel n rest _ _ L. cbn [w_atom app n_atom o_atom] in *. eexists _, _, _. split; [reflexivity|]. split; [cbn [In]; lia|]. split.
    + unfold read_atom. cbn [N.eqb Pos.eqb]. rewrite Nat.add_0_r. reflexivity.
    + intros s. apply cls_ways. intros y. rewrite cls_neg, in_ranges_cons, in_ranges_nil. lia.
  - (* ABegin *) intros fold fuel n rest _ _ L. cbn [w_atom app n_atom o_atom] in *. eexists _, _, _. split; [reflexivity|]. split; [cbn [In]; lia|]. split.
    + unfold read_atom. cbn [N.eqb Pos.eqb]. rewrite Nat.add_0_r. reflexivity.
    + intros s. unfold test_ways. cbn [ways]. destruct (Z.eqb_spec (fst (fst s)) 0); auto.
  - (* AEnd *) intros fold fuel n rest _ _ L. cbn [w_atom app n_atom o_atom] in *. eexists _, _, _. split; [reflexivity|]. split; [cbn [In]; lia|]. split.
    + unfold read_atom. cbn [N.eqb Pos.eqb]. rewrite Nat.add_0_r. reflexivity.
    + intros s. unfold test_ways. cbn [ways]. destruct (rest_of s); [left; auto|right; split; [discriminate|reflexivity]].
  - (* ASet *) intros neg l fold fuel n rest _ O L. destruct (parse_class_reads fold neg l rest O) as (rs & P & S). cbn [w_atom n_atom].
    exists 91%N, ((if neg then [94%N] else []) ++ w_items l ++ 93%N :: rest), (Cls neg rs). split; [cbn [app]; rewrite <- !app_assoc; reflexivity|]. split; [cbn [In]; lia|]. split.
    + unfold read_atom. cbn [N.eqb Pos.eqb]. rewrite P, Nat.add_0_r. reflexivity.
    + intros s. destruct neg; cbn [o_atom]; apply cls_ways; intros y; rewrite ?cls_pos, ?cls_neg, S; reflexivity.
  - (* AGroup *) intros cap a R fold fuel n rest G O L. cbn [go_atom ok_atom] in *. pose proof (w_alts_noquery a fold G O rest) as Q. destruct cap; cbn [w_atom n_atom o_atom] in *.
    + cbn [length] in L. rewrite app_length in L. cbn [length] in L.
      destruct (R fold fuel (S n) (41%N :: rest) G O eq_refl) as (r & P & M); [lia|].
      exists 40%N, (w_alts a ++ 41%N :: rest), (Grp (S n) r). split; [cbn [app]; rewrite <- app_assoc; reflexivity|]. split; [cbn [In]; lia|]. split.
      * unfold read_atom. cbn [N.eqb Pos.eqb]. replace (n + S (n_alts a)) with (S n + n_alts a) by lia.
        destruct (w_alts a ++ 41%N :: rest) as [|q [|d l]] eqn:E; [destruct (w_alts a); discriminate E|rewrite P; reflexivity|].
        replace (q =? 63)%N with false by lia. rewrite P. reflexivity.
      * intros s. exists (ways r s). split; [apply M|reflexivity].
    + cbn [length] in L. rewrite app_length in L. cbn [length] in L.
      destruct (R fold fuel n (41%N :: rest) G O eq_refl) as (r & P & M); [lia|].
      exists 40%N, (63%N :: 58%N :: w_alts a ++ 41%N :: rest), r. split; [cbn [app]; rewrite <- app_assoc; reflexivity|]. split; [cbn [In]; lia|]. split.
      * unfold read_atom. cbn [N.eqb Pos.eqb]. rewrite P. reflexivity.
      * exact M.
  - (* ALook *) intros ahead a _ fold fuel n rest G. destruct G.
Qed.


(** ** Whole patterns *)
Lemma orders_pattern src fold a : encodes src (written fold a) -> ok_alts fold a -> go_alts a ->
  exists r, parse_re src = Some (r, n_alts a) /\ forall s, o_alts fold 0 a s (ways r s).
Proof.
  intros En O G. unfold parse_re. rewrite (encodes_runes _ _ En). unfold written.
  destruct (proj1 syntax_orders a fold (2 * length (w_alts a) + 2) 0 [] G O I ltac:(lia)) as (r & P & M). rewrite app_nil_r in P. cbn [plus] in P.
  exists r. split; [|exact M]. destruct fold; cbn [app].
  - cbn [N.eqb Pos.eqb andb]. change (n_alts a) with (0 + n_alts a). rewrite P. reflexivity.
  - assert (E : (match w_alts a with
       | x :: b :: c :: d :: t => if ((x =? 40)%N && (b =? 63)%N && (c =? 105)%N && (d =? 41)%N) then (true, t) else (false, w_alts a)
       | _ => (false, w_alts a) end) = (false, w_alts a)).
    { destruct (w_alts a) as [|x [|b [|c [|d t]]]] eqn:Ea; try reflexivity.
      destruct ((x =? 40)%N && (b =? 63)%N && (c =? 105)%N && (d =? 41)%N) eqn:T; [exfalso|reflexivity].
      assert (Hx : x = 40%N /\ b = 63%N /\ c = 105%N) by lia. destruct Hx as (-> & -> & ->).
      assert (S : forall s X, go_sequ s -> ok_sequ false s -> w_sequ s ++ X = 40%N :: 63%N :: 105%N :: d :: t -> match X with [] => True | e :: _ => e = 124%N end -> False).
      { intros s X Gs Os Es HX. destruct s as [|y k z s]; cbn [w_sequ app] in Es.
        - subst X. cbn in HX. discriminate HX.
        - cbn [go_sequ ok_sequ] in Gs, Os. destruct Gs as [Gy _], Os as [Oy _].
          destruct y as [x|x|x| | | |neg l|[|] g|ah g]; cbn [w_atom app go_atom ok_atom] in Gy, Oy, Es; try discriminate Es; [| |contradiction Gy].
          + injection Es as E1 _. unfold meta in Oy. cbn [In] in Oy. lia.
          + injection Es as E1. pose proof (w_alts_noquery g false Gy Oy (w_count k ++ w_lazy k z ++ w_sequ s ++ X)) as Q.
            rewrite <- !app_assoc in E1. cbn [app] in E1. rewrite <- ?app_assoc in E1. rewrite E1 in Q. contradiction. }
      destruct a as [s|s a]; cbn [w_alts go_alts ok_alts] in *.
      - apply (S s [] G O); [rewrite app_nil_r; exact Ea|exact I].
      - apply (S s (124%N :: w_alts a) (proj1 G) (proj1 O) Ea). reflexivity. }
    rewrite E. rewrite P. reflexivity.
Qed.

(** ** The ways are determined *)
Definition sure (R : state -> list state -> Prop) : Prop := forall s l l', R s l -> R s l' -> l = l'.
Lemma each_sure R : sure R -> forall ss l l', each R ss l -> each R ss l' -> l = l'.
Proof. intros S ss l l' H. revert l'. induction H as [|s ss l1 l2 H1 H2 IH]; intros l' H'; inversion H'; subst; [reflexivity|]. f_equal; [eapply S; eassumption|auto]. Qed.
Lemma exactly_sure R : sure R -> forall n, sure (exactly n R).
Proof.
  intros S n. induction n as [|n IH]; intros s l l' H H'; cbn [exactly] in *; [congruence|]. destruct H as (l1 & A & B), H' as (l1' & A' & B').
  rewrite (S _ _ _ A A') in B. exact (each_sure _ IH _ _ _ B B').
Qed.
Lemma at_most_sure R lazy : sure R -> forall n, sure (at_most n lazy R).
Proof.
  intros S n. induction n as [|n IH]; intros s l l' H H'; cbn [at_most] in *; [congruence|]. destruct H as (l1 & m & A & B & ->), H' as (l1' & m' & A' & B' & ->).
  rewrite (S _ _ _ A A') in B. rewrite (each_sure _ IH _ _ _ B B'). reflexivity.
Qed.
Lemma unbounded_sure R lazy : sure R -> sure (unbounded lazy R).
Proof.
  intros S s l l'. remember (length (rest_of s)) as n eqn:En. revert s l l' En. induction n as [n IH] using lt_wf_ind. intros s l l' En H H'.
  destruct H as [s l1 m A B]. inversion H' as [? l1' m' A' B']; subst. rewrite (S _ _ _ A A') in B. f_equal. clear - IH B B'.
  assert (F : Forall (fun x => length (rest_of x) < length (rest_of s)) (filter (moved s) l1')) by (apply Forall_forall; intros x I; apply filter_In in I as [_ I]; unfold moved in I; lia).
  revert m' B'. induction B as [|x ss k1 k2 H1 H2 IH2]; intros m' B'; inversion B'; subst; [reflexivity|]. inversion F as [|? ? F1 F2]; subst.
  f_equal; [exact (IH _ F1 x _ _ eq_refl H1 H3)|apply IH2; assumption].
Qed.
Lemma counted_sure c lazy R : sure R -> sure (counted c lazy R).
Proof.
  intros S. assert (K : forall n X, sure X -> forall s l l', (exists l1, exactly n R s l1 /\ each X l1 l) -> (exists l1, exactly n R s l1 /\ each X l1 l') -> l = l').
  { intros n X SX s l l' (l1 & A & B) (l1' & A' & B'). rewrite (exactly_sure R S n _ _ _ A A') in B. exact (each_sure X SX _ _ _ B B'). }
  destruct c; intros s l l' H H'; cbn [counted] in *.
  - exact (S _ _ _ H H').
  - exact (unbounded_sure R lazy S _ _ _ H H').
  - exact (K _ _ (unbounded_sure R lazy S) _ _ _ H H').
  - exact (at_most_sure R lazy S 1 _ _ _ H H').
  - exact (exactly_sure R S _ _ _ _ H H').
  - exact (K _ _ (unbounded_sure R lazy S) _ _ _ H H').
  - exact (K _ _ (at_most_sure R lazy S _) _ _ _ H H').
Qed.
Lemma rune_sure P : sure (rune_ways P).
Proof. intros [[p w] c] l l' H H'. cbn in *. destruct w as [|[y wd] w]; [congruence|]. destruct H as [[? ->]|[? ->]], H' as [[? ->]|[? ->]]; first [reflexivity|contradiction]. Qed.
Lemma test_sure P : forall s l l', test_ways P s l -> test_ways P s l' -> l = l'.
Proof. intros s l l' [[? ->]|[? ->]] [[? ->]|[? ->]]; first [reflexivity|contradiction]. Qed.
Lemma order_sure fold : (forall a n, sure (o_alts fold n a)) /\ (forall q n, sure (o_sequ fold n q)) /\ (forall x n, sure (o_atom fold n x)).
Proof.
  apply syntax_ind.
  - intros q IH n. exact (IH n).
  - intros q IHq a IHa n s l l' (l1 & l2 & A & B & ->) (l1' & l2' & A' & B' & ->). rewrite (IHq n _ _ _ A A'), (IHa _ _ _ _ B B'). reflexivity.
  - intros n s l l' H H'. cbn in *. congruence.
  - intros x IHx c z q IHq n s l l' (l1 & A & B) (l1' & A' & B'). rewrite (counted_sure c z _ (IHx n) _ _ _ A A') in B. exact (each_sure _ (IHq _) _ _ _ B B').
  - intros x n. apply rune_sure.
  - intros x n. apply rune_sure.
  - intros c n. apply rune_sure.
  - intros n. apply rune_sure.
  - intros n s. apply test_sure.
  - intros n s. apply test_sure.
  - intros [|] l n; apply rune_sure.
  - intros [|] a IH n.
    + intros s l l' (l1 & A & ->) (l1' & A' & ->). rewrite (IH (S n) _ _ _ A A'). reflexivity.
    + exact (IH n).
  - intros ahead a _ n s l l' [].
Qed.

(** ** The match *)
Lemma cap_span n c : [fst (cap_get c n); snd (cap_get c n)] = span_of n c.
Proof. unfold span_of. induction c as [|[m [lo hi]] c IH]; [reflexivity|]. cbn [cap_get find fst]. destruct (m =? n); [reflexivity|exact IH]. Qed.
Lemma first_some {A} (k : state -> A) l : first_ok (fun s => Some (k s)) l = match l with [] => None | s :: _ => Some (k s) end.
Proof. destruct l; reflexivity. Qed.
Lemma find_ways r w p : find_from r w p = match ways r (p, w, []) with
  | (p', _, c) :: _ => Some ((0, (p, p')) :: c)
  | [] => match w with [] => None | (_, wd) :: w' => find_from r w' (p + Z.of_nat wd)%Z end end.
Proof.
  assert (E : mt r w p [] (fun _ p' c' => Some ((0, (p, p')) :: c')) = match ways r (p, w, []) with (p', _, c) :: _ => Some ((0, (p, p')) :: c) | [] => None end).
  { rewrite mt_ways. change (first_ok (of_k (fun _ p' c' => Some ((0, (p, p')) :: c'))) (ways r (p, w, []) : list state) = match (ways r (p, w, []) : list state) with (p', _, c) :: _ => Some ((0, (p, p')) :: c) | [] => None end).
    destruct (ways r (p, w, [])) as [|[[p' w'] c'] l]; reflexivity. }
  destruct w as [|[x wd] w]; cbn [find_from]; rewrite E; clear E.
  - destruct (ways r (p, [], [])) as [|[[p' w'] c'] l]; reflexivity.
  - destruct (ways r (p, (x, wd) :: w, [])) as [|[[p' w'] c'] l]; reflexivity.
Qed.
Lemma find_first r s c : find_from r s 0 = Some c <-> exists u w p w' c' l, s = u ++ w /\ ways r (width u, w, []) = (p, w', c') :: l /\
  (forall u' w', s = u' ++ w' -> length u' < length u -> ways r (width u', w', []) = []) /\ c = (0, (width u, p)) :: c'.
Proof.
  assert (K : forall w u, (forall u' w', u ++ w = u' ++ w' -> length u' < length u -> ways r (width u', w', []) = []) ->
    find_from r w (width u) = Some c <-> exists u1 w1 p w' c' l, u ++ w = u1 ++ w1 /\ ways r (width u1, w1, []) = (p, w', c') :: l /\
      (forall u' w', u ++ w = u' ++ w' -> length u' < length u1 -> ways r (width u', w', []) = []) /\ c = (0, (width u1, p)) :: c').
  { intros w. induction w as [|[x wd] w IH]; intros u Hu; rewrite find_ways;
      [destruct (ways r (width u, [], [])) as [|[[p' w'] c'] l] eqn:E|destruct (ways r (width u, (x, wd) :: w, [])) as [|[[p' w'] c'] l] eqn:E].
    - split; [discriminate|]. intros (u1 & w1 & p & w' & c' & l & E1 & W & _). exfalso. rewrite app_nil_r in E1. subst u.
      destruct w1 as [|y w1]; [rewrite app_nil_r in E; rewrite E in W; discriminate W|]. rewrite (Hu u1 (y :: w1)) in W; [discriminate W|rewrite app_nil_r; reflexivity|rewrite app_length; cbn; lia].
    - split; [intros [= <-]; exists u, [], p', w', c', l; auto|]. intros (u1 & w1 & p & w2 & c2 & l2 & E1 & W & F & ->).
      assert (X : u1 = u /\ w1 = []).
      { rewrite app_nil_r in E1. destruct w1 as [|y w1]; [rewrite app_nil_r in E1; auto|]. exfalso. rewrite (Hu u1 (y :: w1)) in W; [discriminate W|rewrite app_nil_r; exact E1|rewrite E1, app_length; cbn; lia]. }
      destruct X as [-> ->]. rewrite E in W. injection W as -> -> -> ->. reflexivity.
    - replace (width u + Z.of_nat wd)%Z with (width (u ++ [(x, wd)])) by (rewrite width_app; cbn; lia).
      assert (EA : u ++ (x, wd) :: w = (u ++ [(x, wd)]) ++ w) by (rewrite <- app_assoc; reflexivity). rewrite EA. apply IH.
      intros u' w' Eq L. rewrite app_length in L. cbn in L. destruct (Nat.eq_dec (length u') (length u)) as [El|Nl].
      + rewrite <- EA in Eq. assert (u = u' /\ (x, wd) :: w = w') as [<- <-]; [|exact E]. apply app_eq_app in Eq as (k & [[-> Eq]|[-> Eq]]); rewrite app_length in El; destruct k; try (cbn in El; lia); rewrite app_nil_r in *; cbn [app] in Eq; auto.
      + rewrite <- EA in Eq. apply (Hu u' w' Eq). lia.
    - split; [intros [= <-]; exists u, ((x, wd) :: w), p', w', c', l; auto|]. intros (u1 & w1 & p & w2 & c2 & l2 & E1 & W & F & ->).
      assert (X : u1 = u /\ w1 = (x, wd) :: w).
      { apply app_eq_app in E1 as (k & [[E1 E2]|[E1 E2]]); destruct k as [|y k]; rewrite ?app_nil_r in E1; cbn [app] in E2; auto; exfalso.
        - rewrite (Hu u1 w1) in W; [discriminate W|rewrite E1, E2, <- app_assoc; reflexivity|rewrite E1, app_length; cbn; lia].
        - rewrite (F u ((x, wd) :: w)) in E; [discriminate E|reflexivity|rewrite E1, app_length; cbn; lia]. }
      destruct X as [-> ->]. rewrite E in W. injection W as -> -> -> ->. reflexivity. }
  apply (K s []). intros u' w' _ L. cbn in L. lia.
Qed.
Lemma finds_order src fold a s m : encodes src (written fold a) -> ok_alts fold a -> go_alts a -> re_find (compile src) s = Some m <-> finds_first fold a (runes s) m.
Proof.
  intros En O G. destruct (orders_pattern src fold a En O G) as (r & P & M). unfold compile. cbn [re_find]. rewrite P. unfold find_re.
  assert (W : forall st l, o_alts fold 0 a st l <-> ways r st = l) by (intros st l; split; [intros H; exact (proj1 (order_sure fold) a 0 st _ _ (M st) H)|intros <-; apply M]).
  assert (FC : forall p0 p c, flat_caps (n_alts a) ((0, (p0, p)) :: c) = p0 :: p :: flat_map (fun n => span_of n c) (seq 1 (n_alts a))).
  { intros p0 p c. unfold flat_caps. cbn [seq flat_map cap_get Nat.eqb fst snd app]. f_equal. f_equal. generalize (n_alts a) as k. intros k. clear.
    assert (H : forall j i, flat_map (fun n => [fst (cap_get ((0, (p0, p)) :: c) n); snd (cap_get ((0, (p0, p)) :: c) n)]) (seq (S i) j) = flat_map (fun n => span_of n c) (seq (S i) j)).
    { clear. induction j as [|j IH]; intros i; [reflexivity|]. cbn [seq flat_map]. rewrite <- IH. rewrite <- cap_span. reflexivity. }
    apply H. }
  split.
  - destruct (find_from r (runes s) 0) as [c|] eqn:F; [|discriminate]. intros [= <-]. apply find_first in F as (u & w & p & w' & c' & l & E & Wy & Fi & ->).
    exists u, w, p, w', c', l. split; [exact E|]. split; [apply W; exact Wy|]. split; [|apply FC]. intros u' w2 E' L. apply W. exact (Fi u' w2 E' L).
  - intros (u & w & p & w' & c' & l & E & Wy & Fi & ->). assert (F : find_from r (runes s) 0 = Some ((0, (width u, p)) :: c')).
    { apply find_first. exists u, w, p, w', c', l. split; [exact E|]. split; [apply W; exact Wy|]. split; [|reflexivity]. intros u' w2 E' L. apply W. exact (Fi u' w2 E' L). }
    rewrite F, FC. reflexivity.
Qed.
Lemma shipped_order r : In r (patterns_of shipped) -> exists fold a, encodes (re_src r) (written fold a) /\ ok_alts fold a /\ go_alts a /\
  forall s m, re_find r s = Some m <-> finds_first fold a (runes s) m.
Proof.
  intros I. destruct (shipped_listed r I) as (src & J & ->). destruct (shipped_syntax src J) as (fold & a & En & O & G).
  exists fold, a. split; [exact En|]. split; [exact O|]. split; [exact G|]. intros s m. apply finds_order; assumption.
Qed.

(** Normalising a pattern leaves its look-arounds out, and what is left matches whenever the pattern did. *)
From Verif Require Import Model_Base Model_Ctx Model_Regex Model_Compiler Spec_Regex Spec_Compiler Spec_Syntax Spec_Widen Proof_Base Proof_Compiler Proof_Pattern Proof_Syntax.
From Coq Require Import Lia ZifyBool ZifyNat ZifyN.

(** ** Leaving out only widens *)
Lemma drop_sound fold :
  (forall a, tidy_alts a -> forall u v w, m_alts fold a u v w -> m_alts fold (drop_alts a) u v w) /\
  (forall s, tidy_sequ s -> forall u v w, m_sequ fold s u v w -> m_sequ fold (drop_sequ s) u v w) /\
  (forall x, tidy_atom x -> forall u v w, m_atom fold x u v w -> m_atom fold (drop_atom x) u v w).
Proof.
  apply syntax_ind; try (intros; assumption).
  - intros s IH T u v w H. apply IH; assumption.
  - intros s IHs a IHa [Ts Ta] u v w [H|H]; [left; apply IHs|right; apply IHa]; assumption.
  - intros x IHx c z s IHs (Tx & Tc & Ts) u v w (v1 & v2 & n & -> & A & T & M).
    assert (K : forall y, (forall u v w, m_atom fold x u v w -> m_atom fold y u v w) -> m_sequ fold (Then y c z (drop_sequ s)) u (v1 ++ v2) w).
    { intros y Hy. exists v1, v2, n. split; [reflexivity|]. split; [exact A|]. split; [|apply IHs; assumption].
      clear - T Hy. revert u v1 T. induction n as [|n IH]; intros u v1; cbn [times]; [auto|]. intros (a & b & -> & Ma & Tb). exists a, b. auto. }
    destruct x as [x|x|x| | | |neg l|cap a|ah a]; cbn [drop_sequ]; try (apply K; exact (IHx Tx)).
    subst c. cbn [allowed] in A. subst n. apply (proj1 (times_one _ _ _ _)) in T. cbn [m_atom] in T.
    assert (V : v1 = []) by (destruct ah; apply T). subst v1. cbn [app]. rewrite app_nil_r in M. apply IHs; assumption.
  - intros cap a IH T u v w H. apply IH; assumption.
Qed.
Lemma drop_go : (forall a, go_alts (drop_alts a)) /\ (forall s, go_sequ (drop_sequ s)) /\ (forall x, match x with ALook _ _ => True | _ => go_atom (drop_atom x) end).
Proof.
  apply syntax_ind; cbn; auto. intros x Hx c z s Hs. destruct x; cbn [drop_sequ go_sequ]; auto.
Qed.
Lemma drop_ok fold : (forall a, ok_alts fold a -> ok_alts fold (drop_alts a)) /\ (forall s, ok_sequ fold s -> ok_sequ fold (drop_sequ s)) /\
  (forall x, ok_atom fold x -> ok_atom fold (drop_atom x)).
Proof.
  apply syntax_ind; try (intros; assumption).
  - intros s IH H. exact (IH H).
  - intros s IHs a IHa [Hs Ha]. split; auto.
  - intros x IHx c z s IHs (Hx & Hc & Hs). specialize (IHx Hx). destruct x; cbn [drop_sequ]; try (split; [exact IHx|split; [exact Hc|auto]]). auto.
  - intros cap a IH H. exact (IH H).
Qed.
Lemma drop_groups : (forall a, quiet_alts a -> n_alts (drop_alts a) = n_alts a) /\ (forall s, quiet_sequ s -> n_sequ (drop_sequ s) = n_sequ s) /\
  (forall x, quiet_atom x -> match x with ALook _ _ => n_atom x = 0 | _ => n_atom (drop_atom x) = n_atom x end).
Proof.
  apply syntax_ind; try (intros; reflexivity).
  - intros s IH H. exact (IH H).
  - intros s IHs a IHa [Hs Ha]. cbn [drop_alts n_alts]. rewrite IHs, IHa by assumption. reflexivity.
  - intros x IHx c z s IHs [Hx Hs]. specialize (IHx Hx). specialize (IHs Hs). destruct x; cbn [drop_sequ n_sequ]; rewrite IHs, ?IHx; reflexivity.
  - intros cap a IH H. cbn [drop_atom n_atom quiet_atom] in *. destruct cap; rewrite (IH H); reflexivity.
  - intros ah a _ H. exact H.
Qed.

(** ** The text in pieces *)
Inductive seg := Txt (l : list N) | Lk (ahead : bool) (body : list N).
Definition opener (ahead : bool) : list N := if ahead then [40; 63; 33]%N else [40; 63; 60; 33]%N.
Definition show (g : seg) : list N := match g with Txt l => l | Lk ah b => opener ah ++ b ++ [41%N] end.
Definition flat (l : list seg) : list N := flat_map show l.
Definition rest_of (l : list seg) : list N := flat_map (fun g => match g with Txt t => t | Lk _ _ => [] end) l.
Fixpoint d_alts (a : alts) : list seg := match a with One s => d_sequ s | Or s a => d_sequ s ++ Txt [124%N] :: d_alts a end
with d_sequ (s : sequ) : list seg := match s with Empty => [] | Then x c z s => d_atom x ++ Txt (w_count c ++ w_lazy c z) :: d_sequ s end
with d_atom (x : atom) : list seg :=
  match x with
  | AGroup true a => Txt [40%N] :: d_alts a ++ [Txt [41%N]]
  | AGroup false a => Txt [40; 63; 58]%N :: d_alts a ++ [Txt [41%N]]
  | ALook ah a => [Lk ah (w_alts a)]
  | _ => [Txt (w_atom x)]
  end.
Lemma flat_app a b : flat (a ++ b) = flat a ++ flat b.
Proof. apply flat_map_app. Qed.
Lemma rest_app a b : rest_of (a ++ b) = rest_of a ++ rest_of b.
Proof. apply flat_map_app. Qed.
Lemma d_flat : (forall a, flat (d_alts a) = w_alts a) /\ (forall s, flat (d_sequ s) = w_sequ s) /\ (forall x, flat (d_atom x) = w_atom x).
Proof.
  apply syntax_ind; try (intros; reflexivity); try (intros; cbn; rewrite ?app_nil_r; reflexivity).
  - intros s IH. exact IH.
  - intros s IHs a IHa. cbn [d_alts w_alts]. rewrite flat_app, IHs. f_equal. change (flat (Txt [124%N] :: d_alts a)) with (124%N :: flat (d_alts a)). rewrite IHa. reflexivity.
  - intros x IHx c z s IHs. cbn [d_sequ w_sequ]. rewrite flat_app, IHx. f_equal.
    change (flat (Txt (w_count c ++ w_lazy c z) :: d_sequ s)) with ((w_count c ++ w_lazy c z) ++ flat (d_sequ s)). rewrite IHs, <- app_assoc. reflexivity.
  - intros cap a IH. cbn [d_atom w_atom]. destruct cap; cbn [flat flat_map show app]; fold (flat (d_alts a ++ [Txt [41%N]])); rewrite flat_app, IH; reflexivity.
  - intros ah a _. cbn [d_atom w_atom flat flat_map show opener]. rewrite app_nil_r. destruct ah; reflexivity.
Qed.
Lemma d_rest : (forall a, tidy_alts a -> rest_of (d_alts a) = w_alts (drop_alts a)) /\ (forall s, tidy_sequ s -> rest_of (d_sequ s) = w_sequ (drop_sequ s)) /\
  (forall x, tidy_atom x -> match x with ALook _ _ => rest_of (d_atom x) = [] | _ => rest_of (d_atom x) = w_atom (drop_atom x) end).
Proof.
  apply syntax_ind; try (intros; reflexivity); try (intros; cbn; rewrite ?app_nil_r; reflexivity).
  - intros s IH. exact IH.
  - intros s IHs a IHa [Hs Ha]. cbn [d_alts w_alts drop_alts]. rewrite rest_app, IHs by exact Hs. f_equal.
    change (rest_of (Txt [124%N] :: d_alts a)) with (124%N :: rest_of (d_alts a)). rewrite IHa by exact Ha. reflexivity.
  - intros x IHx c z s IHs (Hx & Hc & Hs). specialize (IHx Hx). specialize (IHs Hs). cbn [d_sequ]. rewrite rest_app.
    change (rest_of (Txt (w_count c ++ w_lazy c z) :: d_sequ s)) with ((w_count c ++ w_lazy c z) ++ rest_of (d_sequ s)). rewrite IHs, <- app_assoc.
    destruct x; cbn [drop_sequ w_sequ]; rewrite IHx; try reflexivity. subst c. reflexivity.
  - intros cap a IH H. cbn [d_atom drop_atom w_atom]. cbn [tidy_atom] in H. destruct cap; cbn [rest_of flat_map app]; fold (rest_of (d_alts a ++ [Txt [41%N]])); rewrite rest_app, (IH H); reflexivity.
Qed.
(** The bodies that occur. *)
Definition body_ok (fold : bool) (b : list N) : Prop := exists a, b = w_alts a /\ calm_alts a /\ ok_alts fold a /\ b <> [].
Definition seg_ok (fold : bool) (g : seg) : Prop := match g with Txt _ => True | Lk _ b => body_ok fold b end.
Lemma d_ok fold : (forall a, tidy_alts a -> ok_alts fold a -> Forall (seg_ok fold) (d_alts a)) /\ (forall s, tidy_sequ s -> ok_sequ fold s -> Forall (seg_ok fold) (d_sequ s)) /\
  (forall x, tidy_atom x -> ok_atom fold x -> Forall (seg_ok fold) (d_atom x)).
Proof.
  apply syntax_ind; try (intros; constructor; [exact I|constructor]); try (intros; constructor; fail).
  - intros s IH. exact IH.
  - intros s IHs a IHa [Ts Ta] [Os Oa]. cbn [d_alts]. apply Forall_app. split; [auto|]. constructor; [exact I|auto].
  - intros x IHx c z s IHs (Tx & _ & Ts) (Ox & _ & Os). cbn [d_sequ]. apply Forall_app. split; [auto|]. constructor; [exact I|auto].
  - intros cap a IH T O. cbn [d_atom]. destruct cap; (constructor; [exact I|]); apply Forall_app; (split; [auto|constructor; [exact I|constructor]]).
  - intros ah a _ [T N] O. cbn [d_atom]. constructor; [|constructor]. exists a. auto.
Qed.

(** ** Bytes *)
Definition enc (l : list N) : bytes := map nb (flat_map utf8 l).
Lemma enc_app a b : enc (a ++ b) = enc a ++ enc b.
Proof. unfold enc. rewrite flat_map_app, map_app. reflexivity. Qed.
Lemma nb_bn b : nb (bn b) = b.
Proof. destruct b; reflexivity. Qed.
Lemma bn_nb n : (n < 256)%N -> bn (nb n) = n.
Proof.
  intros L. assert (E : exists b, n = bn b).
  { unfold bn. destruct (Byte.of_N n) as [b|] eqn:B; [exists b; symmetry; apply Byte.to_of_N; exact B|]. apply Byte.of_N_None_iff in B. lia. }
  destruct E as [b ->]. rewrite nb_bn. reflexivity.
Qed.
Lemma utf8_small r : scalar r -> Forall (fun x => (x < 256)%N) (utf8 r).
Proof.
  unfold scalar, utf8. intros S. destruct (r <? 128)%N eqn:A; [repeat constructor; lia|]. destruct (r <? 2048)%N eqn:B; [repeat constructor; lia|].
  destruct (r <? 65536)%N eqn:C; repeat constructor; lia.
Qed.
Lemma encodes_enc src l : encodes src l <-> Forall scalar l /\ src = enc l.
Proof.
  unfold encodes, enc. split; intros [S E]; (split; [exact S|]).
  - rewrite <- E, map_map. rewrite (map_ext _ (fun b => b)) by apply nb_bn. symmetry. apply map_id.
  - subst src. rewrite map_map. induction l as [|r l IH]; [reflexivity|]. inversion S as [|? ? Hr Hl]; subst. cbn [flat_map]. rewrite map_app, IH by exact Hl. f_equal.
    pose proof (utf8_small r Hr) as U. induction U as [|x k Hx _ IHk]; [reflexivity|]. cbn [map]. rewrite bn_nb by exact Hx. f_equal. exact IHk.
Qed.
Definition ascii (l : list N) : Prop := Forall (fun x => (x < 128)%N) l.
Lemma utf8_ascii x : (x < 128)%N -> utf8 x = [x].
Proof. intros L. unfold utf8. replace (x <? 128)%N with true by lia. reflexivity. Qed.
Lemma enc_ascii l : ascii l -> enc l = map nb l.
Proof. intros A. unfold enc. f_equal. induction A as [|x l L _ IH]; [reflexivity|]. cbn [flat_map]. rewrite utf8_ascii by exact L. cbn [app]. f_equal. exact IH. Qed.
Lemma runes_enc l : Forall scalar l -> map fst (runes (enc l)) = l.
Proof. intros S. apply encodes_runes. apply encodes_enc. auto. Qed.
Lemma within_part op l : ascii op -> op <> [] -> Forall scalar l -> within (enc op) (enc l) -> part op l.
Proof.
  intros A N S (x & y & E).
  assert (M : map bn (enc op) = op).
  { rewrite enc_ascii by exact A. rewrite map_map. clear N E. induction A as [|z k L _ IH]; [reflexivity|]. cbn [map]. rewrite bn_nb by lia. f_equal. exact IH. }
  destruct (sub_bytes_runes (enc op) y (length x) x (le_n _)) as (u & w & R).
  - intros Q. rewrite Q in M. symmetry in M. contradiction.
  - apply Forall_forall. intros b I. rewrite <- M in A. unfold ascii in A. rewrite Forall_map, Forall_forall in A. exact (A b I).
  - exists (map fst u), (map fst w). rewrite <- (runes_enc l S), E, R, !map_app, map_map. cbn [fst]. change (map (fun x0 => bn x0) (enc op)) with (map bn (enc op)). rewrite M. reflexivity.
Qed.

(** ** Where an opener can be *)
Lemma part_app op a b : part op (a ++ b) -> part op a \/ part op b \/
  exists o1 o2 a' b', op = o1 ++ o2 /\ o1 <> [] /\ o2 <> [] /\ a = a' ++ o1 /\ b = o2 ++ b'.
Proof.
  intros (x & y & E). apply app_eq_app in E as (l & [[Ea Eb]|[Ea Eb]]).
  - (* a = x ++ l, op ++ y = l ++ b *) symmetry in Eb. apply app_eq_app in Eb as (k & [[E1 E2]|[E1 E2]]).
    + left. exists x, k. rewrite Ea, E1. reflexivity.
    + destruct k as [|z k].
      * rewrite app_nil_r in E1. left. exists x, []. rewrite app_nil_r. subst. reflexivity.
      * destruct l as [|z' l].
        -- right. left. exists [], y. cbn [app] in *. rewrite E2. subst. reflexivity.
        -- right. right. exists (z' :: l), (z :: k), x, y. split; [exact E1|]. split; [discriminate|]. split; [discriminate|]. auto.
  - right. left. exists l, y. exact Eb.
Qed.
(** An opener: a bracket and then no brackets. *)
Definition is_op (op : list N) : Prop := exists t, op = 40%N :: t /\ t <> [] /\ ~ In 40%N t /\ ~ In 41%N t.
Lemma glue_open op a b : is_op op -> part op (a ++ 40%N :: b) -> part op a \/ part op (40%N :: b).
Proof.
  intros (t & -> & _ & N & _) H. apply part_app in H as [H|[H|(o1 & o2 & a' & b' & E & N1 & N2 & Ea & Eb)]]; auto.
  exfalso. destruct o2 as [|z o2]; [contradiction|]. cbn [app] in Eb. injection Eb as <- _. destruct o1 as [|z o1]; [contradiction|].
  cbn [app] in E. injection E as _ E. apply N. rewrite E. apply in_or_app. right. left. reflexivity.
Qed.
Lemma glue_close op a b : is_op op -> part op ((a ++ [41%N]) ++ b) -> part op (a ++ [41%N]) \/ part op b.
Proof.
  intros (t & -> & _ & _ & N) H. apply part_app in H as [H|[H|(o1 & o2 & a' & b' & E & N1 & N2 & Ea & Eb)]]; auto.
  exfalso. destruct o1 as [|z o1] using rev_ind; [contradiction|]. rewrite app_assoc in Ea. apply app_inj_tail in Ea as [_ <-].
  destruct o1 as [|y o1]; cbn [app] in E; injection E as E0 E; [discriminate E0|]. apply N. rewrite E. rewrite <- app_assoc. apply in_or_app. right. left. reflexivity.
Qed.
Lemma free_flat op pre : is_op op -> (forall g, In g pre -> match g with Lk _ _ => ~ part op (show g) | Txt _ => True end) ->
  forall t, ~ part op (t ++ rest_of pre) -> ~ part op (t ++ flat pre).
Proof.
  intros O. induction pre as [|g pre IH]; intros H t F; [exact F|]. specialize (IH (fun g I => H g (or_intror I))).
  destruct g as [l|ah b]; cbn [rest_of flat flat_map show app] in *; fold (rest_of pre) in *; fold (flat pre) in *.
  - rewrite app_assoc in *. apply IH. exact F.
  - specialize (H (Lk ah b) (or_introl eq_refl)). cbn [show] in H.
    assert (F1 : ~ part op t) by (intros (x & y & E); apply F; exists x, (y ++ rest_of pre); rewrite E, <- !app_assoc; reflexivity).
    assert (F2 : ~ part op (flat pre)).
    { apply (IH []). cbn [app]. intros (x & y & E). apply F. exists (t ++ x), y. rewrite E, <- app_assoc. reflexivity. }
    intros P. assert (Sh : exists q, opener ah = 40%N :: q) by (destruct ah; eexists; reflexivity). destruct Sh as (q & Eq). rewrite Eq in *. cbn [app] in *.
    apply (glue_open _ _ _ O) in P as [P|P]; [exact (F1 P)|].
    replace (40%N :: (q ++ b ++ [41%N]) ++ flat pre) with (((40%N :: q ++ b) ++ [41%N]) ++ flat pre) in P by (cbn [app]; rewrite <- !app_assoc; reflexivity).
    apply (glue_close _ _ _ O) in P as [P|P]; [|exact (F2 P)]. apply H. cbn [app] in P. rewrite <- app_assoc in P. exact P.
Qed.

(** Inside a body there is no opener of a look-around. *)
Fixpoint fine (l : list N) : Prop :=
  match l with
  | [] => True
  | x :: l' => (x = 40%N -> match l' with y :: z :: _ => y = 63%N -> z = 58%N | _ => True end) /\ fine l'
  end.
Lemma fine_part z l : z <> 58%N -> fine l -> ~ part [40; 63; z]%N l.
Proof.
  intros Nz F (x & y & ->). induction x as [|h x IH].
  - cbn [app fine] in F. destruct F as [F _]. exact (Nz (F eq_refl eq_refl)).
  - apply IH. apply F.
Qed.
Lemma fine_none l r : ~ In 40%N l -> fine r -> fine (l ++ r).
Proof.
  intros N F. induction l as [|x l IH]; [exact F|]. cbn [app fine]. split; [intros ->; exfalso; apply N; left; reflexivity|]. apply IH. intros I. apply N. right. exact I.
Qed.
Lemma calm_go : (forall a, calm_alts a -> go_alts a) /\ (forall s, calm_sequ s -> go_sequ s) /\ (forall x, calm_atom x -> go_atom x).
Proof.
  apply syntax_ind; cbn; auto; try (intros; exact I); tauto.
Qed.
Lemma digits_range d : Forall (fun x => (x < 10)%N) d -> forall x, In x (w_digits d) -> (48 <= x <= 57)%N.
Proof. intros F x I. unfold w_digits in I. apply in_map_iff in I as (y & <- & I). rewrite Forall_forall in F. specialize (F y I). cbn in F. lia. Qed.
Lemma count_chars c z : ok_count c -> forall x, In x (w_count c ++ w_lazy c z) -> (48 <= x <= 57 \/ x = 42 \/ x = 43 \/ x = 63 \/ x = 123 \/ x = 125 \/ x = 44)%N.
Proof.
  intros Ok x I. apply in_app_or in I as [I|I].
  - destruct c as [| | | |d|d|d e]; cbn [w_count In] in I.
    + contradiction.
    + lia.
    + lia.
    + lia.
    + destruct I as [I|I]; [lia|]. apply in_app_or in I as [I|I]; [left; apply (digits_range d); [apply Ok|exact I]|cbn in I; lia].
    + destruct I as [I|I]; [lia|]. apply in_app_or in I as [I|I]; [left; apply (digits_range d); [apply Ok|exact I]|cbn in I; lia].
    + destruct Ok as (Od & Oe & _). destruct I as [I|I]; [lia|]. apply in_app_or in I as [I|I]; [left; apply (digits_range d); [apply Od|exact I]|].
      cbn [In] in I. destruct I as [I|I]; [lia|]. apply in_app_or in I as [I|I]; [left; apply (digits_range e); [apply Oe|exact I]|cbn in I; lia].
  - unfold w_lazy in I. destruct c; destruct z; cbn [In] in I; lia.
Qed.
(** An atom that is no group: what is written for it. *)
Lemma atom_chars fold x : calm_atom x -> ok_atom fold x -> match x with AGroup _ _ => True | _ => (~ In 40%N (w_atom x) /\ ~ In 41%N (w_atom x)) /\ exists l z, w_atom x = l ++ [z] /\ z <> 92%N end.
Proof.
  destruct x as [x|x|c| | | |neg l|cap a|ah a]; cbn [calm_atom ok_atom w_atom]; intros C O; try exact I; try contradiction.
  - unfold meta in O. cbn [In] in *. split; [lia|]. exists [], x. split; [reflexivity|lia].
  - cbn [In] in *. split; [lia|]. exists [92%N], x. split; [reflexivity|lia].
  - unfold perl in O. cbn [In]. split; [lia|]. exists [92%N], c. split; [reflexivity|lia].
  - cbn [In]. split; [lia|]. exists [], 46%N. split; [reflexivity|lia].
  - cbn [In]. split; [lia|]. exists [], 94%N. split; [reflexivity|lia].
  - cbn [In]. split; [lia|]. exists [], 36%N. split; [reflexivity|lia].
  - split.
    + cbn [In]. rewrite !in_app_iff. destruct C as [C1 C2]. destruct neg; cbn [In]; split; intros Q; repeat destruct Q as [Q|Q]; try discriminate Q; auto.
    + exists (91%N :: (if neg then [94%N] else []) ++ w_items l), 93%N. split; [cbn [app]; rewrite <- app_assoc; reflexivity|lia].
Qed.
Lemma calm_fine fold :
  (forall a, calm_alts a -> ok_alts fold a -> forall r, fine r -> fine (w_alts a ++ r)) /\
  (forall s, calm_sequ s -> ok_sequ fold s -> forall r, fine r -> fine (w_sequ s ++ r)) /\
  (forall x, calm_atom x -> ok_atom fold x -> forall r, fine r -> fine (w_atom x ++ r)).
Proof.
  apply syntax_ind; try (intros; cbn [w_sequ app]; assumption);
    try (intros; match goal with C : calm_atom ?x, O : ok_atom _ ?x |- _ => pose proof (atom_chars fold x C O) as [[N _] _]; apply fine_none; assumption end).
  - intros s IH. exact IH.
  - intros s IHs a IHa [Cs Ca] [Os Oa] r F. cbn [w_alts]. rewrite <- app_assoc. apply IHs; try assumption. cbn [app fine]. split; [discriminate|auto].
  - intros x IHx c z s IHs [Cx Cs] (Ox & Oc & Os) r F. cbn [w_sequ]. rewrite <- !app_assoc. apply IHx; try assumption. rewrite app_assoc. apply fine_none; [|auto].
    intros I. apply (count_chars c z Oc) in I. lia.
  - intros cap a IH C O r F. cbn [calm_atom ok_atom] in *. assert (G : fine (w_alts a ++ 41%N :: r)) by (apply IH; try assumption; cbn [fine]; split; [discriminate|exact F]).
    pose proof (w_alts_noquery a fold (proj1 calm_go a C) O r) as Q. destruct cap; cbn [w_atom app]; rewrite <- app_assoc; cbn [app].
    + cbn [fine]. split; [|exact G]. intros _. destruct (w_alts a ++ 41%N :: r) as [|y [|t k]]; try exact I. intros ->. contradiction.
    + cbn [fine]. repeat split; try discriminate; auto.
Qed.
Lemma body_fine fold b : body_ok fold b -> fine (b ++ [41%N]).
Proof. intros (a & -> & C & O & _). apply (calm_fine fold); try assumption. cbn. split; [discriminate|exact I]. Qed.

(** ** The closing bracket *)
Definition bal (e : bytes) : Prop := forall esc prev rest i d c, beq prev x5c = false ->
  exists prev' c', beq prev' x5c = false /\ closing esc prev (e ++ rest) i (S d + c) c = closing esc prev' rest (i + length e) (S d + c') c'.
Lemma bal_nil : bal [].
Proof. intros esc prev rest i d c P. exists prev, c. split; [exact P|]. cbn [app length]. rewrite Nat.add_0_r. reflexivity. Qed.
Lemma bal_app a b : bal a -> bal b -> bal (a ++ b).
Proof.
  intros A B esc prev rest i d c P. destruct (A esc prev (b ++ rest) i d c P) as (p1 & c1 & P1 & E1). destruct (B esc p1 rest (i + length a) d c1 P1) as (p2 & c2 & P2 & E2).
  exists p2, c2. split; [exact P2|]. rewrite <- app_assoc, E1, E2, app_length, Nat.add_assoc. reflexivity.
Qed.
Lemma bal_plain e z : (forall y, In y e -> y <> x28 /\ y <> x29) -> z <> x28 -> z <> x29 -> z <> x5c -> bal (e ++ [z]).
Proof.
  intros H Z1 Z2 Z3.
  assert (K : forall esc e prev rest i d c, (forall y, In y e -> y <> x28 /\ y <> x29) ->
    exists prev', closing esc prev (e ++ rest) i (S d + c) c = closing esc prev' rest (i + length e) (S d + c) c /\ (e = [] -> prev' = prev)).
  { clear. intros esc e. induction e as [|y e IH]; intros prev rest i d c H.
    - exists prev. cbn [app length]. rewrite Nat.add_0_r. auto.
    - destruct (H y (or_introl eq_refl)) as [H1 H2]. cbn [app closing].
      replace (beq y x28) with false by (symmetry; apply beq_neq; exact H1). replace (beq y x29) with false by (symmetry; apply beq_neq; exact H2). cbn [andb].
      replace (Nat.eqb (S d + c) c) with false by (symmetry; apply Nat.eqb_neq; lia).
      destruct (IH y rest (S i) d c (fun y' I => H y' (or_intror I))) as (p & E & _). exists p. rewrite E. cbn [length]. split; [f_equal; lia|discriminate]. }
  intros esc prev rest i d c P. rewrite <- app_assoc. destruct (K esc e prev ([z] ++ rest) i d c H) as (p & E & _). rewrite E. exists z, c. split; [apply beq_neq; exact Z3|].
  cbn [app closing]. replace (beq z x28) with false by (symmetry; apply beq_neq; exact Z1). replace (beq z x29) with false by (symmetry; apply beq_neq; exact Z2). cbn [andb].
  replace (Nat.eqb (S d + c) c) with false by (symmetry; apply Nat.eqb_neq; lia). rewrite app_length. cbn [length]. f_equal. lia.
Qed.
Lemma bal_group q e : (forall y, In y q -> y <> x28 /\ y <> x29 /\ y <> x5c) -> bal e -> bal (x28 :: q ++ e ++ [x29]).
Proof.
  intros Hq He. assert (Bq : bal q).
  { destruct q as [|z q] using rev_ind; [apply bal_nil|]. destruct (Hq z) as (A & B & C); [apply in_or_app; right; left; reflexivity|]. apply bal_plain; try assumption.
    intros y I. destruct (Hq y) as (A' & B' & _); [apply in_or_app; left; exact I|]. auto. }
  intros esc prev rest i d c P. cbn [app]. cbn [closing]. rewrite P. rewrite andb_false_r. cbn [negb andb]. change (beq x28 x28) with true. change (beq x28 x29) with false. cbn [andb].
  replace (Nat.eqb (S (S d + c)) c) with false by (symmetry; apply Nat.eqb_neq; lia).
  destruct (bal_app q e Bq He esc x28 ([x29] ++ rest) (S i) (S d) c eq_refl) as (p & c' & Pp & E).
  replace ((q ++ e ++ [x29]) ++ rest) with ((q ++ e) ++ [x29] ++ rest) by (rewrite <- !app_assoc; reflexivity).
  change (S (S d + c)) with (S (S d) + c). rewrite E. exists x29, (S c'). split; [reflexivity|]. cbn [app closing]. change (beq x29 x28) with false. change (beq x29 x29) with true. rewrite Pp. cbn [andb negb].
  replace (Nat.eqb (S (S d) + c') (S c')) with false by (symmetry; apply Nat.eqb_neq; lia). cbn [length]. rewrite !app_length. cbn [length].
  replace (S (S d) + c') with (S d + S c') by lia. f_equal. lia.
Qed.
(** Bytes of runes. *)
Lemma enc_in y l : Forall scalar l -> In y (enc l) -> (bn y < 128)%N -> In (bn y) l.
Proof.
  unfold enc. intros S I L. apply in_map_iff in I as (x & <- & I). apply in_flat_map in I as (r & Ir & Ix).
  rewrite Forall_forall in S. pose proof (utf8_small r (S r Ir)) as U. rewrite Forall_forall in U. specialize (U x Ix). rewrite bn_nb in * by exact U.
  assert (x = r); [|subst; exact Ir]. unfold utf8 in Ix. specialize (S r Ir). unfold scalar in S.
  destruct (r <? 128)%N eqn:A; [cbn [In] in Ix; lia|]. exfalso. destruct (r <? 2048)%N eqn:B; [cbn [In] in Ix; lia|]. destruct (r <? 65536)%N eqn:C; cbn [In] in Ix; lia.
Qed.
Lemma enc_last z : scalar z -> exists q y, enc [z] = q ++ [y] /\ (forall t, In t (enc [z]) -> (bn t < 128)%N -> bn t = z).
Proof.
  intros S. assert (N : enc [z] <> []).
  { unfold enc. cbn [flat_map]. rewrite app_nil_r. unfold utf8. destruct (z <? 128)%N; [discriminate|]. destruct (z <? 2048)%N; [discriminate|]. destruct (z <? 65536)%N; discriminate. }
  destruct (enc [z]) as [|y q] eqn:E using rev_ind; [contradiction|]. exists q, y. split; [reflexivity|]. rewrite <- E. intros t I L.
  pose proof (enc_in t [z] (Forall_cons _ S (Forall_nil _)) I L) as [H|[]]. symmetry. exact H.
Qed.
Lemma bal_runes l z : Forall scalar (l ++ [z]) -> ~ In 40%N (l ++ [z]) -> ~ In 41%N (l ++ [z]) -> z <> 92%N -> bal (enc (l ++ [z])).
Proof.
  intros S N1 N2 N3. pose proof S as S'. apply Forall_app in S' as [_ Sz]. inversion Sz as [|? ? Hz _]; subst. destruct (enc_last z Hz) as (q & y & E & Y).
  assert (All : forall t, In t (enc (l ++ [z])) -> t <> x28 /\ t <> x29).
  { intros t I. split; intros ->; [apply N1|apply N2]; apply (enc_in _ _ S I); reflexivity. }
  rewrite enc_app, E, app_assoc in All |- *. apply bal_plain.
  - intros t I. apply All. apply in_or_app. left. exact I.
  - apply All. apply in_or_app. right. left. reflexivity.
  - apply All. apply in_or_app. right. left. reflexivity.
  - intros ->. apply N3. symmetry. apply (Y x5c); [rewrite E; apply in_or_app; right; left; reflexivity|reflexivity].
Qed.
Lemma count_bal c z : ok_count c -> bal (enc (w_count c ++ w_lazy c z)).
Proof.
  intros Ok. pose proof (count_chars c z Ok) as H. destruct (w_count c ++ w_lazy c z) as [|y l] eqn:E using rev_ind; [apply bal_nil|]. clear IHl E.
  apply bal_runes.
  - apply Forall_forall. intros x I. specialize (H x I). left. lia.
  - intros I. specialize (H _ I). lia.
  - intros I. specialize (H _ I). lia.
  - assert (I : In y (l ++ [y])) by (apply in_or_app; right; left; reflexivity). specialize (H y I). lia.
Qed.
Lemma calm_bal fold :
  (forall a, calm_alts a -> ok_alts fold a -> Forall scalar (w_alts a) -> bal (enc (w_alts a))) /\
  (forall s, calm_sequ s -> ok_sequ fold s -> Forall scalar (w_sequ s) -> bal (enc (w_sequ s))) /\
  (forall x, calm_atom x -> ok_atom fold x -> Forall scalar (w_atom x) -> bal (enc (w_atom x))).
Proof.
  apply syntax_ind;
    try (intros; match goal with C : calm_atom ?x, O : ok_atom _ ?x |- _ => pose proof (atom_chars fold x C O) as [[N1 N2] (l' & z' & E & N3)]; rewrite E in *; apply bal_runes; assumption end).
  - intros s IH. exact IH.
  - intros s IHs a IHa [Cs Ca] [Os Oa] S. cbn [w_alts] in *. apply Forall_app in S as [S1 S2]. inversion S2; subst. change (124%N :: w_alts a) with ([124%N] ++ w_alts a).
    rewrite !enc_app. apply bal_app; [auto|]. apply bal_app; [|auto]. apply (bal_runes [] 124%N); [constructor; [left; lia|constructor]|cbn; lia|cbn; lia|lia].
  - intros _ _ _. apply bal_nil.
  - intros x IHx c z s IHs [Cx Cs] (Ox & Oc & Os) S. cbn [w_sequ] in *. rewrite app_assoc with (l := w_count c) in *. apply Forall_app in S as [S1 S2]. apply Forall_app in S2 as [S2 S3].
    rewrite !enc_app. apply bal_app; [auto|]. rewrite <- enc_app. apply bal_app; [apply count_bal; exact Oc|auto].
  - intros cap a IH C O S. cbn [calm_atom ok_atom] in *. destruct cap; cbn [w_atom] in *.
    + inversion S as [|? ? _ S1]; subst. apply Forall_app in S1 as [S1 _]. change (40%N :: w_alts a ++ [41%N]) with ([40%N] ++ w_alts a ++ [41%N]). rewrite !enc_app.
      apply (bal_group []); [intros y []|auto].
    + inversion S as [|? ? _ S1]; subst. inversion S1 as [|? ? _ S2]; subst. inversion S2 as [|? ? _ S3]; subst. apply Forall_app in S3 as [S3 _].
      change (40%N :: 63%N :: 58%N :: w_alts a ++ [41%N]) with ([40; 63; 58]%N ++ w_alts a ++ [41%N]). rewrite !enc_app.
      apply (bal_group [x3f; x3a]); [|auto]. intros y [<-|[<-|[]]]; repeat split; discriminate.
Qed.

(** ** One removal *)
Lemma index_first op t L' u r : op = x28 :: t -> t <> [] -> ~ In x28 t -> ~ within op u ->
  bytes_index (u ++ (op ++ L') ++ r) (op ++ L') = Some (length u).
Proof.
  intros -> Nt No. induction u as [|x u IH]; intros F.
  - cbn [app length]. cbn [bytes_index]. rewrite (proj2 (has_prefix_iff _ _)) by (exists r; reflexivity). reflexivity.
  - cbn [app length]. cbn [bytes_index]. destruct (has_prefix (x :: u ++ x28 :: (t ++ L') ++ r) (x28 :: t ++ L')) eqn:E.
    + exfalso. apply has_prefix_iff in E as (y & E). 
      cbn [app] in E. injection E as -> E. rewrite <- !app_assoc in E. apply app_eq_app in E as (l & [[E1 E2]|[E1 E2]]).
      * apply F. exists [], l. rewrite E1. reflexivity.
      * destruct l as [|z l]; [apply F; exists [], []; rewrite app_nil_r in *; rewrite E1; reflexivity|]. cbn [app] in E2. injection E2 as <- _. apply No. rewrite E1. apply in_or_app. right. left. reflexivity.
    + assert (F' : ~ within (x28 :: t) u) by (intros (a & b & ->); apply F; exists (x :: a), b; reflexivity). specialize (IH F'). cbn [app] in IH.
      rewrite IH. reflexivity.
Qed.
Lemma strip_one esc op t L' u r m : op = x28 :: t -> t <> [] -> ~ In x28 t -> ~ within op u -> op ++ L' = x28 :: m ++ [x29] -> bal m ->
  bytes_index (u ++ (op ++ L') ++ r) op = Some (length u) /\ strip_at esc (length u) (u ++ (op ++ L') ++ r) = Ok (u ++ r).
Proof.
  intros Eo Nt No F Em B. split.
  - pose proof (index_first op t [] u (L' ++ r) Eo Nt No F) as H. rewrite app_nil_r in H. rewrite <- app_assoc. exact H.
  - pose proof (index_first op t L' u r Eo Nt No F) as H. set (L := op ++ L') in *. unfold strip_at. rewrite skipn_app, skipn_all, Nat.sub_diag. cbn [skipn app]. rewrite Em. cbn [app].
    rewrite <- app_assoc. destruct (B esc x28 ([x29] ++ r) (S (length u)) 0 0 eq_refl) as (p & c & P & E). change 1 with (1 + 0). rewrite E. cbn [app closing].
    change (beq x29 x28) with false. change (beq x29 x29) with true. rewrite P. cbn [andb negb]. replace (Nat.eqb (1 + c) (S c)) with true by (symmetry; apply Nat.eqb_eq; lia).
    assert (LL : length L = length m + 2) by (rewrite Em; cbn [length]; rewrite app_length; cbn [length]; lia).
    replace (S (S (length u) + length m)) with (length u + length L) by lia.
    replace (u ++ x28 :: m ++ x29 :: r) with (u ++ L ++ r) by (rewrite Em; cbn [app]; rewrite <- app_assoc; reflexivity).
    rewrite slice_ok by (rewrite ?app_length; lia). rewrite Nat2N.id, skipn_app, skipn_all, Nat.sub_diag. cbn [skipn app].
    replace (N.to_nat (N.of_nat (length u + length L) - N.of_nat (length u))) with (length L) by lia. rewrite firstn_app, firstn_all, Nat.sub_diag. cbn [firstn]. rewrite app_nil_r.
    unfold remove_first. rewrite H. f_equal. rewrite firstn_app, firstn_all, Nat.sub_diag. cbn [firstn]. rewrite app_nil_r. f_equal.
    rewrite skipn_app. rewrite skipn_all2 by lia. cbn [app]. replace (length u + length L - length u) with (length L) by lia. rewrite skipn_app, skipn_all, Nat.sub_diag. reflexivity.
Qed.

(** ** The three steps *)
Section Steps.
Context (fold : bool).
Definition good (l : list seg) : Prop := Forall scalar (flat l) /\ Forall (seg_ok fold) l.
Lemma good_drop pre g post : good (pre ++ g :: post) -> good (pre ++ post).
Proof.
  intros [S O]. rewrite flat_app in S. apply Forall_app in S as [S1 S2]. change (flat (g :: post)) with (show g ++ flat post) in S2. apply Forall_app in S2 as [S2 S3].
  apply Forall_app in O as [O1 O2]. inversion O2; subst. split; [rewrite flat_app|]; apply Forall_app; auto.
Qed.
Lemma good_seg pre g post : good (pre ++ g :: post) -> Forall scalar (flat pre) /\ Forall scalar (show g) /\ seg_ok fold g.
Proof.
  intros [S O]. rewrite flat_app in S. apply Forall_app in S as [S1 S2]. change (flat (g :: post)) with (show g ++ flat post) in S2. apply Forall_app in S2 as [S2 S3].
  apply Forall_app in O as [_ O]. inversion O; subst. auto.
Qed.
Lemma show_bal ah b : Forall scalar (show (Lk ah b)) -> seg_ok fold (Lk ah b) -> exists m, enc (show (Lk ah b)) = x28 :: m ++ [x29] /\ bal m.
Proof.
  cbn [show seg_ok]. intros S (a & -> & C & O & _). apply Forall_app in S as [_ S]. apply Forall_app in S as [S _].
  pose proof (proj1 (calm_bal fold) a C O S) as B. rewrite !enc_app. destruct ah.
  - change (enc (opener true)) with [x28; x3f; x21]. exists ([x3f; x21] ++ enc (w_alts a)). split; [reflexivity|]. apply bal_app; [|exact B]. apply (bal_plain [x3f] x21); try discriminate. intros y [<-|[]]. split; discriminate.
  - change (enc (opener false)) with [x28; x3f; x3c; x21]. exists ([x3f; x3c; x21] ++ enc (w_alts a)). split; [reflexivity|]. apply bal_app; [|exact B]. apply (bal_plain [x3f; x3c] x21); try discriminate.
    intros y [<-|[<-|[]]]; split; discriminate.
Qed.
(** Openers in bytes. *)
Lemma op_bytes op : is_op op -> ascii op -> exists t, enc op = x28 :: t /\ t <> [] /\ ~ In x28 t.
Proof.
  intros (t & -> & N & N40 & _) A. exists (enc t). inversion A as [|? ? _ At]; subst. split; [change (40%N :: t) with ([40%N] ++ t); rewrite enc_app; reflexivity|].
  rewrite enc_ascii by exact At. split; [destruct t; [contradiction|discriminate]|]. intros I. apply in_map_iff in I as (x & E & I). apply N40.
  unfold ascii in At. rewrite Forall_forall in At. specialize (At x I). cbn in At. assert (x = 40%N); [|subst; exact I]. rewrite <- (bn_nb x) by lia. rewrite E. reflexivity.
Qed.
Lemma remove_one esc op L' pre ah b post : is_op op -> ascii op -> good (pre ++ Lk ah b :: post) -> show (Lk ah b) = op ++ L' -> ~ part op (flat pre) ->
  bytes_index (enc (flat (pre ++ Lk ah b :: post))) (enc op) = Some (length (enc (flat pre))) /\
  strip_at esc (length (enc (flat pre))) (enc (flat (pre ++ Lk ah b :: post))) = Ok (enc (flat (pre ++ post))).
Proof.
  intros O A G Sh F. destruct (good_seg _ _ _ G) as (S1 & S2 & Sg). destruct (show_bal ah b S2 Sg) as (m & Em & Bm). destruct (op_bytes op O A) as (t & Et & Nt & No).
  assert (N : op <> []) by (destruct O as (? & -> & _); discriminate).
  assert (W : ~ within (enc op) (enc (flat pre))) by (intros H; apply F; apply within_part; assumption).
  rewrite !flat_app. change (flat (Lk ah b :: post)) with (show (Lk ah b) ++ flat post). rewrite Sh, !enc_app. rewrite Sh, enc_app in Em.
  exact (strip_one esc (enc op) t (enc L') (enc (flat pre)) (enc (flat post)) m Et Nt No W Em Bm).
Qed.
Lemma none_left op l : is_op op -> ascii op -> good l -> (forall g, In g l -> match g with Lk _ _ => ~ part op (show g) | Txt _ => True end) ->
  ~ part op (rest_of l) -> bytes_index (enc (flat l)) (enc op) = None.
Proof.
  intros O A [S _] H F. apply index_within. intros W. apply within_part in W; try assumption; [|destruct O as (? & -> & _); discriminate].
  exact (free_flat op l O H [] F W).
Qed.

Definition kept (ah : bool) (g : seg) : bool := match g with Lk a _ => negb (Bool.eqb a ah) | Txt _ => true end.
Lemma first_target (P : seg -> bool) l : (forall g, In g l -> P g = true) \/ exists pre g post, l = pre ++ g :: post /\ P g = false /\ forall h, In h pre -> P h = true.
Proof.
  induction l as [|g l IH]; [left; intros g []|]. destruct (P g) eqn:E.
  - destruct IH as [IH|(pre & h & post & -> & Ph & Hp)].
    + left. intros h [<-|I]; auto.
    + right. exists (g :: pre), h, post. split; [reflexivity|]. split; [exact Ph|]. intros k [<-|I]; auto.
  - right. exists [], g, l. split; [reflexivity|]. split; [exact E|]. intros h [].
Qed.
Lemma filter_all {A} (P : A -> bool) l : (forall x, In x l -> P x = true) -> filter P l = l.
Proof. induction l as [|x l IH]; intros H; [reflexivity|]. cbn [filter]. rewrite (H x (or_introl eq_refl)). f_equal. apply IH. intros y I. apply H. right. exact I. Qed.
Lemma strip_all op ah esc : is_op op -> ascii op -> (forall b, exists L', show (Lk ah b) = op ++ L') ->
  forall fuel l, good l -> (forall b, In (Lk (negb ah) b) l -> ~ part op (show (Lk (negb ah) b))) -> ~ part op (rest_of l) -> length (enc (flat l)) < fuel ->
  strip_loop (enc op) esc fuel (enc (flat l)) = Some (Ok (enc (flat (filter (kept ah) l)))).
Proof.
  intros O A Sh. induction fuel as [|fuel IH]; intros l G H F L; [lia|]. cbn [strip_loop].
  assert (Hk : forall k, (forall g, In g k -> In g l) -> (forall g, In g k -> kept ah g = true) -> forall g, In g k -> match g with Lk _ _ => ~ part op (show g) | Txt _ => True end).
  { intros k Hk K g I. destruct g as [t|a b]; [exact Logic.I|]. specialize (K _ I). cbn [kept] in K. assert (a = negb ah) by (destruct a, ah; try discriminate K; reflexivity). subst a.
    apply H. apply Hk. exact I. }
  destruct (first_target (kept ah) l) as [K|(pre & g & post & -> & Kg & Kp)].
  - rewrite none_left; try assumption; [|apply (Hk l); auto]. rewrite filter_all by exact K. reflexivity.
  - destruct g as [t|a b]; [discriminate Kg|]. cbn [kept] in Kg. assert (a = ah) by (destruct a, ah; try discriminate Kg; reflexivity). subst a.
    destruct (Sh b) as (L' & E).
    assert (Fp : ~ part op (flat pre)).
    { apply (free_flat op pre O) with (t := []); [apply Hk; [intros g I; apply in_or_app; left; exact I|exact Kp]|]. cbn [app]. rewrite rest_app in F.
      intros (x & y & Q). apply F. exists x, (y ++ rest_of (Lk ah b :: post)). rewrite Q, <- !app_assoc. reflexivity. }
    destruct (remove_one esc op L' pre ah b post O A G E Fp) as [Ei Es]. rewrite Ei, Es. rewrite IH.
    + rewrite !filter_app. cbn [filter kept]. rewrite Kg. reflexivity.
    + exact (good_drop _ _ _ G).
    + intros b' I. apply H. apply in_app_or in I as [I|I]; apply in_or_app; [left|right; right]; exact I.
    + rewrite rest_app in *. exact F.
    + rewrite !flat_app in *. change (flat (Lk ah b :: post)) with (show (Lk ah b) ++ flat post) in L. rewrite E in L. destruct (op_bytes op O A) as (t & Et & _).
      rewrite !enc_app, Et, !app_length in *. cbn [app length] in L. lia.
Qed.
Lemma detected ah l b : good l -> In (Lk ah b) l -> detect (enc (opener ah)) (enc (flat l)) = true.
Proof.
  intros G I. apply in_split in I as (pre & post & ->). destruct (good_seg _ _ _ G) as (_ & S & (a & -> & C & O & N)). cbn [show] in S. apply Forall_app in S as [_ S]. apply Forall_app in S as [S _].
  assert (K : forall r, exists m1 m2, enc (w_alts a) ++ x29 :: r = m1 ++ x29 :: m2 /\ m1 <> [] /\ ~ In x29 m1).
  { intros r. assert (Y : exists y e, enc (w_alts a) = y :: e /\ y <> x29).
    { assert (Hd : exists h t, w_alts a = h :: t /\ h <> 41%N).
      { pose proof (proj1 calm_go a C) as Go. assert (Q : forall s X, go_sequ s -> ok_sequ fold s -> (match X with [] => True | c :: _ => c <> 41%N end) -> match w_sequ s ++ X with [] => True | c :: _ => c <> 41%N end).
        { intros s X Gs Os HX. destruct s as [|x c z s]; [exact HX|]. cbn [go_sequ ok_sequ w_sequ] in *. destruct Gs as [Gx _], Os as [Ox _].
          destruct x as [x|x|x| | | |neg l|[|] g|ah' g]; cbn [w_atom app ok_atom go_atom] in *; try discriminate; [unfold meta in Ox; cbn [In] in Ox; lia|contradiction]. }
        destruct (w_alts a) as [|h t] eqn:E; [contradiction|]. exists h, t. split; [reflexivity|].
        destruct a as [s|s a]; cbn [w_alts go_alts ok_alts] in *.
        - specialize (Q s [] Go O I). rewrite app_nil_r, E in Q. exact Q.
        - specialize (Q s (124%N :: w_alts a) (proj1 Go) (proj1 O) ltac:(discriminate)). rewrite E in Q. exact Q. }
      destruct Hd as (h & t & E & Nh). rewrite E in *. change (h :: t) with ([h] ++ t) in *. rewrite enc_app. apply Forall_app in S as [Sh _]. inversion Sh as [|? ? Hh _]; subst.
      destruct (enc_last h Hh) as (q & y & Eq & Y). destruct (enc [h]) as [|y' q'] eqn:E'; [destruct q; discriminate Eq|]. exists y', (q' ++ enc t). split; [reflexivity|].
      intros ->. apply Nh. symmetry. apply (Y x29); [left; reflexivity|reflexivity]. }
    destruct Y as (y & e & -> & Ny). cbn [app].
    assert (Z : exists m1 m2, e ++ x29 :: r = m1 ++ x29 :: m2 /\ ~ In x29 m1).
    { clear. induction e as [|z e (m1 & m2 & E & N)]; [exists [], r; auto|]. cbn [app]. destruct (beq z x29) eqn:B.
      - apply beq_eq in B as ->. exists [], (e ++ x29 :: r). auto.
      - apply beq_neq in B. exists (z :: m1), m2. rewrite E. split; [reflexivity|]. intros [Q|Q]; [exact (B Q)|exact (N Q)]. }
    destruct Z as (m1 & m2 & E & Nm). exists (y :: m1), m2. rewrite E. split; [reflexivity|]. split; [discriminate|]. intros [Q|Q]; [exact (Ny Q)|exact (Nm Q)]. }
  apply detect_spec. rewrite flat_app. change (flat (Lk ah (w_alts a) :: post)) with ((opener ah ++ w_alts a ++ [41%N]) ++ flat post). rewrite !enc_app.
  destruct (K (enc (flat post))) as (m1 & m2 & E & N1 & N2). exists (enc (flat pre)), m1, m2. split; [|split; assumption]. rewrite <- E, <- !app_assoc. reflexivity.
Qed.
Lemma step_all ah op esc : is_op op -> ascii op -> (forall b, exists L', show (Lk ah b) = op ++ L') ->
  forall l, good l -> (forall b, In (Lk (negb ah) b) l -> ~ part op (show (Lk (negb ah) b))) -> ~ part op (rest_of l) ->
  (if detect (enc (opener ah)) (enc (flat l)) then strip_loop (enc op) esc (S (length (enc (flat l)))) (enc (flat l)) else Some (Ok (enc (flat l)))) =
  Some (Ok (enc (flat (filter (kept ah) l)))).
Proof.
  intros O A Sh l G H F. destruct (detect (enc (opener ah)) (enc (flat l))) eqn:D; [apply strip_all; try assumption; lia|].
  rewrite filter_all; [reflexivity|]. intros g I. destruct g as [t|a b]; [reflexivity|]. cbn [kept]. destruct (Bool.eqb a ah) eqn:E; [|reflexivity].
  apply Bool.eqb_prop in E as ->. rewrite (detected ah l b G I) in D. discriminate D.
Qed.
Lemma good_filter P l : good l -> good (filter P l).
Proof.
  intros [S O]. split.
  - induction l as [|g l IH]; [constructor|]. change (flat (g :: l)) with (show g ++ flat l) in S. apply Forall_app in S as [S1 S2]. inversion O; subst. cbn [filter].
    destruct (P g); [|auto]. change (flat (g :: filter P l)) with (show g ++ flat (filter P l)). apply Forall_app. auto.
  - apply Forall_forall. intros g I. apply filter_In in I as [I _]. rewrite Forall_forall in O. auto.
Qed.
Lemma rest_filter ah l : rest_of (filter (kept ah) l) = rest_of l.
Proof.
  induction l as [|g l IH]; [reflexivity|]. cbn [filter]. destruct (kept ah g) eqn:K.
  - change (rest_of (g :: filter (kept ah) l)) with ((match g with Txt t => t | Lk _ _ => [] end) ++ rest_of (filter (kept ah) l)). rewrite IH. reflexivity.
  - destruct g as [t|a b]; [discriminate K|]. exact IH.
Qed.
End Steps.

Definition behind_op : list N := [40; 63; 60]%N.
Definition ahead_op : list N := [40; 63; 33]%N.
Definition any_op : list N := [40; 63; 33; 46; 42]%N.
Lemma ops : is_op behind_op /\ is_op ahead_op /\ is_op any_op /\ ascii behind_op /\ ascii ahead_op /\ ascii any_op.
Proof.
  unfold is_op, ascii, behind_op, ahead_op, any_op.
  repeat split; try (eexists; (split; [reflexivity|]); (split; [discriminate|]); cbn [In]; split; intros Q; repeat destruct Q as [Q|Q]; try discriminate Q; exact Q);
    repeat (constructor; [reflexivity|]); constructor.
Qed.
Lemma part_cons op x l : part op (x :: l) -> hd 0%N op <> x -> op <> [] -> part op l.
Proof.
  intros (a & b & E) N No. destruct a as [|y a].
  - destruct op as [|z op]; [contradiction|]. cbn [app hd] in *. injection E as -> _. contradiction.
  - cbn [app] in E. injection E as _ E. exists a, b. exact E.
Qed.
(** A look-ahead holds no other opener. *)
Lemma ahead_other fold op b : seg_ok fold (Lk true b) -> part op (show (Lk true b)) -> forall z t, op = 40%N :: 63%N :: z :: t -> (z <> 58)%N ->
  exists r, 33%N :: b ++ [41%N] = z :: t ++ r.
Proof.
  intros B (x & y & E) z t -> Nz. cbn [show opener app] in E. destruct x as [|x0 x].
  - cbn [app] in E. injection E as E. exists y. cbn [app] in *. rewrite <- E at 1. rewrite E. f_equal. congruence.
  - exfalso. cbn [app] in E. injection E as _ E. apply (fine_part z (b ++ [41%N]) Nz (body_fine fold b B)).
    assert (P : part [40; 63; z]%N (63%N :: 33%N :: b ++ [41%N])).
    { exists x, (t ++ y). cbn [app] in *. rewrite E. reflexivity. }
    apply part_cons in P; [|discriminate|discriminate]. apply part_cons in P; [exact P|discriminate|discriminate].
Qed.
Definition tame_seg (g : seg) : bool := match g with Lk true (x :: y :: _) => negb ((x =? 46)%N && (y =? 42)%N) | _ => true end.

Lemma squeeze_id : forall n s, length s < n -> ~ within (bs ")||(") s -> squeeze 0 s = s.
Proof.
  induction n as [|n IH]; intros s L W; [lia|]. destruct s as [|c r]; [reflexivity|]. cbn [squeeze].
  destruct (has_prefix (c :: r) (bs ")||(")) eqn:E.
  - exfalso. apply has_prefix_iff in E as (t & E). apply W. exists [], t. exact E.
  - f_equal. apply IH; [cbn [length] in L; lia|]. intros (x & y & ->). apply W. exists (c :: x), y. reflexivity.
Qed.

Lemma normalize_drops fold a src : encodes src (written fold a) -> ok_alts fold a -> tidy_alts a -> plain_rest fold a ->
  normalize src = Some (Ok (squeeze 0 (enc (written fold (drop_alts a))))).
Proof.
  intros En O T [R1 R2]. destruct ops as (O1 & O2 & O3 & A1 & A2 & A3).
  set (l0 := Txt (if fold then [40; 63; 105; 41]%N else []) :: d_alts a).
  assert (F0 : flat l0 = written fold a) by (unfold l0, written; cbn [flat flat_map show]; fold (flat (d_alts a)); rewrite (proj1 d_flat); reflexivity).
  assert (Q0 : rest_of l0 = written fold (drop_alts a)) by (unfold l0, written; cbn [rest_of flat_map]; fold (rest_of (d_alts a)); rewrite (proj1 d_rest _ T); reflexivity).
  apply encodes_enc in En as [S ->]. rewrite <- F0 in *. rewrite <- Q0 in *.
  assert (G0 : good fold l0) by (split; [exact S|constructor; [exact I|apply (d_ok fold); assumption]]).
  fold behind_op in R1. fold ahead_op in R2. unfold normalize.
  (* look-behinds *)
  change (bs "(?<!") with (enc (opener false)). change (bs "(?<") with (enc behind_op).
  rewrite (step_all fold false behind_op false O1 A1); try assumption.
  2:{ intros b. exists (33%N :: b ++ [41%N]). reflexivity. }
  2:{ intros b I P. assert (B : seg_ok fold (Lk true b)) by (destruct G0 as [_ G0]; rewrite Forall_forall in G0; exact (G0 _ I)).
      destruct (ahead_other fold behind_op b B P 60%N [] eq_refl) as (r & Q); [discriminate|discriminate Q]. }
  cbn [obind]. set (l1 := filter (kept false) l0).
  assert (G1 : good fold l1) by (apply good_filter; exact G0). assert (Q1 : rest_of l1 = rest_of l0) by apply rest_filter.
  assert (N1 : forall b, ~ In (Lk false b) l1) by (intros b I; apply filter_In in I as [_ I]; discriminate I).
  (* one look-ahead for anything *)
  assert (Step2 : exists l2, good fold l2 /\ rest_of l2 = rest_of l0 /\ (forall b, ~ In (Lk false b) l2) /\
    (if detect (bs "(?!.*") (enc (flat l1)) then match bytes_index (enc (flat l1)) (bs "(?!.*") with Some k => Some (strip_at false k (enc (flat l1))) | None => Some Panic end
     else Some (Ok (enc (flat l1)))) = Some (Ok (enc (flat l2)))).
  { change (bs "(?!.*") with (enc any_op).
    assert (Not : forall k, (forall g, In g k -> In g l1 /\ tame_seg g = true) -> forall g, In g k -> match g with Lk _ _ => ~ part any_op (show g) | Txt _ => True end).
    { intros k Hk g I. destruct (Hk g I) as [I1 Tg]. destruct g as [t|[|] b]; [exact Logic.I| |exfalso; exact (N1 b I1)]. intros P.
      assert (B : seg_ok fold (Lk true b)) by (destruct G1 as [_ G1]; rewrite Forall_forall in G1; exact (G1 _ I1)).
      destruct (ahead_other fold any_op b B P 33%N [46; 42]%N eq_refl) as (r & Q); [discriminate|]. cbn [app] in Q. injection Q as Q.
      destruct b as [|x [|y b]]; cbn [app] in Q; try discriminate Q. injection Q as -> -> _. discriminate Tg. }
    assert (R3 : ~ part any_op (rest_of l1)).
    { rewrite Q1. intros (x & y & E). apply R2. exists x, (46%N :: 42%N :: y). rewrite E. reflexivity. }
    destruct (detect (enc any_op) (enc (flat l1))) eqn:D; [|exists l1; auto].
    destruct (first_target tame_seg l1) as [K|(pre & g & post & E & Kg & Kp)].
    - exfalso. apply (detect_index _ _ D). apply (none_left fold); try assumption. apply (Not l1). auto.
    - destruct g as [t|[|] b]; try discriminate Kg. destruct b as [|x [|y b]]; try discriminate Kg. cbn [tame_seg] in Kg.
      assert (x = 46%N /\ y = 42%N) by lia. destruct H as [-> ->].
      assert (Fp : ~ part any_op (flat pre)).
      { apply (free_flat any_op pre O3) with (t := []).
        - apply Not. intros g Ig. split; [rewrite E; apply in_or_app; left; exact Ig|exact (Kp g Ig)].
        - cbn [app]. intros (x & y & Q). apply R3. rewrite E, rest_app, Q. exists x, (y ++ rest_of (Lk true (46%N :: 42%N :: b) :: post)). rewrite <- !app_assoc. reflexivity. }
      rewrite E in G1. destruct (remove_one fold false any_op (b ++ [41%N]) pre true (46%N :: 42%N :: b) post O3 A3 G1 eq_refl Fp) as [Ei Es].
      rewrite E, Ei, Es. exists (pre ++ post). split; [exact (good_drop fold _ _ _ G1)|]. split; [rewrite <- Q1, E, !rest_app; reflexivity|]. split; [|reflexivity].
      intros b' Ib. apply (N1 b'). rewrite E. apply in_app_or in Ib as [Ib|Ib]; apply in_or_app; [left|right; right]; exact Ib. }
  destruct Step2 as (l2 & G2 & Q2 & N2 & E2). rewrite E2. cbn [obind].
  (* the other look-aheads *)
  change (bs "(?!") with (enc (opener true)) at 1. change (bs "(?!") with (enc ahead_op).
  rewrite (step_all fold true ahead_op true O2 A2); try assumption.
  2:{ intros b. exists (b ++ [41%N]). reflexivity. }
  2:{ intros b Ib. exfalso. exact (N2 b Ib). }
  2:{ rewrite Q2. exact R2. }
  cbn [obind]. do 3 f_equal. f_equal. rewrite <- Q2. rewrite <- (rest_filter true l2).
  assert (Only : forall g, In g (filter (kept true) l2) -> match g with Txt _ => True | _ => False end).
  { intros g Ig. apply filter_In in Ig as [Ig K]. destruct g as [t|[|] b]; [exact I|discriminate K|exact (N2 b Ig)]. }
  induction (filter (kept true) l2) as [|g l IH]; [reflexivity|]. pose proof (Only g (or_introl eq_refl)) as Og. destruct g as [t|]; [|contradiction].
  change (flat (Txt t :: l)) with (t ++ flat l). change (rest_of (Txt t :: l)) with (t ++ rest_of l). f_equal. apply IH. intros g Ig. apply Only. right. exact Ig.
Qed.
Lemma drop_scalars fold a : tidy_alts a -> Forall scalar (written fold a) -> Forall scalar (written fold (drop_alts a)).
Proof.
  intros T S. unfold written in *. apply Forall_app in S as [S1 S2]. apply Forall_app. split; [exact S1|]. rewrite <- (proj1 d_rest a T). rewrite <- (proj1 d_flat a) in S2.
  clear - S2. induction (d_alts a) as [|g l IH]; [constructor|]. change (flat (g :: l)) with (show g ++ flat l) in S2. apply Forall_app in S2 as [A B].
  change (rest_of (g :: l)) with ((match g with Txt t => t | Lk _ _ => [] end) ++ rest_of l). apply Forall_app. split; [|auto]. destruct g; [exact A|constructor].
Qed.
Lemma normalize_widens fold a src : encodes src (written fold a) -> ok_alts fold a -> tidy_alts a -> plain_rest fold a -> no_empty_choice fold a ->
  exists src', normalize src = Some (Ok src') /\ encodes src' (written fold (drop_alts a)) /\
  forall s, occurs fold a (runes s) -> re_find (compile src') s <> None.
Proof.
  intros En O T R E. pose proof (normalize_drops fold a src En O T R) as N. pose proof (drop_scalars fold a T (proj1 En)) as Sc.
  rewrite (squeeze_id (S (length (enc (written fold (drop_alts a)))))) in N.
  - exists (enc (written fold (drop_alts a))). split; [exact N|]. assert (En' : encodes (enc (written fold (drop_alts a))) (written fold (drop_alts a))) by (apply encodes_enc; auto).
    split; [exact En'|]. intros s (u & v & w & Es & M). apply (finds_meaning _ fold (drop_alts a)); [exact En'|apply (drop_ok fold); exact O|apply drop_go|].
    exists u, v, w. split; [exact Es|]. apply (drop_sound fold); assumption.
  - lia.
  - intros W. apply E. apply within_part; [repeat (constructor; [reflexivity|]); constructor|discriminate|exact Sc|exact W].
Qed.
Lemma normalize_groups fold a src src' s m : encodes src (written fold a) -> ok_alts fold a -> tidy_alts a -> plain_rest fold a -> no_empty_choice fold a -> quiet_alts a ->
  normalize src = Some (Ok src') -> re_find (compile src') s = Some m -> length m = 2 * (1 + n_alts a).
Proof.
  intros En O T R E Q N F. destruct (normalize_widens fold a src En O T R E) as (src2 & N2 & En2 & _). rewrite N2 in N. injection N as <-.
  rewrite <- (proj1 drop_groups a Q). apply (finds_groups src2 fold (drop_alts a) s m En2); [apply (drop_ok fold); exact O|apply drop_go|exact F].
Qed.

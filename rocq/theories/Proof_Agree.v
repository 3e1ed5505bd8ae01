(** What a database says about a user agent is determined; databases that say the same give the same answers. *)
From Verif Require Import Model_Base Model_CacheEntry Model_Version Model_Ctx Model_Regex Model_Parse Model_Compiler Model_Shipped Model_Built
  Spec_Version Spec_Getters Spec_Select Spec_Compiler Spec_Database Spec_Agree
  Proof_Base Proof_Select Proof_Safe Proof_Getters Proof_Client Proof_OS Proof_Compiler Proof_Built Proof_DbClient Proof_DbOS Proof_DbDevice Proof_Database.
From Coq Require Import Lia ZifyBool ZifyNat ZifyN Permutation.
Open Scope nat_scope.

(** ** Relations that are functions *)
Lemma app_inv_length {A} (a : list A) : forall a' b b', a ++ b = a' ++ b' -> length a = length a' -> a = a' /\ b = b'.
Proof.
  induction a as [|x a IH]; intros [|x' a'] b b' E L; try discriminate L; [auto|]. cbn in E. injection E as <- E.
  destruct (IH a' b b' E) as [-> ->]; [cbn in L; lia|auto].
Qed.
Lemma captured_fun m i ua s s' : captured m i ua s -> captured m i ua s' -> s = s'.
Proof.
  intros (a & b & E & _ & A1 & A2) (a' & b' & E' & _ & B1 & B2). rewrite A1 in B1. rewrite A2 in B2.
  injection B1 as B1. injection B2 as B2. apply Nat2Z.inj in B1. assert (L : length s = length s') by lia.
  rewrite E in E'. apply app_inv_length in E' as [_ E']; [|exact B1]. apply app_inv_length in E' as [E' _]; assumption.
Qed.
Lemma captured_absent m i ua s : captured m i ua s -> absent m i -> False.
Proof. intros (a & b & _ & _ & A1 & A2) [_ A]. destruct (A _ _ A1 A2); lia. Qed.
Lemma lead_fun {A} (c : A) i : forall i' o o', repeat c i ++ o = repeat c i' ++ o' -> (forall y, o <> c :: y) -> (forall y, o' <> c :: y) -> o = o'.
Proof.
  induction i as [|i IH]; intros [|i'] o o' E N N'; cbn in E.
  - exact E.
  - destruct (N _ E).
  - destruct (N' _ (eq_sym E)).
  - injection E as E. exact (IH i' o o' E N N').
Qed.
Lemma rev_repeat {A} (c : A) n : rev (repeat c n) = repeat c n.
Proof.
  induction n as [|n IH]; [reflexivity|]. cbn [repeat rev]. rewrite IH. clear IH. induction n as [|n IH]; [reflexivity|]. cbn. f_equal. exact IH.
Qed.
Lemma tail_fun {A} (c : A) j j' o o' : o ++ repeat c j = o' ++ repeat c j' -> (forall y, o <> y ++ [c]) -> (forall y, o' <> y ++ [c]) -> o = o'.
Proof.
  intros E N N'. apply (f_equal (@rev A)) in E. rewrite !rev_app_distr, !rev_repeat in E.
  assert (R : rev o = rev o').
  { apply (lead_fun c j j'); [exact E| |]; intros y H; apply (f_equal (@rev A)) in H; rewrite rev_involutive in H; cbn in H; [exact (N _ H)|exact (N' _ H)]. }
  rewrite <- (rev_involutive o), <- (rev_involutive o'), R. reflexivity.
Qed.
Lemma trimmed_empty i j o : repeat x20 i ++ o ++ repeat x20 j = repeat x20 (i + j) -> (forall y, o <> x20 :: y) -> o = [].
Proof.
  intros E N. destruct o as [|c o]; [reflexivity|]. rewrite repeat_app in E. apply app_inv_head in E. destruct j as [|j]; [discriminate|].
  cbn in E. injection E as -> _. destruct (N o eq_refl).
Qed.
Lemma trimmed_fun s o o' : trimmed s o -> trimmed s o' -> o = o'.
Proof.
  intros (i & j & E & A & B) (i' & j' & E' & A' & B'). rewrite E in E'. clear E s.
  assert (Q : forall i j i' j' o o', repeat x20 i ++ o ++ repeat x20 j = repeat x20 i' ++ o' ++ repeat x20 j' ->
    (forall y, o <> x20 :: y) -> (forall y, o' <> x20 :: y) -> o = [] -> o' = []).
  { clear. intros i j i' j' o o' E A A' ->. cbn [app] in E. rewrite <- repeat_app in E.
    assert (L : i + j = i' + (length o' + j')).
    { apply (f_equal (@length byte)) in E. rewrite !app_length, !repeat_length in E. exact E. }
    destruct o' as [|c o']; [reflexivity|]. rewrite L, repeat_app in E. apply app_inv_head in E. cbn in E. injection E as <- _. destruct (A' o' eq_refl). }
  destruct o as [|c o]; [symmetry; eapply Q; eauto|]. destruct o' as [|c' o']; [eapply (Q i' j' i j); eauto|].
  apply (lead_fun x20) in E'; [|intros y H; injection H as -> _; apply (A o); reflexivity|intros y H; injection H as -> _; apply (A' o'); reflexivity].
  exact (tail_fun x20 j j' _ _ E' B B').
Qed.
Lemma split_at_fun {A} (c : A) a : forall a' b b', a ++ c :: b = a' ++ c :: b' -> ~ In c a -> ~ In c a' -> a = a' /\ b = b'.
Proof.
  induction a as [|x a IH]; intros [|x' a'] b b' E N N'; cbn in E; injection E; intros.
  - subst. auto.
  - subst. destruct N'. left. reflexivity.
  - subst. destruct N. left. reflexivity.
  - subst. destruct (IH a' b b') as [-> ->]; auto; intros I; [apply N|apply N']; right; exact I.
Qed.
Lemma fragment_version_fun s o o' : version_of_fragment s o -> version_of_fragment s o' -> o = o'.
Proof.
  intros (r & n & H & E & N) (r' & n' & H' & E' & N').
  assert (R : r = r').
  { destruct H as [[A ->]|(p & -> & A)], H' as [[A' ->]|(p' & E2 & A')]; try reflexivity.
    - exfalso. apply A. rewrite E2. apply in_or_app. right. left. reflexivity.
    - exfalso. apply A'. apply in_or_app. right. left. reflexivity.
    - apply (split_at_fun _ _ _ _ _ E2 A A'). }
  rewrite <- R, E in E'. exact (tail_fun _ _ _ _ _ E' N N').
Qed.
Lemma nth_error_ext {A} (l : list A) : forall l', (forall i, nth_error l i = nth_error l' i) -> l = l'.
Proof.
  induction l as [|x l IH]; intros [|x' l'] H; [reflexivity|discriminate (H 0)|discriminate (H 0)|].
  pose proof (H 0) as H0. injection H0 as <-. f_equal. apply IH. intros i. exact (H (S i)).
Qed.
Lemma dotted_fun s o o' : dotted s o -> dotted s o' -> o = o'.
Proof.
  intros [L H] [L' H']. apply nth_error_ext. intros i. destruct (nth_error s i) as [b|] eqn:E.
  - destruct (H i b E) as [H1 H2], (H' i b E) as [H1' H2']. destruct (Byte.byte_eq_dec b x5f) as [Q|Q].
    + rewrite (H1 Q), (H1' Q). reflexivity.
    + rewrite (H2 Q), (H2' Q). reflexivity.
  - apply nth_error_None in E. assert (nth_error o i = None) as -> by (apply nth_error_None; lia).
    symmetry. apply nth_error_None. lia.
Qed.
Lemma major_fun s m m' : major_of s m -> major_of s m' -> m = m'.
Proof.
  intros [(r & E & N)|[N ->]] [(r' & E' & N')|[N' ->]]; subst; try reflexivity.
  - apply (split_at_fun _ _ _ _ _ E' N N').
  - destruct N'. apply in_or_app. right. left. reflexivity.
  - destruct N. apply in_or_app. right. left. reflexivity.
Qed.
Lemma text_le_anti a b : text_le a b -> text_le b a -> a = b.
Proof. rewrite <- !str_leb_text. apply str_leb_anti. Qed.
Lemma key_unique {A B} (l : list (A * B)) k v v' : NoDup (map fst l) -> In (k, v) l -> In (k, v') l -> v = v'.
Proof.
  induction l as [|[a b] l IH]; [intros _ []|]. cbn. intros N [E|I] [E'|I']; apply NoDup_cons_iff in N as [N1 N2].
  - congruence.
  - injection E as <- <-. destruct N1. change a with (fst (a, v')). apply in_map. exact I'.
  - injection E' as <- <-. destruct N1. change a with (fst (a, v)). apply in_map. exact I.
  - exact (IH N2 I I').
Qed.
Lemma first_engine_fun m def s w w' : NoDup (map fst m) -> first_engine m def s w -> first_engine m def s w' -> w = w'.
Proof.
  intros N [(k & I & L & H)|[H ->]] [(k' & I' & L' & H')|[H' ->]]; try reflexivity.
  - assert (k = k'). { apply text_le_anti; [apply H; [change k' with (fst (k', w')); apply in_map; exact I'|exact L']|apply H'; [change k with (fst (k, w)); apply in_map; exact I|exact L]]. }
    subst k'. exact (key_unique m k w w' N I I').
  - destruct (H' k); [change k with (fst (k, w)); apply in_map; exact I|exact L].
  - destruct (H k'); [change k' with (fst (k', w')); apply in_map; exact I'|exact L'].
Qed.
Lemma called_fun s def t t' : type_called s def t -> type_called s def t' -> t = t'.
Proof.
  intros [I|[N ->]] [I'|[N' ->]]; try reflexivity.
  - refine (key_unique type_names s t t' _ I I'). cbn. repeat constructor; cbn; intuition discriminate.
  - destruct (N' _ I).
  - destruct (N _ I').
Qed.
Lemma expands_fun m ua tpl o : expands m ua tpl o -> forall o', expands m ua tpl o' -> o = o'.
Proof.
  induction 1 as [s N|pre d rest s out N Nd C E IH|pre rest s out N C E IH|pre d rest N A]; intros o' H'.
  - inversion H'; subst; try reflexivity; destruct N; apply in_or_app; right; left; reflexivity.
  - inversion H' as [s' N'|pre' d' rest' s' out' N' Nd' C' E' Eq|pre' rest' s' out' N' C' E' Eq|pre' d' rest' N' A' Eq]; subst.
    + destruct N'. apply in_or_app. right. left. reflexivity.
    + apply split_at_fun in Eq as [-> Eq]; [|assumption..]. injection Eq as -> ->. rewrite (captured_fun _ _ _ _ _ C C'), (IH _ E'). reflexivity.
    + apply split_at_fun in Eq as [-> Eq]; [|assumption..]. injection Eq as <- _. contradiction.
    + apply split_at_fun in Eq as [-> Eq]; [|assumption..]. injection Eq as -> _. destruct (captured_absent _ _ _ _ C A').
  - inversion H' as [s' N'|pre' d' rest' s' out' N' Nd' C' E' Eq|pre' rest' s' out' N' C' E' Eq|pre' d' rest' N' A' Eq]; subst.
    + destruct N'. apply in_or_app. right. left. reflexivity.
    + apply split_at_fun in Eq as [-> Eq]; [|assumption..]. injection Eq as -> _. contradiction.
    + apply split_at_fun in Eq as [-> Eq]; [|assumption..]. injection Eq as ->. rewrite (captured_fun _ _ _ _ _ C C'), (IH _ E'). reflexivity.
    + apply split_at_fun in Eq as [-> Eq]; [|assumption..]. injection Eq as -> _. destruct (captured_absent _ _ _ _ C A').
  - inversion H' as [s' N'|pre' d' rest' s' out' N' Nd' C' E' Eq|pre' rest' s' out' N' C' E' Eq|pre' d' rest' N' A' Eq]; subst.
    + destruct N'. apply in_or_app. right. left. reflexivity.
    + apply split_at_fun in Eq as [-> Eq]; [|assumption..]. injection Eq as -> _. destruct (captured_absent _ _ _ _ C' A).
    + apply split_at_fun in Eq as [-> Eq]; [|assumption..]. injection Eq as <- _. destruct (captured_absent _ _ _ _ C' A).
    + apply split_at_fun in Eq as [-> _]; [|assumption..]. reflexivity.
Qed.

Section Fun.
Variables (K : compiler) (ua : bytes).
Lemma finds_db_fun repl wrap rs m m' : db_finds K repl wrap rs ua m -> db_finds K repl wrap rs ua m' -> m = m'.
Proof. intros (r & P & F) (r' & P' & F'). apply pattern_chosen in P as (_ & _ & ->). apply pattern_chosen in P' as (_ & _ & ->). congruence. Qed.
Lemma finds_plain repl wrap rs m : db_finds K repl wrap rs ua m -> plain rs -> False.
Proof. intros (r & (N & _) & _). exact N. Qed.
Lemma ref_empty v n : group_ref v n -> v = [] -> False.
Proof. intros (d & -> & _). discriminate. Qed.
Lemma ref_constant v n : group_ref v n -> constant v -> False.
Proof. intros (d & -> & _) [_ H]. exact (H d eq_refl). Qed.
Lemma constant_empty v : constant v -> v = [] -> False.
Proof. intros [H _]. exact H. Qed.

Ltac clash := exfalso; first
  [ contradiction | congruence
  | solve [eauto using finds_plain, ref_empty, ref_constant, constant_empty, captured_absent, first_none] ].
Ltac same :=
  repeat match goal with
  | [ A : db_finds K ?r ?w ?s ua ?m, B : db_finds K ?r ?w ?s ua ?m' |- _ ] => tryif constr_eq m m' then fail else (pose proof (finds_db_fun r w s m m' A B); subst m')
  | [ A : group_ref ?v ?n, B : group_ref ?v ?n' |- _ ] => tryif constr_eq n n' then fail else (pose proof (group_ref_fun v n n' A B); subst n')
  | [ A : first ?P ?l ?x, B : first ?P ?l ?x' |- _ ] => tryif constr_eq x x' then fail else (pose proof (first_unique P l x x' A B); subst x')
  | [ A : captured ?m ?i ua ?s, B : captured ?m ?i ua ?s' |- _ ] => tryif constr_eq s s' then fail else (pose proof (captured_fun m i ua s s' A B); subst)
  end.

Lemma fragment_fun y s s' : db_fragment K ua y s -> db_fragment K ua y s' -> s = s'.
Proof. intros H H'. destruct H, H'; same; try reflexivity; try clash. Qed.
Lemma os_name_fun y s s' : db_os_name K ua y s -> db_os_name K ua y s' -> s = s'.
Proof.
  intros H H'. destruct H as [m n s out F G C N T|m n F G C N|out C T|NC H], H' as [m' n' s' out' F' G' C' N' T'|m' n' F' G' C' N'|out' C' T'|NC' H'];
    same; try reflexivity; try clash.
  all: try exact (trimmed_fun _ _ _ T T'); exfalso.
  all: try match goal with [ C : captured ?m ?n _ _, H : forall m n, _ -> _ -> absent m n, F : db_finds _ _ _ _ _ ?m, G : group_ref _ ?n |- _ ] =>
    exact (captured_absent _ _ _ _ C (H m n F G)) end.
  all: match goal with [ N : _ \/ ~ at_start _ _ |- _ ] => destruct N as [N|N]; [apply N; reflexivity|contradiction] end.
Qed.
Lemma os_version_fun y s s' : db_os_version K ua y s -> db_os_version K ua y s' -> s = s'.
Proof.
  intros H H'. destruct H, H'; same; try reflexivity; try clash.
  all: try match goal with [ H : plain _ \/ _ |- _ ] => destruct H end; try clash.
Qed.
Lemma own_engine_fun y s s' : client_proper y -> db_own_engine K ua y s -> db_own_engine K ua y s' -> s = s'.
Proof.
  intros [_ P] H H'. destruct H as [E|e E V|e f m w E V F M W], H' as [E'|e' E' V'|e' f' m' w' E' V' F' M' W']; rewrite E in E'; try discriminate E';
    try reflexivity; injection E' as <-; try reflexivity; try contradiction.
  pose proof (fragment_fun _ _ _ F F') as Ef. subst f'. pose proof (major_fun _ _ _ M M') as Em. subst m'. destruct (P e E V) as (_ & N & _).
  exact (first_engine_fun _ _ _ _ _ N W W').
Qed.
Lemma engine_name_fun en s s' : db_engine_name ua en s -> db_engine_name ua en s' -> s = s'.
Proof. intros [[A ->]|[(A & B & ->)|(A & B & ->)]] [[A' ->]|[(A' & B' & ->)|(A' & B' & ->)]]; congruence. Qed.
Lemma model_fun y s s' : db_model K ua y s -> db_model K ua y s' -> s = s'.
Proof.
  assert (BF : forall rs m m', brand_finds K rs ua m -> brand_finds K rs ua m' -> m = m').
  { intros rs m m' (N & r & S & F) (N' & r' & S' & F'). assert (r = r').
    { unfold brand_source, brand_plain in *. destruct (k_static K rs) as [x|]; [|congruence].
      destruct S as [[_ ->]|[P _]]; [|contradiction]. destruct S' as [[_ ->]|[P _]]; [reflexivity|contradiction]. }
    subst r'. exact (finds_db_fun _ _ _ _ _ F F'). }
  intros H H'. destruct H as [A B|m o A B F E|A B P|A N|x m o A F G E|x A F P], H' as [A' B'|m' o' A' B' F' E'|A' B' P'|A' N'|x' m' o' A' F' G' E'|x' A' F' P'];
    try contradiction; same; try reflexivity; try clash.
  - rewrite (BF _ _ _ F F') in E. exact (expands_fun _ _ _ _ E _ E').
  - destruct F as [F _]. contradiction.
  - destruct F' as [F' _]. contradiction.
  - exact (expands_fun _ _ _ _ E _ E').
Qed.
Lemma db_type_fun own outer def t t' : db_type own outer def t -> db_type own outer def t' -> t = t'.
Proof. intros [[A B]|[A B]] [[A' B']|[A' B']]; try contradiction; exact (called_fun _ _ _ _ B B'). Qed.
Lemma device_type_fun y def t t' : db_device_type K ua y def t -> db_device_type K ua y def t' -> t = t'.
Proof.
  intros H H'. destruct H as [m t A F B|A N|t A B], H' as [m' t' A' F' B'|A' N'|t' A' B']; try contradiction; same; try reflexivity; try clash.
  - exact (db_type_fun _ _ _ _ _ B B').
  - exact (called_fun _ _ _ _ B B').
Qed.
Lemma fallback_type_fun mask os t t' : db_fallback_type mask ua os t -> db_fallback_type mask ua os t' -> t = t'.
Proof.
  intros [(A & B & ->)|(A & B)] [(A' & B' & ->)|(A' & B')]; try reflexivity; try (exfalso; tauto).
  destruct B as [[B ->]|[(B & C & ->)|(B & C & ->)]], B' as [[B' ->]|[(B' & C' & ->)|(B' & C' & ->)]]; congruence.
Qed.

(** ** Two databases *)
Variables D D' : database.
Lemma silent_moves mC k : clients_agree K ua D D' -> In k client_order -> db_client_silent K D mC ua k -> db_client_silent K D' mC ua k.
Proof.
  intros A I H O. assert (L : snd k < 7) by (cbn in I; repeat (destruct I as [<-|I]; [cbn; lia|]); destruct I).
  destruct (A _ L) as [_ N]. apply N. exact (H O).
Qed.
Lemma client_moves mC t idx y : clients_agree K ua D D' -> db_client_is K D mC ua t idx y -> db_client_is K D' mC ua t idx y.
Proof.
  intros A (b & a & E & S & O & F). exists b, a. split; [exact E|]. split; [|split; [exact O|]].
  - rewrite Forall_forall in *. intros k I. apply silent_moves; [exact A|rewrite E; apply in_or_app; left; exact I|exact (S k I)].
  - assert (I : In (t, idx) client_order) by (rewrite E; apply in_or_app; right; left; reflexivity).
    assert (L : idx < 7) by (cbn in I; repeat (destruct I as [I|I]; [injection I as <- <-; lia|]); destruct I).
    destruct (A _ L) as [Fi _]. apply Fi. exact F.
Qed.
Lemma no_client_moves mC : clients_agree K ua D D' -> db_no_client K D mC ua -> db_no_client K D' mC ua.
Proof. intros A N. unfold db_no_client in *. rewrite Forall_forall in *. intros k I. exact (silent_moves mC k A I (N k I)). Qed.
End Fun.

Section Unique.
Variables (K : compiler) (ua : bytes) (D : database).
Lemma db_client_unique mC t idx y t' idx' y' : db_client_is K D mC ua t idx y -> db_client_is K D mC ua t' idx' y' ->
  t = t' /\ idx = idx' /\ y = y'.
Proof.
  intros (b1 & a1 & E1 & S1 & O1 & F1) (b2 & a2 & E2 & S2 & O2 & F2).
  assert (forall b1 b2 a1 a2, b1 ++ (t, idx) :: a1 = b2 ++ (t', idx') :: a2 ->
    Forall (db_client_silent K D mC ua) b2 -> Forall (db_client_silent K D mC ua) b1 -> t = t' /\ idx = idx' /\ y = y') as H.
  { clear - O1 F1 O2 F2. induction b1 as [|k b1 IH]; intros [|k' b2] a1 a2 E S2 S1; cbn in E; injection E; intros.
    - subst. split; [reflexivity|]. split; [reflexivity|]. exact (first_unique _ _ _ _ F1 F2).
    - subst k'. inversion S2 as [|? ? Hs _]; subst. destruct (first_none _ _ _ F1 (Hs O1)).
    - subst k. inversion S1 as [|? ? Hs _]; subst. destruct (first_none _ _ _ F2 (Hs O2)).
    - subst k'. inversion S1; inversion S2; subst. eapply IH; eassumption. }
  rewrite E1 in E2. eapply H; eassumption.
Qed.
Lemma db_client_some mC t idx y : db_client_is K D mC ua t idx y -> db_no_client K D mC ua -> False.
Proof.
  intros (b & a & E & S & O & F) N. unfold db_no_client in N. rewrite E, Forall_app in N. destruct N as [_ N].
  inversion N as [|? ? Hs _]; subst. exact (first_none _ _ _ F (Hs O)).
Qed.
End Unique.

Lemma first_sym {A} (P : A -> Prop) l l' : same_first P l l' -> same_first P l' l.
Proof. intros [F N]. split; [intros y; symmetry; apply F|symmetry; exact N]. Qed.
Lemma clients_sym K ua D D' : clients_agree K ua D D' -> clients_agree K ua D' D.
Proof. intros A i L. apply first_sym. exact (A i L). Qed.

(** ** Lists in the order of their keys *)
Lemma text_le_refl a : text_le a a.
Proof. left. exists []. symmetry. apply app_nil_r. Qed.
Lemma order_in {A} (f l : list (bytes * A)) x : in_order f l -> (In x l <-> In x f).
Proof. intros [Pm _]. split; apply Permutation_in; [apply Permutation_sym; exact Pm|exact Pm]. Qed.
Lemma order_differ {A} (f l : list (bytes * A)) : in_order f l -> differ f -> differ l.
Proof. intros [Pm _] N. apply (Permutation_NoDup (l := map fst f)); [apply Permutation_map; exact Pm|exact N]. Qed.
Lemma order_first {A} (H : bytes * A -> Prop) f l y : in_order f l -> differ f ->
  (first H l y <-> In y f /\ H y /\ forall z, In z f -> H z -> text_le (fst y) (fst z)).
Proof.
  intros O N. pose proof (order_differ f l O N) as Nl. split.
  - intros (l1 & l2 & E & Hy & B). split; [apply (order_in f l y O); rewrite E; apply in_or_app; right; left; reflexivity|].
    split; [exact Hy|]. intros z I Hz. apply (order_in f l z O) in I. rewrite E in I. apply in_app_or in I as [I|[<-|I]].
    + destruct (B z I Hz).
    + apply text_le_refl.
    + destruct O as [_ O]. exact (O l1 y l2 E z I).
  - intros (I & Hy & M). apply (order_in f l y O) in I. apply in_split in I as (l1 & l2 & E). exists l1, l2. split; [exact E|]. split; [exact Hy|].
    intros z Iz Hz. assert (Il : In z l) by (rewrite E; apply in_or_app; left; exact Iz).
    pose proof (M z (proj1 (order_in f l z O) Il) Hz) as Le. apply in_split in Iz as (a & b & Ea).
    destruct O as [_ O]. rewrite Ea, <- app_assoc in E. cbn in E.
    pose proof (O a z (b ++ y :: l2) E y ltac:(apply in_or_app; right; left; reflexivity)) as Ge.
    pose proof (text_le_anti _ _ Le Ge) as Ek. unfold differ in Nl. rewrite E in Nl. rewrite map_app in Nl. cbn [map] in Nl. apply NoDup_remove_2 in Nl.
    apply Nl. apply in_or_app. right. rewrite map_app. apply in_or_app. right. left. exact Ek.
Qed.
Lemma order_none {A} (H : bytes * A -> Prop) f l : in_order f l -> (none H l <-> none H f).
Proof. intros O. split; intros N z I; apply N; apply (order_in f l z O); exact I. Qed.
Lemma hits_sym {A} (H : A -> Prop) f f' : same_hits H f f' -> same_hits H f' f.
Proof. intros S x Hx. symmetry. exact (S x Hx). Qed.
Lemma hits_first {A} (H : bytes * A -> Prop) f f' l l' : in_order f l -> in_order f' l' -> differ f -> differ f' -> same_hits H f f' ->
  same_first H l l'.
Proof.
  intros O O' N N' S. split.
  - intros y. rewrite (order_first H f l y O N), (order_first H f' l' y O' N'). split; intros (I & Hy & M); (split; [apply (S y Hy); exact I|]);
      (split; [exact Hy|]); intros z Iz Hz; apply M; try exact Hz; apply (S z Hz); exact Iz.
  - rewrite (order_none H f l O), (order_none H f' l' O'). split; intros Q z I Hz; apply (Q z); try exact Hz; apply (S z Hz); exact I.
Qed.

(** ** Vendors *)
Lemma flat_split {A B} (g : A -> list B) vs : forall l1 x l2, flat_map g vs = l1 ++ x :: l2 ->
  exists v1 v v2 a b, vs = v1 ++ v :: v2 /\ g v = a ++ x :: b /\ l2 = b ++ flat_map g v2.
Proof.
  induction vs as [|v vs IH]; intros l1 x l2 E; [destruct l1; discriminate E|]. cbn in E.
  assert (C : (exists b, g v = l1 ++ x :: b /\ l2 = b ++ flat_map g vs) \/ exists a, flat_map g vs = a ++ x :: l2).
  { clear IH. revert l1 E. generalize (g v) as p. intros p. revert p. induction p as [|q p IHp]; intros l1 E; cbn in E.
    - right. exists l1. exact E.
    - destruct l1 as [|q' l1]; cbn in E; injection E as -> E.
      + left. exists p. auto.
      + destruct (IHp l1 E) as [(b & -> & ->)|C]; [left; exists b; auto|right; exact C]. }
  destruct C as [(b & Eb & ->)|[a Ea]].
  - exists [], v, vs, l1, b. auto.
  - destruct (IH a x l2 Ea) as (v1 & w & v2 & a' & b & -> & Eg & ->). exists (v :: v1), w, v2, a', b. auto.
Qed.
Section Vendors.
Variable ua : bytes.
Let found (br : bytes * regex) : Prop := re_find (snd br) ua <> None.
Let g (v : bytes * list bytes) := map (fun r => (fst v, compile (r ++ bs "[^a-z0-9]+"))) (snd v).
Lemma vendor_none vs : none found (flat_map g vs) <-> none (vendor_hit ua) vs.
Proof.
  split.
  - intros N v I (r & Ir & F). apply (N (fst v, compile (r ++ bs "[^a-z0-9]+"))); [|exact F]. apply in_flat_map. exists v. split; [exact I|].
    unfold g. apply in_map_iff. exists r. auto.
  - intros N x I F. apply in_flat_map in I as (v & Iv & I). unfold g in I. apply in_map_iff in I as (r & <- & Ir). apply (N v Iv). exists r. auto.
Qed.
Lemma vendor_last D l b r : differ (db_vendor D) -> db_fragments D l -> last_of found l (b, r) ->
  exists v, In v (db_vendor D) /\ vendor_hit ua v /\ fst v = b /\ forall z, In z (db_vendor D) -> vendor_hit ua z -> text_le (fst z) (fst v).
Proof.
  intros N (vs & O & ->) (l1 & l2 & E & F & B). apply flat_split in E as (v1 & v & v2 & a & c & -> & Eg & ->).
  pose proof (in_elt (b, r) a c) as Ix. rewrite <- Eg in Ix.
  apply in_map_iff in Ix as (q & Eq & Iq). cbv beta in Eq. injection Eq as Eb Er. exists v.
  split; [apply (order_in _ _ _ O); apply in_or_app; right; left; reflexivity|].
  split; [exists q; split; [exact Iq|rewrite Er; exact F]|]. split; [exact Eb|].
  intros z Iz Hz. apply (order_in _ _ _ O) in Iz. apply in_app_or in Iz as [Iz|[<-|Iz]].
  - apply in_split in Iz as (p & q' & ->). destruct O as [_ O]. rewrite <- app_assoc in O. apply (O p z (q' ++ v :: v2) eq_refl).
    apply in_or_app. right. left. reflexivity.
  - apply text_le_refl.
  - exfalso. destruct Hz as (rz & Irz & Fz). apply (B (fst z, compile (rz ++ bs "[^a-z0-9]+"))); [|exact Fz]. apply in_or_app. right.
    apply in_flat_map. exists z. split; [exact Iz|]. apply in_map_iff. exists rz. auto.
Qed.
Lemma fallback_brand_agree D D' s s' : vendors_agree ua D D' -> db_fallback_brand D ua s -> db_fallback_brand D' ua s' -> s = s'.
Proof.
  intros (N & N' & S) H H'.
  assert (X : forall D1 D2 l1 l2 b r, differ (db_vendor D1) -> same_hits (vendor_hit ua) (db_vendor D1) (db_vendor D2) ->
     db_fragments D1 l1 -> db_fragments D2 l2 -> last_of found l1 (b, r) -> none found l2 -> False).
  { clear N N' S H H'. intros D1 D2 l1 l2 b r N S F1 (vs & O & ->) La No. destruct (vendor_last D1 l1 b r N F1 La) as (v & Iv & Hv & _).
    apply vendor_none in No. apply (No v); [|exact Hv]. apply (order_in _ _ _ O). apply (S v Hv). exact Iv. }
  destruct H as [W|l A B F No|l b r out A B F La Tr], H' as [W'|l' A' B' F' No'|l' b' r' out' A' B' F' La' Tr']; try reflexivity;
    try (exfalso; tauto).
  - destruct (X D' D l' l b' r' N' (hits_sym _ _ _ S) F' F La' No).
  - destruct (X D D' l l' b r N S F F' La No').
  - destruct (vendor_last D l b r N F La) as (v & Iv & Hv & Eb & M), (vendor_last D' l' b' r' N' F' La') as (v' & Iv' & Hv' & Eb' & M').
    assert (E : b = b').
    { rewrite <- Eb, <- Eb'. apply text_le_anti; [apply M'; [apply (S v Hv); exact Iv|exact Hv]|apply M; [apply (S v' Hv'); exact Iv'|exact Hv']]. }
    subst b'. rewrite E in Tr. exact (trimmed_fun _ _ _ Tr Tr').
Qed.
End Vendors.

Section Answers.
Variables (K : compiler) (ua : bytes) (D D' : database).
Variables mC mD h : N.
Hypothesis P : proper K D.
Hypothesis P' : proper K D'.
Hypothesis L : short ua.
Lemma short_small : small ua.
Proof. unfold small. unfold short in L. lia. Qed.
Let T := built K D.
Let T' := built K D'.

Lemma answer_number (U : tables) g v : In g [GClientType; GDeviceType] -> alone U mC mD h ua g = Ok v -> exists n, v = VN n.
Proof.
  intros [<-|[<-|[]]]; unfold alone, run_getter; rewrite run_cold_pmap;
  match goal with |- context [rmap _ ?x] => destruct x; cbn; intros [= <-]; eauto end.
Qed.
Lemma answer_text (U : tables) g v : In g [GBrowser; GBrowserVersionString; GEngine; GEngineVersionString; GBrand; GModel; GOS; GOSVersionString] ->
  alone U mC mD h ua g = Ok v -> exists s, v = VB s.
Proof.
  intros I. cbn in I. repeat (destruct I as [<-|I]; [unfold alone, run_getter; rewrite run_cold_pmap;
  match goal with |- context [rmap _ ?x] => destruct x; cbn; intros [= <-]; eauto end|]). destruct I.
Qed.

Section Client.
Hypothesis A : clients_agree K ua D D'.
Lemma same_type v v' : alone T mC mD h ua GClientType = Ok v -> alone T' mC mD h ua GClientType = Ok v' -> v = v'.
Proof.
  intros H H'. destruct (answer_number T _ v (or_introl eq_refl) H) as [t ->], (answer_number T' _ v' (or_introl eq_refl) H') as [t' ->]. f_equal.
  destruct P as (L7 & Pc & _ & _ & _ & _ & Sm), P' as (L7' & Pc' & _ & _ & _ & _ & Sm').
  destruct (db_clients K D mC mD h ua t L7 Pc Sm short_small H) as (N1 & I1 & [N|(t1 & i1 & y1 & I)]).
  - destruct (db_clients K D' mC mD h ua t' L7' Pc' Sm' short_small H') as (N2 & _ & _).
    destruct (N1 N) as [-> _]. destruct (N2 (no_client_moves K ua D D' mC A N)) as [-> _]. reflexivity.
  - destruct (db_clients K D' mC mD h ua t' L7' Pc' Sm' short_small H') as (_ & I2 & _).
    destruct (I1 _ _ _ I) as [-> _]. destruct (I2 _ _ _ (client_moves K ua D D' mC _ _ _ A I)) as [-> _]. reflexivity.
Qed.
Lemma same_version v v' : alone T mC mD h ua GBrowserVersionString = Ok v -> alone T' mC mD h ua GBrowserVersionString = Ok v' -> v = v'.
Proof.
  intros H H'. destruct (answer_text T GBrowserVersionString v ltac:(cbn; tauto) H) as [s ->], (answer_text T' GBrowserVersionString v' ltac:(cbn; tauto) H') as [s' ->]. f_equal.
  destruct P as (L7 & Pc & _ & _ & _ & _ & Sm), P' as (L7' & Pc' & _ & _ & _ & _ & Sm').
  destruct (db_client_version K D mC mD h ua s L7 Pc Sm short_small H) as [[N ->]|(t & i & y & f & I & F & V)],
    (db_client_version K D' mC mD h ua s' L7' Pc' Sm' short_small H') as [[N' ->]|(t' & i' & y' & f' & I' & F' & V')].
  - reflexivity.
  - destruct (db_client_some K ua D' mC _ _ _ I' (no_client_moves K ua D D' mC A N)).
  - destruct (db_client_some K ua D' mC _ _ _ (client_moves K ua D D' mC _ _ _ A I) N').
  - destruct (db_client_unique K ua D' mC _ _ _ _ _ _ (client_moves K ua D D' mC _ _ _ A I) I') as (-> & -> & ->).
    rewrite (fragment_fun K ua _ _ _ F F') in V. exact (fragment_version_fun _ _ _ V V').
Qed.
Lemma in_class t idx y : db_client_is K D mC ua t idx y -> exists f, In f (db_client D) /\ In y f.
Proof.
  intros (b & a & _ & _ & _ & F). apply first_in in F. unfold class in F. exists (nth idx (db_client D) []). split; [|exact F].
  destruct (nth_in_or_default idx (db_client D) []) as [I|E]; [exact I|]. rewrite E in F. destruct F.
Qed.
Lemma class_agree y en en' : client_proper y -> db_engine K D ua y en -> db_engine K D' ua y en' -> en = en'.
Proof.
  intros Py H H'. destruct (A 0 ltac:(lia)) as [Fi No].
  assert (Z : forall e, db_own_engine K ua y e -> e <> [] -> db_own_engine K ua y [] -> False).
  { intros e O N O0. rewrite (own_engine_fun K ua y _ _ Py O O0) in N. contradiction. }
  destruct H as [en O N|v O F|O N], H' as [en' O' N'|v' O' F'|O' N'].
  - exact (own_engine_fun K ua y _ _ Py O O').
  - destruct (Z _ O N O').
  - destruct (Z _ O N O').
  - destruct (Z _ O' N' O).
  - apply Fi in F. rewrite (first_unique _ _ _ _ F F'). reflexivity.
  - apply Fi in F. destruct (first_none _ _ _ F N').
  - destruct (Z _ O' N' O).
  - apply No in N. destruct (first_none _ _ _ F' N).
  - reflexivity.
Qed.
Lemma browser_excludes t y : db_client_is K D' mC ua t 1 y -> db_not_a_browser K D' mC ua -> False.
Proof.
  intros I [N|(t' & i & y' & I' & Ne)]; [exact (db_client_some K ua D' mC _ _ _ I N)|].
  destruct (db_client_unique K ua D' mC _ _ _ _ _ _ I I') as (_ & E & _). congruence.
Qed.
Lemma not_browser_moves : db_not_a_browser K D mC ua -> db_not_a_browser K D' mC ua.
Proof.
  intros [N|(t' & i & y' & I' & Ne)]; [left; exact (no_client_moves K ua D D' mC A N)|right].
  exists t', i, y'. split; [exact (client_moves K ua D D' mC _ _ _ A I')|exact Ne].
Qed.
Lemma same_engine v v' : alone T mC mD h ua GEngine = Ok v -> alone T' mC mD h ua GEngine = Ok v' -> v = v'.
Proof.
  intros H H'. destruct (answer_text T GEngine v ltac:(cbn; tauto) H) as [s ->], (answer_text T' GEngine v' ltac:(cbn; tauto) H') as [s' ->]. f_equal.
  destruct P as (L7 & Pc & _ & _ & _ & _ & Sm), P' as (L7' & Pc' & _ & _ & _ & _ & Sm').
  destruct (proj1 (db_engines K D mC mD h ua L7 Pc Sm short_small) s H) as [[N ->]|(t & y & en & I & E & Q)],
    (proj1 (db_engines K D' mC mD h ua L7' Pc' Sm' short_small) s' H') as [[N' ->]|(t' & y' & en' & I' & E' & Q')].
  - reflexivity.
  - destruct (browser_excludes _ _ I' (not_browser_moves N)).
  - destruct (browser_excludes _ _ (client_moves K ua D D' mC _ _ _ A I) N').
  - destruct (db_client_unique K ua D' mC _ _ _ _ _ _ (client_moves K ua D D' mC _ _ _ A I) I') as (-> & _ & ->).
    destruct (in_class _ _ _ I) as (f & If & Iy). rewrite Forall_forall in Pc. specialize (Pc f If). rewrite Forall_forall in Pc.
    rewrite (class_agree y' en en' (Pc _ Iy) E E') in Q. exact (engine_name_fun ua _ _ _ Q Q').
Qed.
Lemma same_engine_version v v' : engines_agree D D' ->
  alone T mC mD h ua GEngineVersionString = Ok v -> alone T' mC mD h ua GEngineVersionString = Ok v' -> v = v'.
Proof.
  intros G H H'. destruct (answer_text T GEngineVersionString v ltac:(cbn; tauto) H) as [s ->], (answer_text T' GEngineVersionString v' ltac:(cbn; tauto) H') as [s' ->]. f_equal.
  destruct P as (L7 & Pc & _ & _ & _ & _ & Sm), P' as (L7' & Pc' & _ & _ & _ & _ & Sm').
  destruct (proj2 (db_engines K D mC mD h ua L7 Pc Sm short_small) s H) as [[N ->]|(t & y & en & I & E & Q)],
    (proj2 (db_engines K D' mC mD h ua L7' Pc' Sm' short_small) s' H') as [[N' ->]|(t' & y' & en' & I' & E' & Q')].
  - reflexivity.
  - destruct (browser_excludes _ _ I' (not_browser_moves N)).
  - destruct (browser_excludes _ _ (client_moves K ua D D' mC _ _ _ A I) N').
  - destruct (db_client_unique K ua D' mC _ _ _ _ _ _ (client_moves K ua D D' mC _ _ _ A I) I') as (-> & _ & ->).
    destruct (in_class _ _ _ I) as (f & If & Iy). rewrite Forall_forall in Pc. specialize (Pc f If). rewrite Forall_forall in Pc.
    rewrite (class_agree y' en en' (Pc _ Iy) E E') in Q.
    destruct Q as [U|U R|m U R Lm|m w U R C], Q' as [U'|U' R'|m' U' R' Lm'|m' w' U' R' C']; try reflexivity;
      try (exfalso; apply (G en') in U; contradiction); try (exfalso; apply (G en') in U'; contradiction); try congruence.
    + rewrite R in R'. injection R' as <-. exfalso. destruct C' as (a & b & _ & _ & _ & C'). apply (f_equal (fun x => match x with Some _ => true | None => false end)) in C'.
      assert (nth_error m (2 * Z.to_nat 1 + 1) = None) as E0 by (apply nth_error_None; cbn; lia). rewrite E0 in C'. discriminate.
    + rewrite R in R'. injection R' as <-. exfalso. destruct C as (a & b & _ & _ & _ & C).
      assert (nth_error m (2 * Z.to_nat 1 + 1) = None) as E0 by (apply nth_error_None; cbn; lia). rewrite E0 in C. discriminate.
    + rewrite R in R'. injection R' as <-. exact (captured_fun _ _ _ _ _ C C').
Qed.
End Client.

Section OS.
Hypothesis A : os_agree K ua D D'.
Lemma os_moves y : db_os_is K D ua y -> db_os_is K D' ua y.
Proof. apply A. Qed.
Lemma no_os_moves : db_no_os K D ua -> db_no_os K D' ua.
Proof. apply A. Qed.
Lemma same_os_name v v' : alone T mC mD h ua GOS = Ok v -> alone T' mC mD h ua GOS = Ok v' -> v = v'.
Proof.
  intros H H'. destruct (answer_text T GOS v ltac:(cbn; tauto) H) as [s ->], (answer_text T' GOS v' ltac:(cbn; tauto) H') as [s' ->]. f_equal.
  destruct P as (_ & _ & Po & _ & _ & _ & Sm), P' as (_ & _ & Po' & _ & _ & _ & Sm').
  destruct (proj1 (db_systems K D mC mD h ua Po Sm short_small) s H) as [[N ->]|(y & I & Q)],
    (proj1 (db_systems K D' mC mD h ua Po' Sm' short_small) s' H') as [[N' ->]|(y' & I' & Q')].
  - reflexivity.
  - destruct (first_none _ _ _ I' (no_os_moves N)).
  - destruct (first_none _ _ _ (os_moves _ I) N').
  - rewrite (first_unique _ _ _ _ (os_moves _ I) I') in Q. exact (os_name_fun K ua _ _ _ Q Q').
Qed.
Lemma same_os_version v v' : alone T mC mD h ua GOSVersionString = Ok v -> alone T' mC mD h ua GOSVersionString = Ok v' -> v = v'.
Proof.
  intros H H'. destruct (answer_text T GOSVersionString v ltac:(cbn; tauto) H) as [s ->], (answer_text T' GOSVersionString v' ltac:(cbn; tauto) H') as [s' ->]. f_equal.
  destruct P as (_ & _ & Po & _ & _ & _ & Sm), P' as (_ & _ & Po' & _ & _ & _ & Sm').
  destruct (proj2 (db_systems K D mC mD h ua Po Sm short_small) s H) as [[N ->]|(y & w & I & Q & O)],
    (proj2 (db_systems K D' mC mD h ua Po' Sm' short_small) s' H') as [[N' ->]|(y' & w' & I' & Q' & O')].
  - reflexivity.
  - destruct (first_none _ _ _ I' (no_os_moves N)).
  - destruct (first_none _ _ _ (os_moves _ I) N').
  - rewrite (first_unique _ _ _ _ (os_moves _ I) I') in Q. rewrite (os_version_fun K ua _ _ _ Q Q') in O. exact (dotted_fun _ _ _ O O').
Qed.
End OS.
Section Device.
Hypothesis A : devices_agree K ua D D'.
Lemma brands_first i l l' : brands D i l -> brands D' i l' -> same_first (brand_hit K ua) l l'.
Proof.
  intros (f & E & O) (f' & E' & O'). destruct (A i f f' E E') as (N & N' & S). exact (hits_first _ f f' l l' O O' N N' S).
Qed.
Lemma brands_exist i : length (db_device D') = 8 -> i < 8 -> exists l', brands D' i l'.
Proof.
  intros L8 Li. destruct (nth_error (db_device D') i) as [f|] eqn:E; [|apply nth_error_None in E; lia].
  exists (sort_keys f), f. split; [exact E|]. apply sort_in_order.
Qed.
Lemma order_below b idx def : In (b, idx, def) device_order -> idx < 8.
Proof. intros I. cbn in I. repeat (destruct I as [I|I]; [injection I as <- <- <-; lia|]). destruct I. Qed.
Lemma device_silent_moves k : length (db_device D') = 8 -> In k device_order -> db_device_silent K D mD ua k -> db_device_silent K D' mD ua k.
Proof.
  destruct k as [[b idx] def]. intros L8 I S O. destruct (S O) as (l & B & N). cbn [fst snd] in *.
  destruct (brands_exist idx L8 (order_below _ _ _ I)) as [l' B']. exists l'. split; [exact B'|]. apply (brands_first idx l l' B B'). exact N.
Qed.
Lemma no_device_moves : length (db_device D') = 8 -> db_no_device K D mD ua -> db_no_device K D' mD ua.
Proof. intros L8 N. unfold db_no_device in *. rewrite Forall_forall in *. intros k I. exact (device_silent_moves k L8 I (N k I)). Qed.
Lemma device_moves b idx def y : length (db_device D') = 8 -> db_device_is K D mD ua b idx def y -> db_device_is K D' mD ua b idx def y.
Proof.
  intros L8 (b1 & a1 & l & E & S & O & B & F).
  assert (I : In (b, idx, def) device_order) by (rewrite E; apply in_or_app; right; left; reflexivity).
  destruct (brands_exist idx L8 (order_below _ _ _ I)) as [l' B']. exists b1, a1, l'. split; [exact E|]. split; [|split; [exact O|split; [exact B'|]]].
  - rewrite Forall_forall in *. intros k Ik. apply device_silent_moves; [exact L8|rewrite E; apply in_or_app; left; exact Ik|exact (S k Ik)].
  - apply (brands_first idx l l' B B'). exact F.
Qed.
Lemma brands_same i l l' : brands D' i l -> brands D' i l' -> (exists f, nth_error (db_device D) i = Some f) -> l = l'.
Proof.
  intros (f & E & O) (f' & E' & O') [f0 E0]. rewrite E in E'. injection E' as <-. destruct (A i f0 f E0 E) as (_ & N & _).
  pose proof (sort_in_order f) as Os. destruct O as [O1 O2], O' as [O1' O2'].
  apply ascending_unique; [intros a x b Eq z I; apply str_leb_text; exact (O2 a x b Eq z I)|intros a x b Eq z I; apply str_leb_text; exact (O2' a x b Eq z I)|
    exact (order_differ f l (conj O1 O2) N)|]. transitivity f; [apply Permutation_sym; exact O1|exact O1'].
Qed.
Lemma device_unique b idx def y b' idx' def' y' : length (db_device D) = 8 ->
  db_device_is K D' mD ua b idx def y -> db_device_is K D' mD ua b' idx' def' y' ->
  b = b' /\ idx = idx' /\ def = def' /\ y = y'.
Proof.
  intros L8 (b1 & a1 & l1 & E1 & S1 & O1 & B1 & F1) (b2 & a2 & l2 & E2 & S2 & O2 & B2 & F2).
  assert (Ex : forall i, i < 8 -> exists f, nth_error (db_device D) i = Some f).
  { intros i Li. destruct (nth_error (db_device D) i) as [f|] eqn:E; [eauto|apply nth_error_None in E; lia]. }
  assert (I1 : In (b, idx, def) device_order) by (rewrite E1; apply in_or_app; right; left; reflexivity).
  assert (I2 : In (b', idx', def') device_order) by (rewrite E2; apply in_or_app; right; left; reflexivity).
  apply order_below in I1. apply order_below in I2.
  assert (forall b1 b2 a1 a2, b1 ++ (b, idx, def) :: a1 = b2 ++ (b', idx', def') :: a2 ->
    Forall (db_device_silent K D' mD ua) b2 -> Forall (db_device_silent K D' mD ua) b1 -> b = b' /\ idx = idx' /\ def = def' /\ y = y') as H.
  { clear E1 E2 S1 S2 b1 b2 a1 a2. induction b1 as [|k b1 IH]; intros [|k' b2] a1 a2 E S2 S1; cbn in E; injection E; intros.
    - subst. do 3 (split; [reflexivity|]). rewrite (brands_same _ _ _ B1 B2 (Ex _ I1)) in F1. exact (first_unique _ _ _ _ F1 F2).
    - subst k'. inversion S2 as [|? ? Hs _]; subst. destruct (Hs O1) as (l & B & N). rewrite (brands_same _ _ _ B1 B (Ex _ I1)) in F1. destruct (first_none _ _ _ F1 N).
    - subst k. inversion S1 as [|? ? Hs _]; subst. destruct (Hs O2) as (l & B & N). rewrite (brands_same _ _ _ B2 B (Ex _ I2)) in F2. destruct (first_none _ _ _ F2 N).
    - subst k'. inversion S1; inversion S2; subst. eapply IH; eassumption. }
  rewrite E1 in E2. eapply H; eassumption.
Qed.
Lemma device_excludes b idx def y : length (db_device D) = 8 -> db_device_is K D' mD ua b idx def y -> db_no_device K D' mD ua -> False.
Proof.
  intros L8 (b1 & a1 & l & E & S & O & B & F) N. unfold db_no_device in N.
  assert (I : In (b, idx, def) device_order) by (rewrite E; apply in_or_app; right; left; reflexivity). apply order_below in I.
  rewrite E, Forall_app in N. destruct N as [_ N]. inversion N as [|? ? Hs _]; subst. destruct (Hs O) as (l2 & B2 & N2).
  assert (Ex : exists f, nth_error (db_device D) idx = Some f) by (destruct (nth_error (db_device D) idx) as [f|] eqn:Ef; [eauto|apply nth_error_None in Ef; lia]).
  rewrite (brands_same _ _ _ B B2 Ex) in F. exact (first_none _ _ _ F N2).
Qed.
Lemma same_device_type v v' : os_agree K ua D D' ->
  alone T mC mD h ua GDeviceType = Ok v -> alone T' mC mD h ua GDeviceType = Ok v' -> v = v'.
Proof.
  intros AO H H'. destruct (answer_number T _ v (or_intror (or_introl eq_refl)) H) as [t ->], (answer_number T' _ v' (or_intror (or_introl eq_refl)) H') as [t' ->]. f_equal.
  pose proof P as (_ & _ & _ & L8 & Pd & Pv & Sm). pose proof P' as (_ & _ & _ & L8' & Pd' & Pv' & Sm').
  destruct (proj1 (db_devices K D mC mD h ua L8 Pd Pv Sm L) t H) as [(b & i & d & y & I & Q)|(N & os & Ho & Q)],
    (proj1 (db_devices K D' mC mD h ua L8' Pd' Pv' Sm' L) t' H') as [(b' & i' & d' & y' & I' & Q')|(N' & os' & Ho' & Q')].
  - destruct (device_unique _ _ _ _ _ _ _ _ L8 (device_moves _ _ _ _ L8' I) I') as (-> & -> & -> & ->). exact (device_type_fun K ua _ _ _ _ Q Q').
  - destruct (device_excludes _ _ _ _ L8 (device_moves _ _ _ _ L8' I) N').
  - destruct (device_excludes _ _ _ _ L8 I' (no_device_moves L8' N)).
  - destruct (N.eq_dec (N.land mD 1) 0) as [Z|On].
    + apply (fallback_type_fun ua mD os t t' Q). destruct Q' as [[On _]|[_ Q']]; [contradiction|right; split; [intros [On _]; contradiction|exact Q']].
    + pose proof (same_os_name AO _ _ (Ho On) (Ho' On)) as Eo. injection Eo as <-. exact (fallback_type_fun ua mD os t t' Q Q').
Qed.
Lemma same_model v v' : alone T mC mD h ua GModel = Ok v -> alone T' mC mD h ua GModel = Ok v' -> v = v'.
Proof.
  intros H H'. destruct (answer_text T GModel v ltac:(cbn; tauto) H) as [s ->], (answer_text T' GModel v' ltac:(cbn; tauto) H') as [s' ->]. f_equal.
  pose proof P as (_ & _ & _ & L8 & Pd & Pv & Sm). pose proof P' as (_ & _ & _ & L8' & Pd' & Pv' & Sm').
  destruct (proj1 (proj2 (db_devices K D mC mD h ua L8 Pd Pv Sm L)) s H) as [(b & i & d & y & w & I & Q & Tr)|(N & ->)],
    (proj1 (proj2 (db_devices K D' mC mD h ua L8' Pd' Pv' Sm' L)) s' H') as [(b' & i' & d' & y' & w' & I' & Q' & Tr')|(N' & ->)].
  - destruct (device_unique _ _ _ _ _ _ _ _ L8 (device_moves _ _ _ _ L8' I) I') as (-> & -> & -> & ->). rewrite (model_fun K ua _ _ _ Q Q') in Tr.
    exact (trimmed_fun _ _ _ Tr Tr').
  - destruct (device_excludes _ _ _ _ L8 (device_moves _ _ _ _ L8' I) N').
  - destruct (device_excludes _ _ _ _ L8 I' (no_device_moves L8' N)).
  - reflexivity.
Qed.
Lemma same_brand v v' : vendors_agree ua D D' -> alone T mC mD h ua GBrand = Ok v -> alone T' mC mD h ua GBrand = Ok v' -> v = v'.
Proof.
  intros AV H H'. destruct (answer_text T GBrand v ltac:(cbn; tauto) H) as [s ->], (answer_text T' GBrand v' ltac:(cbn; tauto) H') as [s' ->]. f_equal.
  pose proof P as (_ & _ & _ & L8 & Pd & Pv & Sm). pose proof P' as (_ & _ & _ & L8' & Pd' & Pv' & Sm').
  destruct (proj2 (proj2 (db_devices K D mC mD h ua L8 Pd Pv Sm L)) s H) as [(b & i & d & y & I & Tr)|(N & Q)],
    (proj2 (proj2 (db_devices K D' mC mD h ua L8' Pd' Pv' Sm' L)) s' H') as [(b' & i' & d' & y' & I' & Tr')|(N' & Q')].
  - destruct (device_unique _ _ _ _ _ _ _ _ L8 (device_moves _ _ _ _ L8' I) I') as (-> & -> & -> & ->). exact (trimmed_fun _ _ _ Tr Tr').
  - destruct (device_excludes _ _ _ _ L8 (device_moves _ _ _ _ L8' I) N').
  - destruct (device_excludes _ _ _ _ L8 I' (no_device_moves L8' N)).
  - exact (fallback_brand_agree ua D D' s s' AV Q Q').
Qed.
End Device.
End Answers.

(** ** The name of the client *)
Lemma browser_type U mC mD ua v : alone U mC mD 0 ua GBrowser = Ok v -> exists t, alone U mC mD 0 ua GClientType = Ok (VN t).
Proof.
  unfold alone, run_getter. rewrite !run_cold_pmap. unfold get_browser, get_client_type, pbind. rewrite !run_cold_bind.
  destruct (run_cold (ensure flagClientDetect (parse_client U) (fresh_ctx mC mD 0 ua))) as [c [u|]]; [|discriminate].
  intros _. cbn. eauto.
Qed.
Lemma same_browser K ua D D' mC mD v v' : proper K D -> proper K D' -> short ua -> clients_agree K ua D D' ->
  alone (built K D) mC mD 0 ua GBrowser = Ok v -> alone (built K D') mC mD 0 ua GBrowser = Ok v' -> v = v'.
Proof.
  intros P P' L A H H'. destruct (browser_type _ _ _ _ _ H) as [t Ht], (browser_type _ _ _ _ _ H') as [t' Ht'].
  pose proof P as (L7 & Pc & _ & _ & _ & _ & Sm). pose proof P' as (L7' & Pc' & _ & _ & _ & _ & Sm').
  destruct (db_clients K D mC mD 0 ua t L7 Pc Sm (short_small ua L) Ht) as (N1 & I1 & O).
  destruct (db_clients K D' mC mD 0 ua t' L7' Pc' Sm' (short_small ua L) Ht') as (N2 & I2 & _). destruct O as [N|(t1 & i1 & y1 & I)].
  - destruct (N1 N) as [_ E]. destruct (N2 (no_client_moves K ua D D' mC A N)) as [_ E']. congruence.
  - destruct (I1 _ _ _ I) as (_ & E1 & E2). destruct (I2 _ _ _ (client_moves K ua D D' mC _ _ _ A I)) as (_ & E1' & E2').
    destruct (yc_name y1) as [|c s] eqn:En; [specialize (E2 eq_refl); specialize (E2' eq_refl)|specialize (E1 ltac:(discriminate)); specialize (E1' ltac:(discriminate))]; congruence.
Qed.

(** ** Lists with more entries *)
Lemma first_cons {A} (P : A -> Prop) x l y : ~ P x -> (first P (x :: l) y <-> first P l y).
Proof.
  intros N. split.
  - intros ([|z l1] & l2 & E & Py & B); cbn in E; injection E as -> ->; [contradiction|]. exists l1, l2. split; [reflexivity|]. split; [exact Py|].
    intros w I. apply B. right. exact I.
  - intros (l1 & l2 & -> & Py & B). exists (x :: l1), l2. split; [reflexivity|]. split; [exact Py|]. intros w [<-|I]; [exact N|exact (B w I)].
Qed.
Lemma none_cons {A} (P : A -> Prop) x l : ~ P x -> (none P (x :: l) <-> none P l).
Proof. intros N. split; [intros H w I; apply H; right; exact I|]. intros H w [<-|I]; [exact N|exact (H w I)]. Qed.
Lemma padded_keeps {A} (P : A -> Prop) l l' : padded P l l' ->
  (forall y, first P l y -> first P l' y) /\ (forall y, first P l' y -> first P l y) /\ (forall x, P x -> (In x l <-> In x l')).
Proof.
  induction 1 as [|x l l' H (F & G & I)|x l l' N H (F & G & I)].
  - repeat split; auto; intros [].
  - split; [|split].
    + intros y (l1 & l2 & E & Py & B). destruct l1 as [|z l1]; cbn in E; injection E as <- E.
      * exists [], l'. split; [reflexivity|]. split; [exact Py|intros ? []].
      * assert (Nx : ~ P x) by (apply B; left; reflexivity). apply first_cons; [exact Nx|]. apply F. exists l1, l2. split; [exact E|]. split; [exact Py|].
        intros w Iw. apply B. right. exact Iw.
    + intros y (l1 & l2 & E & Py & B). destruct l1 as [|z l1]; cbn in E; injection E as <- E.
      * exists [], l. split; [reflexivity|]. split; [exact Py|intros ? []].
      * assert (Nx : ~ P x) by (apply B; left; reflexivity). apply first_cons; [exact Nx|]. apply G. exists l1, l2. split; [exact E|]. split; [exact Py|].
        intros w Iw. apply B. right. exact Iw.
    + intros z Pz. cbn. rewrite (I z Pz). reflexivity.
  - split; [|split].
    + intros y Fy. apply first_cons; [exact N|exact (F y Fy)].
    + intros y Fy. apply first_cons in Fy; [exact (G y Fy)|exact N].
    + intros z Pz. cbn. rewrite (I z Pz). split; [auto|]. intros [->|J]; [contradiction|exact J].
Qed.
Lemma padded_first {A} (P : A -> Prop) l l' : padded P l l' -> same_first P l l'.
Proof.
  intros H. destruct (padded_keeps P l l' H) as (F & G & I). split; [intros y; split; [apply F|apply G]|].
  split; intros N z Iz Pz; apply (N z); try exact Pz; apply (I z Pz); exact Iz.
Qed.
Lemma padded_refl {A} (P : A -> Prop) l : padded P l l.
Proof. induction l; constructor; assumption. Qed.
Lemma appended_first {A} (P : A -> Prop) l m y : first P l y -> same_first P l (l ++ m).
Proof.
  intros F. assert (F' : first P (l ++ m) y).
  { destruct F as (l1 & l2 & -> & Py & B). exists l1, (l2 ++ m). split; [rewrite <- app_assoc; reflexivity|]. auto. }
  split.
  - intros z. split; intros Fz; [rewrite (first_unique _ _ _ _ Fz F); exact F'|rewrite (first_unique _ _ _ _ Fz F'); exact F].
  - split; intros N; exfalso; [exact (first_none _ _ _ F N)|exact (first_none _ _ _ F' N)].
Qed.
Lemma os_appended K ua D D' more y : db_os D' = db_os D ++ more -> db_os_is K D ua y -> os_agree K ua D D'.
Proof. intros E F. unfold os_agree. rewrite E. exact (appended_first _ _ _ y F). Qed.
Definition ok_both {A} (a b : res A) : Prop := a <> Panic /\ b <> Panic.
Lemma both_same {A} (a b : res A) : ok_both a b -> (forall v v', a = Ok v -> b = Ok v' -> v = v') -> a = b.
Proof. intros [Na Nb] H. destruct a as [x|]; [|contradiction]. destruct b as [y|]; [|contradiction]. f_equal. exact (H x y eq_refl eq_refl). Qed.
Lemma client_answers K ua D D' mC mD h g : proper K D -> proper K D' -> short ua -> clients_agree K ua D D' ->
  In g [GClientType; GBrowserVersionString; GEngine] ->
  alone (built K D) mC mD h ua g <> Panic -> alone (built K D') mC mD h ua g <> Panic ->
  alone (built K D) mC mD h ua g = alone (built K D') mC mD h ua g.
Proof.
  intros P P' L A [<-|[<-|[<-|[]]]] N N'; apply both_same; try (split; assumption); intros v v'.
  - exact (same_type K ua D D' mC mD h P P' L A v v').
  - exact (same_version K ua D D' mC mD h P P' L A v v').
  - exact (same_engine K ua D D' mC mD h P P' L A v v').
Qed.
Lemma browser_answers K ua D D' mC mD : proper K D -> proper K D' -> short ua -> clients_agree K ua D D' ->
  alone (built K D) mC mD 0 ua GBrowser <> Panic -> alone (built K D') mC mD 0 ua GBrowser <> Panic ->
  alone (built K D) mC mD 0 ua GBrowser = alone (built K D') mC mD 0 ua GBrowser.
Proof. intros P P' L A N N'. apply both_same; [split; assumption|]. intros v v'. exact (same_browser K ua D D' mC mD v v' P P' L A). Qed.
Lemma engine_version_answers K ua D D' mC mD h : proper K D -> proper K D' -> short ua -> clients_agree K ua D D' -> engines_agree D D' ->
  alone (built K D) mC mD h ua GEngineVersionString <> Panic -> alone (built K D') mC mD h ua GEngineVersionString <> Panic ->
  alone (built K D) mC mD h ua GEngineVersionString = alone (built K D') mC mD h ua GEngineVersionString.
Proof. intros P P' L A G N N'. apply both_same; [split; assumption|]. intros v v'. exact (same_engine_version K ua D D' mC mD h P P' L A v v' G). Qed.
Lemma os_both K ua D D' mC mD h g : proper K D -> proper K D' -> short ua -> os_agree K ua D D' -> In g [GOS; GOSVersionString] ->
  alone (built K D) mC mD h ua g <> Panic -> alone (built K D') mC mD h ua g <> Panic ->
  alone (built K D) mC mD h ua g = alone (built K D') mC mD h ua g.
Proof.
  intros P P' L A [<-|[<-|[]]] N N'; apply both_same; try (split; assumption); intros v v'.
  - exact (same_os_name K ua D D' mC mD h P P' L A v v').
  - exact (same_os_version K ua D D' mC mD h P P' L A v v').
Qed.
Lemma device_both K ua D D' mC mD h g : proper K D -> proper K D' -> short ua -> devices_agree K ua D D' -> vendors_agree ua D D' -> os_agree K ua D D' ->
  In g [GDeviceType; GBrand; GModel] ->
  alone (built K D) mC mD h ua g <> Panic -> alone (built K D') mC mD h ua g <> Panic ->
  alone (built K D) mC mD h ua g = alone (built K D') mC mD h ua g.
Proof.
  intros P P' L A AV AO [<-|[<-|[<-|[]]]] N N'; apply both_same; try (split; assumption); intros v v'.
  - exact (same_device_type K ua D D' mC mD h P P' L A v v' AO).
  - exact (same_brand K ua D D' mC mD h P P' L A v v' AV).
  - exact (same_model K ua D D' mC mD h P P' L A v v').
Qed.
Lemma clients_padded K ua D D' : (forall i, i < 7 -> padded (client_hit K ua) (class D i) (class D' i)) -> clients_agree K ua D D'.
Proof. intros H i L. apply padded_first. exact (H i L). Qed.

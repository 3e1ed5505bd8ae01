(** Concrete patterns for C78. *)
From Coq Require Import Lia ZifyBool ZifyNat ZifyN.
From Verif Require Import Model_Base Model_Ctx Model_Regex Model_Compiler Spec_Regex Spec_Syntax Spec_Widen Proof_Syntax Proof_SyntaxShipped Proof_Widen.

Definition chars (l : list N) : sequ -> sequ := fun s => fold_right (fun x s => Then (AChar x) Once false s) s l.
Definition ab : alts := Or (Then (AGroup true (One (chars [97]%N Empty))) Once false Empty)
  (Or (Then (ALook true (One (chars [98]%N Empty))) Once false Empty) (One (Then (AGroup true (One (chars [99]%N Empty))) Once false Empty))).
Definition xy : alts := One (Then (ALook true (One (Then (AGroup true (One (chars [120]%N Empty))) Once false Empty))) Once false
  (Then (AChar 121%N) Once false (Then (AGroup true (One (Then (APerl 100%N) OneMore false Empty))) Once false Empty))).
Definition foobar : alts := One (chars [70; 111; 111]%N (Then (ALook true (One (chars [66; 97; 114]%N Empty))) Once false Empty)).
Definition looks : alts := One (
  Then (ALook false (One (chars [120; 45]%N Empty))) Once false (
  Then (AGroup true (Or (chars [70; 111; 111]%N (
    Then (ALook true (Or (Then AAny ZeroMore false (chars [66; 97; 114]%N Empty)) (One (chars [66; 97]%N (Then (ASet false [IChar (Bare 122%N); IChar (Bare 114%N)]) Once false Empty))))) Once false (
    Then (ALook true (One (chars [81]%N Empty))) Once false (Then (APerl 100%N) OneMore false Empty)))) (One (chars [122]%N Empty)))) Once false Empty)).

Fixpoint starts (w l : list N) : bool := match w, l with [], _ => true | x :: w, y :: l => if (x =? y)%N then starts w l else false | _, _ => false end.
Fixpoint partb (w l : list N) : bool := if starts w l then true else match l with [] => false | _ :: l => partb w l end.
Lemma starts_ok w : forall l y, l = w ++ y -> starts w l = true.
Proof. induction w as [|x w IH]; intros l y ->; [destruct y; reflexivity|]. cbn [app starts]. rewrite N.eqb_refl. eauto. Qed.
Lemma partb_ok w l : partb w l = false -> ~ part w l.
Proof.
  intros H (x & y & E). revert l H E. induction x as [|c x IH]; intros l H E.
  - cbn [app] in E. pose proof (starts_ok w l y E) as S. destruct l; cbn [partb] in H; rewrite S in H; discriminate H.
  - subst l. cbn [app partb] in H. destruct (starts w _); [discriminate H|]. exact (IH _ H eq_refl).
Qed.
Lemma plainb fold a : partb [40; 63; 60]%N (written fold (drop_alts a)) = false -> partb [40; 63; 33]%N (written fold (drop_alts a)) = false -> plain_rest fold a.
Proof. intros A B. split; apply partb_ok; assumption. Qed.
Ltac enc_tac := split; [repeat (constructor; [left; reflexivity|]); constructor|reflexivity].
Ltac notin := cbn [In]; intros Q; repeat destruct Q as [Q|Q]; try discriminate Q; try exact Q.
Ltac ok_tac := cbn; unfold perl, punct, meta, ok_number, ok_cchar; repeat split; try (left; notin); try notin; try discriminate; try (left; reflexivity); auto; try lia.
Lemma widens_refuted : exists a src src' s, encodes src (written false a) /\ ok_alts false a /\ tidy_alts a /\ plain_rest false a /\
  normalize src = Some (Ok src') /\ occurs false a (runes s) /\ re_find (compile src') s = None.
Proof.
  exists ab, (bs "(a)|(?!b)|(c)"), (bs "(a)|(c)"), (bs "x"). split; [enc_tac|]. split; [ok_tac|]. split; [ok_tac|]. split; [apply plainb; reflexivity|].
  split; [reflexivity|]. split; [|reflexivity].
  exists [], [], [(120%N, 1)]. split; [reflexivity|]. right. left. exists [], [], 1. split; [reflexivity|]. split; [reflexivity|]. split; [|reflexivity].
  exists [], []. split; [reflexivity|]. split; [|reflexivity]. split; [reflexivity|]. intros (v' & w' & E & v1 & v2 & n & E1 & A & T & _).
  cbn in A. subst n. destruct T as (v3 & v4 & -> & (y & wd & -> & V) & _). cbn in V. subst y v'. discriminate E.
Qed.
Lemma one_char fold x wd u w : one_rune (variant fold x) [(x, wd)] -> times (m_atom fold (AChar x)) 1 u [(x, wd)] w.
Proof. intros V. exists [(x, wd)], []. split; [reflexivity|]. split; [exact V|reflexivity]. Qed.
Lemma times1 (M : text -> text -> text -> Prop) u v w : M u v w -> times M 1 u v w.
Proof. intros H. exists v, []. rewrite app_nil_r. cbn [app]. split; [reflexivity|]. split; [exact H|reflexivity]. Qed.
Lemma m_one fold s u v w : m_sequ fold s u v w -> m_alts fold (One s) u v w.
Proof. exact (fun H => H). Qed.
Lemma one_m fold s u v w : m_alts fold (One s) u v w -> m_sequ fold s u v w.
Proof. exact (fun H => H). Qed.
Lemma then_once fold x z s u v1 v2 w : m_atom fold x u v1 (v2 ++ w) -> m_sequ fold s (u ++ v1) v2 w -> m_sequ fold (Then x Once z s) u (v1 ++ v2) w.
Proof. intros A B. exists v1, v2, 1. split; [reflexivity|]. split; [reflexivity|]. split; [apply times1; exact A|exact B]. Qed.
Lemma then_inv fold x z s u v w : m_sequ fold (Then x Once z s) u v w -> exists v1 v2, v = v1 ++ v2 /\ m_atom fold x u v1 (v2 ++ w) /\ m_sequ fold s (u ++ v1) v2 w.
Proof.
  intros (v1 & v2 & n & -> & A & T & H). cbn in A. subst n. exists v1, v2. split; [reflexivity|]. split; [|exact H]. destruct T as (v3 & v4 & -> & T & E). cbn in E. subst v4. rewrite app_nil_r. exact T.
Qed.
Lemma groups_refuted : exists a src src' s m, encodes src (written false a) /\ ok_alts false a /\ tidy_alts a /\ plain_rest false a /\ no_empty_choice false a /\
  n_alts a = 2 /\ normalize src = Some (Ok src') /\ occurs false a (runes s) /\ re_find (compile src') s = Some m /\ length m = 4.
Proof.
  exists xy, (bs "(?!(x))y(\d+)"), (bs "y(\d+)"), (bs "y7"), [0; 2; 1; 2]%Z. split; [enc_tac|]. split; [ok_tac|]. split; [ok_tac|]. split; [apply plainb; reflexivity|].
  split; [apply partb_ok; reflexivity|]. split; [reflexivity|]. split; [reflexivity|]. split; [|split; reflexivity].
  exists [], [(121, 1%nat); (55, 1%nat)]%N, []. split; [reflexivity|]. apply m_one; unfold chars; cbn [fold_right].
  apply (then_once false _ false _ [] [] [(121, 1%nat); (55, 1%nat)]%N []).
  - split; [reflexivity|]. intros (v' & w' & E & H). apply (then_inv _ _ false) in H as (v1 & v2 & -> & H & _). apply (then_inv _ _ false) in H as (v3 & v4 & -> & (y & wd & -> & V) & _).
    cbn in V. subst y. discriminate E.
  - apply (then_once false _ false _ [] [(121, 1%nat)]%N [(55, 1%nat)]%N []); [exists 121%N, 1; split; reflexivity|].
    apply (then_once false _ false _ _ [(55, 1%nat)]%N [] []); [|reflexivity]. exists [(55, 1%nat)]%N, [], 1. split; [reflexivity|]. split; [cbn; lia|]. split; [|reflexivity].
    apply times1. exists 55%N, 1. split; [reflexivity|]. exists 55%N. split; [left; lia|reflexivity].
Qed.
Lemma char_inv x u v w : m_atom false (AChar x) u v w -> exists wd, v = [(x, wd)].
Proof. intros (y & wd & -> & V). cbn in V. subst y. exists wd. reflexivity. Qed.
Lemma narrows_refuted : exists a src src' s, encodes src (written false a) /\ ok_alts false a /\ tidy_alts a /\ plain_rest false a /\ no_empty_choice false a /\
  quiet_alts a /\ normalize src = Some (Ok src') /\ ~ occurs false a (runes s) /\ re_find (compile src') s <> None.
Proof.
  exists foobar, (bs "Foo(?!Bar)"), (bs "Foo"), (bs "FooBar"). split; [enc_tac|]. split; [ok_tac|]. split; [ok_tac|]. split; [apply plainb; reflexivity|].
  split; [apply partb_ok; reflexivity|]. split; [ok_tac|]. split; [reflexivity|]. split; [|discriminate].
  intros (u & v & w & E & H). apply one_m in H. unfold chars in H. cbn [fold_right] in H.
  apply (then_inv _ _ false) in H as (v1 & v2 & -> & A1 & H). apply (then_inv _ _ false) in H as (v3 & v4 & -> & A2 & H). apply (then_inv _ _ false) in H as (v5 & v6 & -> & A3 & H).
  apply (then_inv _ _ false) in H as (v7 & v8 & -> & (-> & A4) & H). cbn in H. subst v8. apply char_inv in A1 as (w1 & ->). apply char_inv in A2 as (w2 & ->). apply char_inv in A3 as (w3 & ->).
  cbn [app] in E. change (runes (bs "FooBar")) with [(70, 1%nat); (111, 1%nat); (111, 1%nat); (66, 1%nat); (97, 1%nat); (114, 1%nat)]%N in E.
  assert (u = []).
  { destruct u as [|[u1 x1] u]; [reflexivity|exfalso]. cbn [app] in E. injection E as _ _ E.
    repeat (destruct u as [|[? ?] u]; cbn [app] in E; [discriminate E|injection E as _ _ E]). destruct u; discriminate E. }
  subst u. cbn [app] in E. injection E as _ _ _ <-. apply A4. exists [(66, 1%nat); (97, 1%nat); (114, 1%nat)]%N, []. split; [reflexivity|].
  apply (then_once false _ false _ _ [(66, 1%nat)]%N [(97, 1%nat); (114, 1%nat)]%N); [exists 66%N, 1; split; reflexivity|].
  apply (then_once false _ false _ _ [(97, 1%nat)]%N [(114, 1%nat)]%N); [exists 97%N, 1; split; reflexivity|].
  apply (then_once false _ false _ _ [(114, 1%nat)]%N []); [exists 114%N, 1; split; reflexivity|]. reflexivity.
Qed.
Lemma looks_case : encodes (bs "(?i)(?<!x-)(Foo(?!.*Bar|Ba[zr])(?!Q)\d+|z)") (written true looks) /\ ok_alts true looks /\ tidy_alts looks /\ plain_rest true looks /\
  no_empty_choice true looks /\ quiet_alts looks /\
  normalize (bs "(?i)(?<!x-)(Foo(?!.*Bar|Ba[zr])(?!Q)\d+|z)") = Some (Ok (bs "(?i)(Foo\d+|z)")) /\ occurs true looks (runes (bs "foo1")).
Proof.
  split; [enc_tac|]. split; [ok_tac|]. split; [ok_tac|]. split; [apply plainb; reflexivity|]. split; [apply partb_ok; reflexivity|]. split; [ok_tac|]. split; [reflexivity|].
  exists [], [(102, 1%nat); (111, 1%nat); (111, 1%nat); (49, 1%nat)]%N, []. split; [reflexivity|]. apply m_one; unfold chars; cbn [fold_right].
  apply (then_once true _ false _ [] [] [(102, 1%nat); (111, 1%nat); (111, 1%nat); (49, 1%nat)]%N []).
  { split; [reflexivity|]. intros (u' & v' & E & H). apply (then_inv _ _ false) in H as (v1 & v2 & -> & (y & wd & -> & _) & _). destruct u'; discriminate E. }
  apply (then_once true _ false _ [] [(102, 1%nat); (111, 1%nat); (111, 1%nat); (49, 1%nat)]%N [] []); [|reflexivity]. left.
  apply (then_once true _ false _ _ [(102, 1%nat)]%N [(111, 1%nat); (111, 1%nat); (49, 1%nat)]%N); [exists 102%N, 1; split; [reflexivity|cbn; auto]|].
  apply (then_once true _ false _ _ [(111, 1%nat)]%N [(111, 1%nat); (49, 1%nat)]%N); [exists 111%N, 1; split; [reflexivity|cbn; auto]|].
  apply (then_once true _ false _ _ [(111, 1%nat)]%N [(49, 1%nat)]%N); [exists 111%N, 1; split; [reflexivity|cbn; auto]|].
  assert (L : forall fold x s u v w y k t, m_sequ fold (Then (AChar x) Once false s) u v w -> v ++ w = (y, k) :: t -> variant fold x y).
  { intros fold x s u v w y k t H E. apply (then_inv _ _ false) in H as (v1 & v2 & -> & (z & wd & -> & V) & _). cbn [app] in E. injection E as <- _ _. exact V. }
  assert (L2 : forall fold x s u v w, m_sequ fold (Then (AChar x) Once false s) u v w -> exists y k t, v = (y, k) :: t /\ variant fold x y).
  { intros fold x s u v w H. apply (then_inv _ _ false) in H as (v1 & v2 & -> & (z & wd & -> & V) & _). eexists _, _, _. split; [reflexivity|exact V]. }
  apply (then_once true _ false _ _ [] [(49, 1%nat)]%N []).
  { split; [reflexivity|]. intros (v' & w' & E & [H|H]).
    - destruct H as (v1 & v2 & n & -> & _ & _ & H). apply (then_inv _ _ false) in H as (v3 & v4 & -> & (y & k & -> & V) & H). apply L2 in H as (y2 & k2 & t & -> & _).
      cbn [app] in E. apply (f_equal (@length (N * nat))) in E. rewrite !app_length in E. cbn [length] in E. rewrite ?app_length in E. cbn [length] in E. lia.
    - cbn [m_alts] in H. apply L2 in H as (y & k & t & -> & V). cbn [app] in E. injection E as <- _ _. cbn in V. destruct V as [V|[V|[]]]; discriminate V. }
  apply (then_once true _ false _ _ [] [(49, 1%nat)]%N []).
  { split; [reflexivity|]. intros (v' & w' & E & H). apply L2 in H as (y & k & t & -> & V). cbn [app] in E. injection E as <- _ _. cbn in V. destruct V as [V|[V|[]]]; discriminate V. }
  exists [(49, 1%nat)]%N, [], 1. split; [reflexivity|]. split; [cbn; lia|]. split; [|reflexivity].
  apply times1. exists 49%N, 1. split; [reflexivity|]. exists 49%N. split; [left; lia|cbn; auto].
Qed.

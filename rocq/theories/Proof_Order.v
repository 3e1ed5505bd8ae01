(** Proofs for C69: the compiler does not depend on the order of maps. *)
From Coq Require Import Permutation List.
From Verif Require Import Model_Base Model_Ctx Model_Compiler Model_Built Spec_Order Proof_Base Proof_Compiler.

(** Ascending lists of the same pairs are equal when a key determines its pair. *)
Lemma ascending_same {A} (l : list (bytes * A)) : forall l', ascending l -> ascending l' ->
  (forall x y, In x l -> In y l -> fst x = fst y -> x = y) -> Permutation l l' -> l = l'.
Proof.
  induction l as [|x l IH]; intros l' S S' U P; [apply Permutation_nil in P; auto|].
  destruct l' as [|y l']; [apply Permutation_sym, Permutation_nil in P; discriminate|].
  destruct (ascending_tail _ _ S) as [S1 S2]. destruct (ascending_tail _ _ S') as [S1' S2'].
  assert (E : x = y).
  { assert (I : In x (y :: l')) by (apply (Permutation_in _ P); left; reflexivity).
    assert (I' : In y (x :: l)) by (apply (Permutation_in _ (Permutation_sym P)); left; reflexivity).
    apply U; [left; reflexivity|exact I'|].
    destruct I as [->|I]; [reflexivity|]. destruct I' as [->|I']; [reflexivity|].
    apply str_leb_anti; [exact (S2 _ I')|exact (S2' _ I)]. }
  subst y. f_equal. apply IH; [exact S1|exact S1'| |exact (Permutation_cons_inv P)]. intros a b Ia Ib. apply U; right; assumption.
Qed.
Lemma sort_units l l' : Permutation l l' -> sort_keys (map (fun e => (e, tt)) l) = sort_keys (map (fun e : bytes => (e, tt)) l').
Proof.
  intros P. apply ascending_same; try apply sort_ascending.
  - intros [x []] [y []] _ _. cbn. congruence.
  - rewrite !sort_perm. apply Permutation_map, P.
Qed.
Lemma engine_names_perm g g' : Permutation g g' -> engine_names g = engine_names g'.
Proof. intros P. unfold engine_names. rewrite (sort_units g g' P). reflexivity. Qed.

(** Entries compiled one after another, with states related by [R]. *)
Lemma entries_same {Y X S} (f : Y -> S -> X * S) (E : Y -> Y -> Prop) (R : S -> S -> Prop) :
  (forall y y' s s', E y y' -> R s s' -> fst (f y s) = fst (f y' s') /\ R (snd (f y s)) (snd (f y' s'))) ->
  forall l l', Forall2 E l l' -> forall s s', R s s' ->
  fst (compile_entries f l s) = fst (compile_entries f l' s') /\ R (snd (compile_entries f l s)) (snd (compile_entries f l' s')).
Proof.
  intros H l l' F. induction F as [|y y' l l' Ey _ IH]; intros s s' Rs; cbn [compile_entries]; [auto|].
  destruct (H _ _ _ _ Ey Rs) as [H1 H2]. destruct (f y s) as [x k], (f y' s') as [x' k']. cbn [fst snd] in *.
  destruct (IH _ _ H2) as [H3 H4]. destruct (compile_entries f l k) as [r k2], (compile_entries f l' k') as [r' k2']. cbn [fst snd] in *.
  split; [congruence|exact H4].
Qed.

(** ** Clients *)
Definition keq (k k' : ktables) : Prop :=
  k_buf k = k_buf k' /\ k_re k = k_re k' /\ k_ef k = k_ef k' /\ Permutation (k_eng k) (k_eng k').
Lemma client1_same valid repl y y' k k' : same_client y y' -> keq k k' ->
  fst (compile_client1 valid repl y k) = fst (compile_client1 valid repl y' k') /\
  keq (snd (compile_client1 valid repl y k)) (snd (compile_client1 valid repl y' k')).
Proof.
  destruct y as [re name ver eng url typ], y' as [re' name' ver' eng' url' typ'], k as [b r f g], k' as [b' r' f' g'].
  intros (E1 & E2 & E3 & E4 & E5 & E6) (K1 & K2 & K3 & K4). cbn [yc_regex yc_name yc_version yc_engine yc_url yc_type k_buf k_re k_ef k_eng] in *.
  subst re' name' ver' url' typ' b' r' f'. unfold compile_client1. cbn [yc_regex yc_name yc_version yc_engine yc_url yc_type k_buf k_re k_ef k_eng].
  destruct (add_match valid repl re b r) as [[[ri m64] b1] re1]. destruct (add_opt name b1) as [br64 b2].
  destruct (client_version64 ver b2) as [[vi v64] b3].
  destruct eng as [[d vs]|], eng' as [[d' vs']|]; cbn [same_engine ye_default ye_versions] in E6; try contradiction.
  - destruct E6 as [<- [ND P]]. cbn [ye_default ye_versions]. destruct (add_opt d b3) as [d64 c1].
    set (g1 := match d with [] => g | _ :: _ => d :: g end). set (g1' := match d with [] => g' | _ :: _ => d :: g' end).
    assert (Pg : Permutation g1 g1') by (unfold g1, g1'; destruct d; [exact K4|apply perm_skip, K4]).
    destruct vs as [|v vs]; destruct vs' as [|v' vs'].
    + destruct (add_opt url c1) as [u64 b5]. destruct (add_opt typ b5) as [t64 b6]. cbn. repeat split; auto.
    + apply Permutation_nil in P. discriminate.
    + apply Permutation_sym, Permutation_nil in P. discriminate.
    + rewrite (engine_order d _ _ d64 c1 ND P). destruct (ef (mkYE d (v' :: vs')) d64 c1) as [fn c2].
      destruct (add_opt url c2) as [u64 b5]. destruct (add_opt typ b5) as [t64 b6]. cbn [fst snd]. split; [reflexivity|].
      unfold keq. cbn [k_buf k_re k_ef k_eng]. repeat split. apply Permutation_app; [apply Permutation_map, P|exact Pg].
  - destruct (add_opt url b3) as [u64 b5]. destruct (add_opt typ b5) as [t64 b6]. cbn. repeat split; auto.
Qed.
Lemma client_same valid repl fs fs' : Forall2 (Forall2 same_client) fs fs' -> compile_client valid repl fs = compile_client valid repl fs'.
Proof.
  intros F. unfold compile_client.
  assert (K0 : keq (mkK buf_empty [] [] []) (mkK buf_empty [] [] [])) by (repeat split; constructor).
  destruct (entries_same (compile_entries (compile_client1 valid repl)) (Forall2 same_client) keq
    (fun y y' s s' Ey Rs => entries_same _ _ _ (client1_same valid repl) _ _ Ey _ _ Rs) _ _ F _ _ K0) as [H1 (H2 & H3 & H4 & H5)].
  destruct (compile_entries _ fs _) as [idx k], (compile_entries _ fs' _) as [idx' k']. cbn [fst snd] in *.
  rewrite <- (engine_names_perm _ _ H5), H1, H2, H3, H4. reflexivity.
Qed.

(** ** Devices and vendors *)
Lemma device_same valid repl static fs fs' : Forall2 same_map fs fs' -> compile_device valid repl static fs = compile_device valid repl static fs'.
Proof.
  intros F. unfold compile_device.
  destruct (entries_same (fun f => compile_entries (compile_brand1 valid repl static) (sort_keys f)) same_map eq) with (l := fs) (l' := fs')
    (s := mkD buf_empty [] []) (s' := mkD buf_empty [] []) as [H1 H2].
  - intros y y' s s' [ND P] <-. rewrite (sort_unique y y' ND P). auto.
  - exact F.
  - reflexivity.
  - destruct (compile_entries _ fs _) as [idx d], (compile_entries _ fs' _) as [idx' d']. cbn [fst snd] in *. subst. reflexivity.
Qed.
Lemma vendor_same l l' : same_map l l' -> compile_vendor l = compile_vendor l'.
Proof. intros [ND P]. unfold compile_vendor. rewrite (sort_unique l l' ND P). reflexivity. Qed.

(** ** Hints *)
Lemma smap_get_in {A} (m : list (bytes * A)) k v : NoDup (map fst m) -> (smap_get m k = Some v <-> In (k, v) m).
Proof.
  induction m as [|[k' v'] m IH]; intros ND; cbn [smap_get In]; [split; [discriminate|intros []]|].
  cbn [map fst] in ND. apply NoDup_cons_iff in ND as [N ND]. specialize (IH ND).
  destruct (beqs k' k) eqn:E.
  - apply beqs_eq in E. subst k'. split; [intros [= ->]; left; reflexivity|]. intros [[= ->]|I]; [reflexivity|].
    exfalso. apply N. apply (in_map fst) in I. exact I.
  - rewrite IH. split; [auto|]. intros [[= -> ->]|I]; [rewrite beqs_refl in E; discriminate|exact I].
Qed.
Lemma smap_get_perm {A} (m m' : list (bytes * A)) k : same_map m m' -> smap_get m k = smap_get m' k.
Proof.
  intros [ND P]. assert (ND' : NoDup (map fst m')) by (eapply Permutation_NoDup; [apply Permutation_map, P|exact ND]).
  destruct (smap_get m k) as [v|] eqn:E.
  - symmetry. apply smap_get_in; [exact ND'|]. apply (Permutation_in _ P). apply smap_get_in; assumption.
  - destruct (smap_get m' k) as [v|] eqn:E'; [|reflexivity]. apply smap_get_in in E'; [|exact ND'].
    apply (Permutation_in _ (Permutation_sym P)) in E'. apply smap_get_in in E'; [congruence|exact ND].
Qed.
Lemma hint_keys_same m m' ks : same_map m m' -> forall h, hint_keys m ks h = hint_keys m' ks h.
Proof.
  intros S. induction ks as [|k ks IH]; intros h; cbn [hint_keys]; [reflexivity|].
  destruct (existsb (beqs k) (h_uniq h)); [apply IH|]. rewrite (smap_get_perm m m' k S).
  destruct (buf_add _ (h_buf h)) as [e b1]. apply IH.
Qed.
Lemma hint_file_same m m' h : same_map m m' -> hint_file m h = hint_file m' h.
Proof.
  intros S. unfold hint_file. rewrite (sort_units (h_keys h ++ map fst m) (h_keys h ++ map fst m')).
  - apply hint_keys_same, S.
  - apply Permutation_app_head, Permutation_map, S.
Qed.
Lemma hint_same fs fs' : Forall2 same_map fs fs' -> compile_hint fs = compile_hint fs'.
Proof.
  intros F. unfold compile_hint. assert (E : forall h, fold_left (fun h f => hint_file f h) fs h = fold_left (fun h f => hint_file f h) fs' h).
  { induction F as [|m m' fs fs' S _ IH]; intros h; cbn [fold_left]; [reflexivity|]. rewrite (hint_file_same m m' h S). apply IH. }
  rewrite E. reflexivity.
Qed.

Lemma built_same K D D' : same_database D D' -> built K D = built K D'.
Proof.
  intros [Sc So Sd Sv Sh]. unfold built. rewrite (client_same _ _ _ _ Sc), So, (device_same _ _ _ _ _ Sd), (vendor_same _ _ Sv), (hint_same _ _ Sh).
  reflexivity.
Qed.

(** ** Example: every map of a database read backwards *)
Definition flip_client (y : yclient) : yclient :=
  mkYC (yc_regex y) (yc_name y) (yc_version y) (match yc_engine y with Some e => Some (mkYE (ye_default e) (rev (ye_versions e))) | None => None end)
    (yc_url y) (yc_type y).
Definition flip (D : database) : database :=
  mkDatabase (map (map flip_client) (db_client D)) (db_os D) (map (@rev _) (db_device D)) (rev (db_vendor D)) (map (@rev _) (db_hint D)).
Fixpoint nodupb (l : list bytes) : bool := match l with [] => true | k :: l' => negb (existsb (beqs k) l') && nodupb l' end.
Lemma nodupb_ok l : nodupb l = true -> NoDup l.
Proof.
  induction l as [|k l IH]; intros H; constructor; cbn [nodupb] in H; apply andb_prop in H as [H1 H2]; [|auto].
  intros I. rewrite (proj2 (existsb_exists _ _)) in H1; [discriminate|]. exists k. split; [exact I|apply beqs_refl].
Qed.
Definition maps_ok (D : database) : bool :=
  forallb (forallb (fun y => match yc_engine y with Some e => nodupb (map fst (ye_versions e)) | None => true end)) (db_client D) &&
  forallb (fun f => nodupb (map fst f)) (db_device D) && nodupb (map fst (db_vendor D)) && forallb (fun f => nodupb (map fst f)) (db_hint D).
Lemma forall2_map {A} (R : A -> A -> Prop) (f : A -> A) l : (forall x, In x l -> R x (f x)) -> Forall2 R l (map f l).
Proof.
  induction l as [|x l IH]; intros H; cbn [map]; constructor; [apply H; left; reflexivity|].
  apply IH. intros y I. apply H. right. exact I.
Qed.
Lemma same_rev {A} (m : list (bytes * A)) : nodupb (map fst m) = true -> same_map m (rev m).
Proof. intros H. split; [apply nodupb_ok, H|apply Permutation_rev]. Qed.
Lemma flip_same D : maps_ok D = true -> same_database D (flip D).
Proof.
  intros H. unfold maps_ok in H. apply andb_prop in H as [H H4]. apply andb_prop in H as [H H3]. apply andb_prop in H as [H1 H2].
  constructor; cbn [flip db_client db_os db_device db_vendor db_hint].
  - apply forall2_map. intros f If. apply forall2_map. intros y Iy. rewrite forallb_forall in H1. specialize (H1 _ If).
    rewrite forallb_forall in H1. specialize (H1 _ Iy). destruct y as [a b c [e|] d f']; cbn in *; repeat split; auto.
    + apply nodupb_ok, H1.
    + apply Permutation_rev.
  - reflexivity.
  - apply forall2_map. intros f If. rewrite forallb_forall in H2. apply same_rev, H2, If.
  - apply same_rev, H3.
  - apply forall2_map. intros f If. rewrite forallb_forall in H4. apply same_rev, H4, If.
Qed.

(** Proofs about [uaxplc] as a program. *)
From Verif Require Import Model_Base Model_Ctx Model_Compiler Model_Built Model_Emit Model_Uaxplc Spec_Go Spec_Emit Spec_Uaxplc
  Data_Tiny Spec_Database Proof_Base Proof_Emit Proof_Writable Proof_Written.
From Coq Require Import Lia.
Open Scope nat_scope.

(** ** Flags *)
Definition proper_name (n : bytes) : Prop :=
  match n with [] => False | b :: r => b <> x2d /\ b <> x3d /\ ~ In x3d r end.

Lemma beq_neq a b : beq a b = false <-> a <> b.
Proof. destruct (beq a b) eqn:E; [apply beq_eq in E; subst; split; congruence|]. split; [|reflexivity]. intros _ ->. rewrite (proj2 (beq_eq b b) eq_refl) in E. discriminate E. Qed.
Lemma beq_refl a : beq a a = true. Proof. apply beq_eq. reflexivity. Qed.

Lemma cut_eq_plain s : ~ In x3d s -> cut_eq s = (s, None).
Proof.
  induction s as [|b s IH]; intros H; [reflexivity|]. cbn [cut_eq].
  rewrite (proj2 (beq_neq b x3d)) by (intros ->; apply H; left; reflexivity).
  rewrite IH by (intros X; apply H; right; exact X). reflexivity.
Qed.
Lemma cut_eq_value s v : ~ In x3d s -> cut_eq (s ++ x3d :: v) = (s, Some v).
Proof.
  induction s as [|b s IH]; intros H; [reflexivity|]. cbn [cut_eq app].
  rewrite (proj2 (beq_neq b x3d)) by (intros ->; apply H; left; reflexivity).
  rewrite IH by (intros X; apply H; right; exact X). reflexivity.
Qed.
Lemma cut_eq_back s : forall n v, cut_eq s = (n, v) ->
  ~ In x3d n /\ s = match v with Some v => n ++ x3d :: v | None => n end.
Proof.
  induction s as [|b s IH]; intros n v E; cbn [cut_eq] in E.
  - injection E as <- <-. split; [intros []|reflexivity].
  - destruct (beq b x3d) eqn:B.
    + injection E as <- <-. apply beq_eq in B. subst b. split; [intros []|reflexivity].
    + destruct (cut_eq s) as [n' v'] eqn:C. injection E as <- <-. destruct (IH n' v' eq_refl) as [N S].
      apply beq_neq in B. split; [intros [X|X]; [congruence|exact (N X)]|]. rewrite S. destruct v'; reflexivity.
Qed.

Lemma flag_body_name n : proper_name n -> flag_body n = Flag n None.
Proof.
  destruct n as [|b r]; [intros []|]. intros (A & B & C). unfold flag_body.
  rewrite (proj2 (beq_neq _ _) A), (proj2 (beq_neq _ _) B), (cut_eq_plain r C). reflexivity.
Qed.
Lemma flag_body_value n v : proper_name n -> flag_body (n ++ x3d :: v) = Flag n (Some v).
Proof.
  destruct n as [|b r]; [intros []|]. intros (A & B & C). unfold flag_body. cbn [app].
  rewrite (proj2 (beq_neq _ _) A), (proj2 (beq_neq _ _) B), (cut_eq_value r v C). reflexivity.
Qed.
Lemma flag_body_back s n v : flag_body s = Flag n v ->
  proper_name n /\ s = match v with Some v => n ++ x3d :: v | None => n end.
Proof.
  unfold flag_body. destruct s as [|b s]; [discriminate|].
  destruct (beq b x2d) eqn:A; [discriminate|]. destruct (beq b x3d) eqn:B; [discriminate|]. cbn [orb].
  destruct (cut_eq s) as [n' v'] eqn:C. intros E. injection E as <- <-.
  destruct (cut_eq_back s n' v' C) as [N S]. apply beq_neq in A. apply beq_neq in B.
  split; [split; [exact A|split; [exact B|exact N]]|]. rewrite S. destruct v'; reflexivity.
Qed.

Lemma read_dash b s : b <> x2d -> read_arg (x2d :: b :: s) = flag_body (b :: s).
Proof. intros H. cbn. destruct b; try reflexivity. congruence. Qed.
Lemma read_dashes b s : read_arg (x2d :: x2d :: b :: s) = flag_body (b :: s).
Proof. reflexivity. Qed.

Lemma read_arg_back a n v : read_arg a = Flag n v ->
  proper_name n /\ exists d, (d = bs "-" \/ d = bs "--") /\ a = d ++ match v with Some v => n ++ x3d :: v | None => n end.
Proof.
  intros E. destruct a as [|a0 a]; [discriminate E|].
  destruct (beq a0 x2d) eqn:A.
  2:{ apply beq_neq in A. exfalso. destruct a0; try discriminate E. congruence. }
  apply beq_eq in A. subst a0. destruct a as [|b s]; [discriminate E|].
  destruct (beq b x2d) eqn:B.
  - apply beq_eq in B. subst b. destruct s as [|c s]; [discriminate E|]. rewrite read_dashes in E.
    apply flag_body_back in E as [P S]. split; [exact P|]. exists (bs "--"). split; [right; reflexivity|]. rewrite S. reflexivity.
  - apply beq_neq in B. rewrite (read_dash b s B) in E. apply flag_body_back in E as [P S]. split; [exact P|].
    exists (bs "-"). split; [left; reflexivity|]. rewrite S. reflexivity.
Qed.

Lemma read_arg_end a : read_arg a = NotFlag \/ read_arg a = Terminator <->
  a = bs "--" \/ a = bs "-" \/ ~ exists s, a = bs "-" ++ s.
Proof.
  destruct a as [|a0 a].
  { split; [|left; reflexivity]. intros _. right. right. intros (s & E). discriminate E. }
  destruct (beq a0 x2d) eqn:A.
  2:{ apply beq_neq in A. split; intros _.
      - right. right. intros (s & E). cbn in E. congruence.
      - left. destruct a0; try reflexivity. congruence. }
  apply beq_eq in A. subst a0. destruct a as [|b s].
  { split; [|left; reflexivity]. intros _. right. left. reflexivity. }
  destruct (beq b x2d) eqn:B.
  - apply beq_eq in B. subst b. destruct s as [|c s].
    { split; [|right; reflexivity]. intros _. left. reflexivity. }
    rewrite read_dashes. split.
    + unfold flag_body. destruct (beq c x2d || beq c x3d); [intros [H|H]; discriminate H|].
      destruct (cut_eq s). intros [H|H]; discriminate H.
    + intros [H|[H|H]]; [discriminate H|discriminate H|]. exfalso. apply H. eexists. reflexivity.
  - apply beq_neq in B. rewrite (read_dash b s B). split.
    + unfold flag_body. destruct (beq b x2d || beq b x3d); [intros [H|H]; discriminate H|].
      destruct (cut_eq s). intros [H|H]; discriminate H.
    + intros [H|[H|H]]; [cbn in H; congruence|discriminate H|]. exfalso. apply H. eexists. reflexivity.
Qed.

Lemma known_in n known : existsb (beqs n) known = true <-> In n known.
Proof.
  rewrite existsb_exists. split.
  - intros (x & Hx & E). apply beqs_eq in E. subst x. exact Hx.
  - intros H. exists n. split; [exact H|]. apply beqs_eq. reflexivity.
Qed.

Lemma parse_says known : Forall proper_name known -> forall args l, says known args l -> parse_flags known args = Parsed l.
Proof.
  intros P args l H. induction H as [args E|n v a args l Hn S _ IH].
  - destruct E as [->|(a & r & -> & E)]; [reflexivity|]. apply read_arg_end in E.
    cbn [parse_flags]. destruct E as [-> | ->]; reflexivity.
  - assert (Pn : proper_name n) by (rewrite Forall_forall in P; exact (P n Hn)).
    apply known_in in Hn.
    assert (R1 : read_arg (bs "-" ++ n) = Flag n None).
    { destruct n as [|b r]; [destruct Pn|]. change (bs "-" ++ b :: r) with (x2d :: b :: r).
      rewrite read_dash by exact (proj1 Pn). apply flag_body_name, Pn. }
    assert (R2 : read_arg (bs "--" ++ n) = Flag n None).
    { destruct n as [|b r]; [destruct Pn|]. change (bs "--" ++ b :: r) with (x2d :: x2d :: b :: r).
      rewrite read_dashes. apply flag_body_name, Pn. }
    assert (R3 : read_arg (bs "-" ++ n ++ bs "=" ++ v) = Flag n (Some v)).
    { change (bs "=" ++ v) with (x3d :: v). destruct n as [|b r]; [destruct Pn|].
      change (bs "-" ++ (b :: r) ++ x3d :: v) with (x2d :: b :: (r ++ x3d :: v)).
      rewrite read_dash by exact (proj1 Pn). exact (flag_body_value (b :: r) v Pn). }
    assert (R4 : read_arg (bs "--" ++ n ++ bs "=" ++ v) = Flag n (Some v)).
    { change (bs "=" ++ v) with (x3d :: v). destruct n as [|b r]; [destruct Pn|].
      change (bs "--" ++ (b :: r) ++ x3d :: v) with (x2d :: x2d :: b :: (r ++ x3d :: v)).
      rewrite read_dashes. exact (flag_body_value (b :: r) v Pn). }
    destruct S; cbn [parse_flags]; cbn [List.app]; cbn [parse_flags].
    + rewrite R1, Hn. cbn [negb]. rewrite IH. reflexivity.
    + rewrite R2, Hn. cbn [negb]. rewrite IH. reflexivity.
    + rewrite R3, Hn. cbn [negb]. rewrite IH. reflexivity.
    + rewrite R4, Hn. cbn [negb]. rewrite IH. reflexivity.
Qed.

Lemma add_set_parsed s p l : add_set s p = Parsed l -> exists l', p = Parsed l' /\ l = s :: l'.
Proof. destruct p as [l'| |]; cbn; intros E; try discriminate E. injection E as <-. eauto. Qed.

Lemma says_parse known : forall m args l, length args <= m -> parse_flags known args = Parsed l -> says known args l.
Proof.
  induction m as [|m IH]; intros args l Hm E.
  - destruct args; [|cbn in Hm; lia]. cbn in E. injection E as <-. apply Says_end. left. reflexivity.
  - destruct args as [|a rest].
    { cbn in E. injection E as <-. apply Says_end. left. reflexivity. }
    cbn [parse_flags] in E. cbn [length] in Hm. destruct (read_arg a) as [| | |n v] eqn:R.
    + injection E as <-. apply Says_end. right. exists a, rest. split; [reflexivity|].
      apply read_arg_end. left. exact R.
    + injection E as <-. apply Says_end. right. exists a, rest. split; [reflexivity|].
      apply read_arg_end. right. exact R.
    + discriminate E.
    + destruct (existsb (beqs n) known) eqn:Kn; cbn [negb] in E.
      2:{ destruct (beqs n (bs "help") || beqs n (bs "h")); discriminate E. }
      apply known_in in Kn. apply read_arg_back in R as (P & d & Hd & Ea). destruct v as [v|].
      * apply add_set_parsed in E as (l' & E & ->). subst a.
        change ((d ++ n ++ x3d :: v) :: rest) with ([d ++ n ++ x3d :: v] ++ rest). apply Says_set; [exact Kn| |].
        -- destruct Hd as [-> | ->]; [apply S_short_eq|apply S_long_eq].
        -- apply IH; [lia|exact E].
      * destruct rest as [|v rest']; [discriminate E|]. apply add_set_parsed in E as (l' & E & ->). subst a.
        change ((d ++ n) :: v :: rest') with ([d ++ n; v] ++ rest'). apply Says_set; [exact Kn| |].
        -- destruct Hd as [-> | ->]; [apply S_short|apply S_long].
        -- apply IH; [cbn in Hm; lia|exact E].
Qed.

Lemma known_flags_proper : Forall proper_name known_flags.
Proof. repeat constructor; cbn; try discriminate; intros H; repeat destruct H as [H|H]; try discriminate H; exact H. Qed.

Lemma flags_iff args l : parse_flags known_flags args = Parsed l <-> says known_flags args l.
Proof. split; [apply (says_parse known_flags (length args)); lia|apply parse_says, known_flags_proper]. Qed.

Lemma variable_app names l1 l2 :
  flag_var names (l1 ++ l2) = fold_left (fun v s => if existsb (beqs (fst s)) names then snd s else v) l2 (flag_var names l1).
Proof. unfold flag_var. apply fold_left_app. Qed.

Lemma variable_last names l : last_value names l (flag_var names l).
Proof.
  induction l as [|[n v] l IH] using rev_ind.
  - right. split; [reflexivity|]. intros n v [].
  - rewrite variable_app. cbn [fold_left fst snd]. revert IH. generalize (flag_var names l). intros w IH.
    destruct (existsb (beqs n) names) eqn:E.
    + apply known_in in E. left. exists l, n, []. split; [reflexivity|]. split; [exact E|]. intros n' v' [].
    + assert (En : ~ In n names) by (intros X; apply known_in in X; congruence).
      destruct IH as [(l1 & n1 & l2 & El & I1 & H)|(Ev & H)].
      * left. exists l1, n1, (l2 ++ [(n, v)]). split; [rewrite El, <- app_assoc; reflexivity|]. split; [exact I1|].
        intros n' v' Hi. apply in_app_iff in Hi as [Hi|[Hi|[]]]; [exact (H n' v' Hi)|]. injection Hi as <- <-. exact En.
      * right. split; [exact Ev|]. intros n' v' Hi. apply in_app_iff in Hi as [Hi|[Hi|[]]]; [exact (H n' v' Hi)|].
        injection Hi as <- <-. exact En.
Qed.

Lemma last_value_fun names l v : last_value names l v -> v = flag_var names l.
Proof.
  assert (N : forall (l2 : list (bytes * bytes)) (w : bytes), (forall n' v', In (n', v') l2 -> ~ In n' names) ->
    fold_left (fun v s => if existsb (beqs (fst s)) names then snd s else v) l2 w = w).
  { clear. induction l2 as [|[n' v'] l2 IH]; intros w H; [reflexivity|]. cbn [fold_left fst snd].
    destruct (existsb (beqs n') names) eqn:E.
    - apply known_in in E. exfalso. exact (H n' v' (or_introl eq_refl) E).
    - apply IH. intros n1 v1 Hi. apply (H n1 v1). right. exact Hi. }
  intros [(l1 & n & l2 & -> & I & H)|(-> & H)].
  - rewrite variable_app. cbn [fold_left fst snd]. apply known_in in I. rewrite I. symmetry. apply N, H.
  - unfold flag_var. symmetry. apply N, H.
Qed.

Lemma asks_iff args m i t : asks args m i t <-> exists l, parse_flags known_flags args = Parsed l /\
  m = flag_var names_module l /\ i = flag_var names_input l /\ t = flag_var names_target l.
Proof.
  unfold asks. split.
  - intros (l & S & Hm & Hi & Ht). exists l. split; [apply flags_iff; exact S|].
    split; [exact (last_value_fun _ _ _ Hm)|]. split; [exact (last_value_fun _ _ _ Hi)|exact (last_value_fun _ _ _ Ht)].
  - intros (l & S & -> & -> & ->). exists l. split; [apply flags_iff in S; exact S|].
    repeat split; apply variable_last.
Qed.

(** ** Reading *)
Lemma same_length {A B} (R : A -> B -> Prop) l l' : Forall2 R l l' -> length l = length l'.
Proof. intros H. induction H; [reflexivity|]. cbn. f_equal. assumption. Qed.
Lemma read_one_iff {Y} W (yaml : bytes -> option Y) p y : read_one W yaml p = Some y <-> file_holds W yaml p y.
Proof.
  unfold read_one, file_holds. split.
  - destruct (w_read W p) as [[|b body]|]; try discriminate. intros E. exists (b :: body). split; [reflexivity|]. split; [discriminate|exact E].
  - intros (body & -> & H & E). destruct body as [|b body]; [congruence|exact E].
Qed.
Lemma read_all_iff {Y} W (yaml : bytes -> option Y) : forall ps l,
  read_all W yaml ps = Some l <-> map fst l = ps /\ Forall2 (file_holds W yaml) ps (map snd l).
Proof.
  induction ps as [|p ps IH]; intros l; cbn [read_all].
  - split.
    + intros E. injection E as <-. split; [reflexivity|constructor].
    + intros [E _]. destruct l; [reflexivity|discriminate E].
  - destruct (read_one W yaml p) as [y|] eqn:R.
    + apply read_one_iff in R. destruct (read_all W yaml ps) as [l'|].
      * split.
        -- intros E. injection E as <-. destruct (proj1 (IH l') eq_refl) as [E F]. cbn. split; [f_equal; exact E|constructor; assumption].
        -- intros [E F]. destruct l as [|[p' y'] l]; [discriminate E|]. cbn in E, F. injection E as -> E. inversion F; subst.
           assert (y' = y) as -> by (apply read_one_iff in R; match goal with H : file_holds _ _ p y' |- _ => apply read_one_iff in H; congruence end).
           f_equal. f_equal. pose proof (proj2 (IH l) (conj eq_refl H4)) as X. congruence.
      * split; [discriminate|]. intros [E F]. exfalso. destruct l as [|[p' y'] l]; [discriminate E|]. cbn in E, F. injection E as -> E. inversion F; subst.
        pose proof (proj2 (IH l) (conj eq_refl H4)) as X. discriminate X.
    + split; [discriminate|]. intros [E F]. exfalso. destruct l as [|[p' y'] l]; [discriminate E|]. cbn in E, F. injection E as -> E. inversion F; subst.
      apply read_one_iff in H2. congruence.
Qed.

Lemma expand_no_tilde W p : no_tilde p -> expand W p = p.
Proof.
  unfold expand. induction p as [|b p IH]; intros H; [reflexivity|]. cbn [flat_map].
  rewrite (proj2 (beq_neq b x7e)) by (intros ->; apply H; left; reflexivity).
  rewrite IH by (intros X; apply H; right; exact X). reflexivity.
Qed.

Lemma read_dir_holds {Y} W (yaml : bytes -> option Y) i ps ys : dir_holds W yaml (expand W i) ps ys ->
  read_dir W yaml i = Some (combine ps ys).
Proof.
  intros [G F]. unfold read_dir. rewrite G. apply read_all_iff.
  pose proof (same_length _ _ _ F) as L. split.
  - clear G F. revert ys L. induction ps as [|p ps IH]; intros [|y ys] L; try discriminate L; [reflexivity|]. cbn. f_equal. apply IH. injection L as L. exact L.
  - replace (map snd (combine ps ys)) with ys; [exact F|].
    clear G F. revert ys L. induction ps as [|p ps IH]; intros [|y ys] L; try discriminate L; [reflexivity|]. cbn. f_equal. apply IH. injection L as L. exact L.
Qed.
Lemma read_dir_back {Y} W (yaml : bytes -> option Y) i l : read_dir W yaml i = Some l ->
  dir_holds W yaml (expand W i) (map fst l) (map snd l).
Proof.
  unfold read_dir, dir_holds. destruct (w_glob W _) as [ps|]; [|discriminate]. intros E.
  apply read_all_iff in E as [<- F]. split; [reflexivity|exact F].
Qed.
Lemma map_fst_combine {A B} (ps : list A) : forall (ys : list B), length ps = length ys -> map fst (combine ps ys) = ps.
Proof. induction ps as [|p ps IH]; intros [|y ys] L; try discriminate L; [reflexivity|]. cbn. f_equal. apply IH. injection L as L. exact L. Qed.
Lemma map_snd_combine {A B} (ps : list A) : forall (ys : list B), length ps = length ys -> map snd (combine ps ys) = ys.
Proof. induction ps as [|p ps IH]; intros [|y ys] L; try discriminate L; [reflexivity|]. cbn. f_equal. apply IH. injection L as L. exact L. Qed.

(** ** Names and counts in comments *)
Lemma drop_slashes_in r b : In b (drop_slashes r) -> In b r.
Proof. induction r as [|c r IH]; [intros []|]. cbn. destruct (beq c x2f); [intros H; right; exact (IH H)|intros H; exact H]. Qed.
Lemma upto_slash_in r b : In b (upto_slash r) -> In b r.
Proof. induction r as [|c r IH]; [intros []|]. cbn. destruct (beq c x2f); [intros []|]. intros [->|H]; [left; reflexivity|right; exact (IH H)]. Qed.
Lemma base_one_line p : one_line p -> one_line (base p).
Proof.
  unfold one_line, base. intros H X. destruct p as [|c p]; [cbn in X; destruct X as [X|[]]; discriminate X|].
  destruct (drop_slashes (rev (c :: p))) as [|d r] eqn:E; [cbn in X; destruct X as [X|[]]; discriminate X|].
  apply H. apply in_rev. apply drop_slashes_in. rewrite E. apply upto_slash_in. apply in_rev in X. exact X.
Qed.

Lemma hint_keys_grow tuples ks : forall h, length (h_idx h) <= length (h_idx (hint_keys tuples ks h)).
Proof.
  induction ks as [|k ks IH]; intros h; [cbn; lia|]. cbn [hint_keys]. destruct (existsb _ _); [apply IH|].
  destruct (buf_add _ _) as [e b]. eapply Nat.le_trans; [|apply IH]. cbn [h_idx]. rewrite app_length. lia.
Qed.
Lemma hint_file_grow f h : length (h_idx h) <= length (h_idx (hint_file f h)).
Proof. unfold hint_file. eapply Nat.le_trans; [|apply hint_keys_grow]. cbn [h_idx]. lia. Qed.
Lemma hint_counts_sum files : forall h,
  length (h_idx h) + list_sum (hint_counts files h) = length (h_idx (fold_left (fun h f => hint_file f h) files h)).
Proof.
  induction files as [|f files IH]; intros h; [cbn; lia|]. cbn [hint_counts fold_left]. rewrite <- IH.
  pose proof (hint_file_grow f h). cbn [list_sum fold_right]. unfold list_sum. lia.
Qed.
Lemma hint_counts_length files : forall h, length (hint_counts files h) = length files.
Proof. induction files as [|f files IH]; intros h; [reflexivity|]. cbn. f_equal. apply IH. Qed.
Lemma hint_counts_all files : list_sum (hint_counts files (mkH buf_empty [] [] [])) = length (ho_idx (compile_hint files)).
Proof. unfold compile_hint. cbn [ho_idx]. rewrite <- hint_counts_sum. reflexivity. Qed.

(** ** Runs *)
Lemma put_file_cases W t text : put_file W t text = (Fatal, Untouched) \/ put_file W t text = (Fatal, Torn t) \/
  exists src s, text = Some src /\ w_format W src = Some s /\ w_writes W t = true /\ put_file W t text = (Finished, Wrote t s).
Proof.
  unfold put_file. destruct text as [src|]; [|left; reflexivity]. destruct (w_format W src) as [s|] eqn:F; [|left; reflexivity].
  destruct (w_writes W t) eqn:G; [|right; left; reflexivity]. right. right. exists src, s. auto.
Qed.

Lemma or_default_target m t : target_of m t (or_default t (default_target m)).
Proof. unfold target_of, or_default. destruct t; [left; split; reflexivity|right; split; [discriminate|reflexivity]]. Qed.

Definition run_text (W : world) (K : compiler) (args : list bytes) (m i : bytes) : option bytes :=
  if beqs m (bs "client") then text_client W K args i
  else if beqs m (bs "device") then text_device W K args i
  else if beqs m (bs "hint") then text_hint W args i
  else if beqs m (bs "os") then text_os W K args i
  else text_vendor W args i.

Lemma run_module_text W K args m i t : In m modules -> m <> bs "bot" ->
  run_module W K args m i t = put_file W (or_default t (default_target m)) (run_text W K args m i).
Proof.
  intros H B. destruct H as [<-|[<-|[<-|[<-|[<-|[<-|[]]]]]]]; try reflexivity. congruence.
Qed.

Lemma uaxplc_run W K args m i t : asks args m i t -> In m modules -> i <> [] -> uaxplc W K args = run_module W K args m i t.
Proof.
  intros A Hm Hi. apply asks_iff in A as (l & P & -> & -> & ->). unfold uaxplc. rewrite P.
  assert (L : length (flag_var names_module l) =? 0 = false).
  { destruct (flag_var names_module l); [|reflexivity]. exfalso. repeat destruct Hm as [Hm|Hm]; try discriminate Hm. destruct Hm. }
  cbv zeta. rewrite L. rewrite (proj2 (known_in _ _) Hm). cbn [negb].
  destruct (flag_var names_input l); [congruence|]. reflexivity.
Qed.

Lemma uaxplc_finished W K args e : uaxplc W K args = (Finished, e) ->
  exists m i t, asks args m i t /\ In m modules /\ i <> [] /\ run_module W K args m i t = (Finished, e).
Proof.
  unfold uaxplc. destruct (parse_flags known_flags args) as [l| |] eqn:P; try discriminate. cbv zeta.
  destruct (length (flag_var names_module l) =? 0); [discriminate|].
  destruct (existsb (beqs (flag_var names_module l)) modules) eqn:M; [|discriminate]. cbn [negb].
  destruct (length (flag_var names_input l) =? 0) eqn:I; [discriminate|]. intros E.
  exists (flag_var names_module l), (flag_var names_input l), (flag_var names_target l).
  split; [apply asks_iff; eauto|]. split; [apply known_in; exact M|]. split; [|exact E].
  intros X. rewrite X in I. discriminate I.
Qed.

(** Files are touched only by a run that asks for it. *)
Lemma touched W K args e p : uaxplc W K args = e -> (exists s, snd e = Wrote p s) \/ snd e = Torn p ->
  exists m i t, asks args m i t /\ In m modules /\ m <> bs "bot" /\ i <> [] /\ target_of m t p /\
    exists src s, run_text W K args m i = Some src /\ w_format W src = Some s /\
      (e = (Finished, Wrote p s) /\ w_writes W p = true \/ e = (Fatal, Torn p) /\ w_writes W p = false).
Proof.
  unfold uaxplc. intros <-. destruct (parse_flags known_flags args) as [l| |] eqn:P.
  2,3: cbn [snd]; intros [[s H]|H]; discriminate H.
  cbv zeta.
  destruct (length (flag_var names_module l) =? 0); [cbn [snd]; intros [[s H]|H]; discriminate H|].
  destruct (existsb (beqs (flag_var names_module l)) modules) eqn:M; [|cbn [snd negb]; intros [[s H]|H]; discriminate H]. cbn [negb].
  destruct (length (flag_var names_input l) =? 0) eqn:I; [cbn [snd]; intros [[s H]|H]; discriminate H|].
  intros H. exists (flag_var names_module l), (flag_var names_input l), (flag_var names_target l).
  apply known_in in M. split; [apply asks_iff; eauto|]. split; [exact M|].
  assert (B : flag_var names_module l <> bs "bot").
  { intros B. rewrite B in H. cbn in H. destruct H as [[s H]|H]; discriminate H. }
  split; [exact B|]. split; [intros X; rewrite X in I; discriminate I|].
  rewrite (run_module_text W K args _ _ _ M B) in *. unfold put_file in *.
  destruct (run_text W K args (flag_var names_module l) (flag_var names_input l)) as [src|]; [|destruct H as [[s H]|H]; discriminate H].
  destruct (w_format W src) as [s|] eqn:F; [|destruct H as [[s H]|H]; discriminate H].
  destruct (w_writes W (or_default (flag_var names_target l) (default_target (flag_var names_module l)))) eqn:Wr.
  - destruct H as [[s' H]|H]; [|discriminate H]. cbn [snd] in H. injection H as <- <-.
    split; [apply or_default_target|]. exists src, s. split; [reflexivity|]. split; [exact F|]. left. split; [reflexivity|exact Wr].
  - destruct H as [[s' H]|H]; [discriminate H|]. cbn [snd] in H. injection H as <-.
    split; [apply or_default_target|]. exists src, s. split; [reflexivity|]. split; [exact F|]. right. split; [reflexivity|exact Wr].
Qed.

(** A finished run of another module than "bot" wrote its file. *)
Lemma finished_wrote W K args e : uaxplc W K args = (Finished, e) ->
  exists m i t, asks args m i t /\ In m modules /\
    ((m = bs "bot" /\ e = Untouched) \/ (m <> bs "bot" /\ exists p s, e = Wrote p s /\ target_of m t p)).
Proof.
  intros E. apply uaxplc_finished in E as (m & i & t & A & M & _ & R). exists m, i, t. split; [exact A|]. split; [exact M|].
  destruct (beqs m (bs "bot")) eqn:B.
  - apply beqs_eq in B. left. split; [exact B|]. subst m. cbn in R. congruence.
  - right. assert (B' : m <> bs "bot") by (intros ->; discriminate B). split; [exact B'|].
    rewrite (run_module_text W K args m i t M B') in R.
    destruct (put_file_cases W (or_default t (default_target m)) (run_text W K args m i)) as [C|[C|(src & s & _ & _ & _ & C)]];
      rewrite C in R; try discriminate R. injection R as <-. do 2 eexists. split; [reflexivity|apply or_default_target].
Qed.

(** ** A release: five runs against one database *)
Lemma wrote_text W K args m i t p s : asks args m i t -> In m modules -> m <> bs "bot" -> i <> [] ->
  uaxplc W K args = (Finished, Wrote p s) -> exists src, run_text W K args m i = Some src /\ w_format W src = Some s.
Proof.
  intros A M B I E. rewrite (uaxplc_run W K args m i t A M I), (run_module_text W K args m i t M B) in E.
  destruct (put_file_cases W (or_default t (default_target m)) (run_text W K args m i)) as [C|[C|(src & s' & T & F & _ & C)]];
    rewrite C in E; try discriminate E. injection E as _ <-. eauto.
Qed.

Lemma map_base ps : Forall one_line ps -> Forall one_line (map base ps).
Proof. intros F. apply Forall_forall. intros x Hx. apply in_map_iff in Hx as (p & <- & Hp). apply base_one_line. rewrite Forall_forall in F. exact (F p Hp). Qed.
Lemma map_base_fst {Y} (l : list (bytes * Y)) : map (fun f => base (fst f)) l = map base (map fst l).
Proof. rewrite map_map. reflexivity. Qed.

Lemma release W K D ci oi di vi hi ac ao ad av ah tc to_ td tv th pc po pd pv ph sc so sd sv sh :
  keeps_meaning (w_format W) ->
  holds W (expand W ci) (expand W oi) (expand W di) (expand W vi) (expand W hi) D -> writable K D ->
  Forall one_line ac -> Forall one_line ao -> Forall one_line ad -> Forall one_line av -> Forall one_line ah ->
  ci <> [] -> oi <> [] -> di <> [] -> vi <> [] -> hi <> [] ->
  asks ac (bs "client") ci tc -> asks ao (bs "os") oi to_ -> asks ad (bs "device") di td ->
  asks av (bs "vendor") vi tv -> asks ah (bs "hint") hi th ->
  uaxplc W K ac = (Finished, Wrote pc sc) -> uaxplc W K ao = (Finished, Wrote po so) ->
  uaxplc W K ad = (Finished, Wrote pd sd) -> uaxplc W K av = (Finished, Wrote pv sv) ->
  uaxplc W K ah = (Finished, Wrote ph sh) ->
  source_of (built K D) sc so sd sv sh.
Proof.
  intros Km ((cps & Hc & Fc) & Ho & (dps & Hd & Fd) & Hv & (hps & Hh & Fh)) Wr Lc Lo Ld Lv Lh Ic Io Id Iv Ih Ac Ao Ad Av Ah Rc Ro Rd Rv Rh.
  destruct (wrote_text W K ac _ _ _ _ _ Ac ltac:(cbn; tauto) ltac:(discriminate) Ic Rc) as (xc & Tc & Ec).
  destruct (wrote_text W K ao _ _ _ _ _ Ao ltac:(cbn; tauto) ltac:(discriminate) Io Ro) as (xo & To & Eo).
  destruct (wrote_text W K ad _ _ _ _ _ Ad ltac:(cbn; tauto) ltac:(discriminate) Id Rd) as (xd & Td & Ed).
  destruct (wrote_text W K av _ _ _ _ _ Av ltac:(cbn; tauto) ltac:(discriminate) Iv Rv) as (xv & Tv & Ev).
  destruct (wrote_text W K ah _ _ _ _ _ Ah ltac:(cbn; tauto) ltac:(discriminate) Ih Rh) as (xh & Th & Eh).
  change (run_text W K ac (bs "client") ci) with (text_client W K ac ci) in Tc.
  change (run_text W K ao (bs "os") oi) with (text_os W K ao oi) in To.
  change (run_text W K ad (bs "device") di) with (text_device W K ad di) in Td.
  change (run_text W K av (bs "vendor") vi) with (text_vendor W av vi) in Tv.
  change (run_text W K ah (bs "hint") hi) with (text_hint W ah hi) in Th.
  unfold text_client in Tc. rewrite (read_dir_holds W _ ci cps _ Hc) in Tc.
  unfold text_os in To. rewrite (proj2 (read_one_iff W _ _ _) Ho) in To.
  unfold text_device in Td. rewrite (read_dir_holds W _ di dps _ Hd) in Td.
  unfold text_vendor in Tv. rewrite (proj2 (read_one_iff W _ _ _) Hv) in Tv.
  unfold text_hint in Th. rewrite (read_dir_holds W _ hi hps _ Hh) in Th.
  pose proof (same_length _ _ _ (proj2 Hc)) as Nc. pose proof (same_length _ _ _ (proj2 Hd)) as Nd. pose proof (same_length _ _ _ (proj2 Hh)) as Nh.
  rewrite map_base_fst, (map_fst_combine _ _ Nc), (map_snd_combine _ _ Nc) in Tc.
  rewrite map_base_fst, (map_fst_combine _ _ Nd), (map_snd_combine _ _ Nd) in Td.
  rewrite map_base_fst, (map_fst_combine _ _ Nh), (map_snd_combine _ _ Nh) in Th.
  assert (Sc : Some (emit_client ac (map base cps) (compile_client (k_valid K) (k_client K) (db_client D))) = Some xc) by exact Tc.
  injection Sc as Sc. injection To as So. injection Td as Sd. injection Tv as Sv. injection Th as Sh.
  destruct (Wr) as [Wm Wc Wo Wd Wv Wh (S1 & S2 & S3 & S4 & S5 & S6 & S7)].
  unfold built in S1, S2, S3, S4, S5, S6, S7.
  do 5 eexists. split; [|split; [|split; [|split; [|split; [|reflexivity]]]]].
  - apply (proj1 (Km _ _ Ec)). rewrite <- Sc.
    apply client_declares; [exact Lc|apply map_base, Fc|rewrite client_files, map_length; exact Nc|]. apply client_out_ok; [exact Wm|exact Wc|exact S1| |exact S3|exact S4].
    revert S2. unfold indexed. cbn [cr_re]. rewrite map_length. trivial.
  - apply (proj1 (proj2 (Km _ _ Eo))). rewrite <- So.
    apply os_declares; [exact Lo|]. apply os_out_ok; [exact Wm|exact Wo|]. revert S5. unfold indexed. cbn [or_re]. rewrite map_length. trivial.
  - apply (proj1 (proj2 (proj2 (Km _ _ Ed)))). rewrite <- Sd.
    apply device_declares; [exact Ld|apply map_base, Fd|rewrite device_files, map_length; exact Nd|]. apply device_out_ok; [exact Wm|exact Wd| |exact S7].
    revert S6. unfold indexed. cbn [dr_re]. rewrite map_length. trivial.
  - apply (proj1 (proj2 (proj2 (proj2 (Km _ _ Ev))))). rewrite <- Sv.
    apply vendor_declares; [exact Lv|]. apply vendor_out_ok. exact Wv.
  - apply (proj2 (proj2 (proj2 (proj2 (Km _ _ Eh))))). rewrite <- Sh.
    assert (Nn : length (map base hps) = length (hint_counts (db_hint D) (mkH buf_empty [] [] []))).
    { rewrite map_length, hint_counts_length. exact Nh. }
    apply hint_declares; [exact Lh| | |apply hint_out_ok; exact Wh].
    + apply Forall_forall. intros x Hx. destruct x as [n k]. apply in_combine_l in Hx. cbn [fst].
      pose proof (map_base hps Fh) as Fb. rewrite Forall_forall in Fb. exact (Fb n Hx).
    + rewrite (map_snd_combine _ _ Nn). apply hint_counts_all.
Qed.

Lemma resolves_expand W i p : resolves W i p -> expand W i = p.
Proof.
  intros [[H ->]|(r & -> & H & ->)]; [apply expand_no_tilde, H|].
  change (w_home W ++ expand W r = w_home W ++ r). rewrite (expand_no_tilde W r H). reflexivity.
Qed.
Lemma resolves_some W i p : resolves W i p -> p <> [] -> i <> [].
Proof. intros [[_ ->]|(r & -> & _)] H; [exact H|discriminate]. Qed.

Lemma release_resolved W K D ci oi di vi hi cp op dp vp hp ac ao ad av ah tc to_ td tv th pc po pd pv ph sc so sd sv sh :
  keeps_meaning (w_format W) ->
  resolves W ci cp -> resolves W oi op -> resolves W di dp -> resolves W vi vp -> resolves W hi hp ->
  holds W cp op dp vp hp D -> writable K D ->
  Forall one_line ac -> Forall one_line ao -> Forall one_line ad -> Forall one_line av -> Forall one_line ah ->
  asks ac (bs "client") ci tc -> asks ao (bs "os") oi to_ -> asks ad (bs "device") di td ->
  asks av (bs "vendor") vi tv -> asks ah (bs "hint") hi th ->
  uaxplc W K ac = (Finished, Wrote pc sc) -> uaxplc W K ao = (Finished, Wrote po so) ->
  uaxplc W K ad = (Finished, Wrote pd sd) -> uaxplc W K av = (Finished, Wrote pv sv) ->
  uaxplc W K ah = (Finished, Wrote ph sh) ->
  source_of (built K D) sc so sd sv sh.
Proof.
  intros Km Xc Xo Xd Xv Xh H Wr Lc Lo Ld Lv Lh Ac Ao Ad Av Ah Rc Ro Rd Rv Rh.
  assert (Ne : forall args m i t e, asks args m i t -> uaxplc W K args = (Finished, e) -> i <> []).
  { intros args m i t e A R. apply uaxplc_finished in R as (m' & i' & t' & A' & _ & N & _).
    apply asks_iff in A as (l & P & _ & -> & _). apply asks_iff in A' as (l' & P' & _ & -> & _). congruence. }
  apply (release W K D ci oi di vi hi ac ao ad av ah tc to_ td tv th pc po pd pv ph sc so sd sv sh); try assumption.
  - rewrite (resolves_expand W ci cp Xc), (resolves_expand W oi op Xo), (resolves_expand W di dp Xd), (resolves_expand W vi vp Xv), (resolves_expand W hi hp Xh).
    exact H.
  - exact (Ne _ _ _ _ _ Ac Rc).
  - exact (Ne _ _ _ _ _ Ao Ro).
  - exact (Ne _ _ _ _ _ Ad Rd).
  - exact (Ne _ _ _ _ _ Av Rv).
  - exact (Ne _ _ _ _ _ Ah Rh).
Qed.

(** A touched file: the input was read completely. *)
Lemma run_text_read W K args m i p src : In m modules -> m <> bs "bot" -> resolves W i p ->
  run_text W K args m i = Some src -> input_read W m p.
Proof.
  intros M B X. apply resolves_expand in X. unfold input_read.
  destruct M as [<-|[<-|[<-|[<-|[<-|[<-|[]]]]]]].
  - change (run_text W K args (bs "hint") i) with (text_hint W args i). unfold text_hint.
    destruct (read_dir W (yaml_hint W) i) as [l|] eqn:E; [|discriminate]. intros _. apply read_dir_back in E. rewrite X in E.
    right. right. right. right. split; [reflexivity|eauto].
  - change (run_text W K args (bs "client") i) with (text_client W K args i). unfold text_client.
    destruct (read_dir W (yaml_client W) i) as [l|] eqn:E; [|discriminate]. intros _. apply read_dir_back in E. rewrite X in E.
    left. split; [reflexivity|eauto].
  - change (run_text W K args (bs "device") i) with (text_device W K args i). unfold text_device.
    destruct (read_dir W (yaml_device W) i) as [l|] eqn:E; [|discriminate]. intros _. apply read_dir_back in E. rewrite X in E.
    right. right. left. split; [reflexivity|eauto].
  - change (run_text W K args (bs "os") i) with (text_os W K args i). unfold text_os.
    destruct (read_one W (yaml_os W) (expand W i)) as [l|] eqn:E; [|discriminate]. intros _. apply read_one_iff in E. rewrite X in E.
    right. left. split; [reflexivity|eauto].
  - congruence.
  - change (run_text W K args (bs "vendor") i) with (text_vendor W args i). unfold text_vendor.
    destruct (read_one W (yaml_vendor W) (expand W i)) as [l|] eqn:E; [|discriminate]. intros _. apply read_one_iff in E. rewrite X in E.
    right. right. right. left. split; [reflexivity|eauto].
Qed.

Lemma touches W K args p : touched_file (snd (uaxplc W K args)) p ->
  exists m i t, asks args m i t /\ In m [bs "client"; bs "os"; bs "device"; bs "vendor"; bs "hint"] /\ target_of m t p /\
    (forall q, resolves W i q -> input_read W m q) /\
    (fst (uaxplc W K args) = Finished <-> w_writes W p = true).
Proof.
  intros H. assert (H' : (exists s, snd (uaxplc W K args) = Wrote p s) \/ snd (uaxplc W K args) = Torn p).
  { destruct (snd (uaxplc W K args)) as [|p' s|p']; cbn in H; [destruct H|subst p'; left; eauto|subst p'; right; reflexivity]. }
  destruct (touched W K args _ p eq_refl H') as (m & i & t & A & M & B & I & T & src & s & R & F & E).
  exists m, i, t. split; [exact A|]. split.
  - destruct M as [<-|[<-|[<-|[<-|[<-|[<-|[]]]]]]]; cbn; tauto.
  - split; [exact T|]. split.
    + intros q X. exact (run_text_read W K args m i q src M B X R).
    + destruct E as [[-> Wr]|[-> Wr]]; cbn [fst]; split; congruence.
Qed.

Lemma finishes W K args : fst (uaxplc W K args) = Finished ->
  exists m i t, asks args m i t /\
    ((m = bs "bot" /\ snd (uaxplc W K args) = Untouched) \/
     (In m [bs "client"; bs "os"; bs "device"; bs "vendor"; bs "hint"] /\
      exists p, touched_file (snd (uaxplc W K args)) p)).
Proof.
  destruct (uaxplc W K args) as [x e] eqn:E. cbn [fst snd]. intros ->.
  apply finished_wrote in E as (m & i & t & A & M & H). exists m, i, t. split; [exact A|].
  destruct H as [H|(B & p & s & -> & T)]; [left; exact H|right]. split.
  - destruct M as [<-|[<-|[<-|[<-|[<-|[<-|[]]]]]]]; cbn; tauto.
  - exists p. reflexivity.
Qed.

(** ** Counterexamples *)
Definition nowhere : world :=
  mkWorld (bs "/root") (fun _ => Some []) (fun _ => None) (fun _ => None) (fun _ => None) (fun _ => None) (fun _ => None) (fun _ => None)
          Some (fun _ => true).
Lemma keeps_same : keeps_meaning Some.
Proof. intros src dst E. injection E as <-. repeat split; auto. Qed.

Lemma empty_refuted : exists W K args p s o, keeps_meaning (w_format W) /\ (forall q, w_read W q = None) /\
  uaxplc W K args = (Finished, Wrote p s) /\ declares go_client s o /\ co_idx o = [] /\ co_re o = [].
Proof.
  exists nowhere, tiny_compiler, [bs "-m"; bs "client"; bs "-i"; bs "regexes/cleint"].
  destruct (uaxplc nowhere tiny_compiler [bs "-m"; bs "client"; bs "-i"; bs "regexes/cleint"]) as [x e] eqn:E.
  destruct x; try (exfalso; vm_compute in E; discriminate E). destruct e as [|p s|p]; try (exfalso; vm_compute in E; discriminate E).
  exists p, s. destruct (value go_client s) as [o|] eqn:V.
  - exists o. split; [exact keeps_same|]. split; [reflexivity|]. split; [reflexivity|]. split; [apply value_some; exact V|].
    assert (Y : match snd (uaxplc nowhere tiny_compiler [bs "-m"; bs "client"; bs "-i"; bs "regexes/cleint"]) with
                | Wrote _ s => match value go_client s with Some o => (length (co_idx o) =? 0) && (length (co_re o) =? 0) | None => false end
                | _ => false end = true) by (vm_compute; reflexivity).
    rewrite E in Y. cbn [snd] in Y. rewrite V in Y. apply andb_prop in Y as [Y1 Y2].
    split; [destruct (co_idx o)|destruct (co_re o)]; try reflexivity; discriminate.
  - exfalso.
    assert (Y : match snd (uaxplc nowhere tiny_compiler [bs "-m"; bs "client"; bs "-i"; bs "regexes/cleint"]) with
                | Wrote _ s => match value go_client s with Some o => true | None => false end
                | _ => false end = true) by (vm_compute; reflexivity).
    rewrite E in Y. cbn [snd] in Y. rewrite V in Y. discriminate Y.
Qed.

Definition tilde_path : bytes := bs "old~/oss.yml".
Definition backup : world :=
  mkWorld (bs "/root") (fun _ => Some []) (fun p => if beqs p tilde_path then Some (bs "[]") else None)
          (fun _ => Some []) (fun _ => Some []) (fun _ => Some []) (fun _ => Some []) (fun _ => Some []) Some (fun _ => true).
Lemma tilde_refuted : exists W K args m i t, asks args m i t /\ m = bs "os" /\ file_holds W (yaml_os W) i [] /\
  (forall p, w_writes W p = true) /\ uaxplc W K args = (Fatal, Untouched).
Proof.
  exists backup, tiny_compiler, [bs "-m=os"; bs "-i"; tilde_path], (bs "os"), tilde_path, []. split.
  - apply asks_iff. eexists. split; [vm_compute; reflexivity|]. split; [|split]; vm_compute; reflexivity.
  - split; [reflexivity|]. split; [exists (bs "[]"); split; [vm_compute; reflexivity|]; split; [discriminate|reflexivity]|].
    split; [reflexivity|]. vm_compute. reflexivity.
Qed.

(** Batch mode: invariant over all schedules, progress and a bound on the number of steps. *)
From Verif Require Import Model_Base Model_Cli Spec_Cli Proof_Base.
From Coq Require Import Lia ZifyBool ZifyNat Permutation.

Section Cli.
Variable lower : bytes -> bytes.
Variable ans : row -> option (list bytes) -> Prop.
Notation errors_of := (errors_of lower).
Notation cli_step := (cli_step lower ans).
Notation cli_run := (cli_run lower ans).

Definition strings (d : row * list bytes) : list bytes :=
  match errors_of (fst d) (snd d) with [] => [] | e => pieces (fst d) e end.

Definition held (w : wstate) : list row :=
  match w with WBusy r | WReport r _ | WWrite r _ _ | WCount r _ => [r] | _ => [] end.
Definition reported (w : wstate) : list (row * list bytes) := match w with WCount r got => [(r, got)] | _ => [] end.
Definition writing (w : wstate) : list (row * list bytes * list bytes) := match w with WWrite r got ps => [(r, got, ps)] | _ => [] end.
Definition wok (w : wstate) : Prop :=
  match w with
  | WReport r got | WWrite r got _ => ans r (Some got) /\ errors_of r got <> []
  | WCount r got => ans r (Some got)
  | _ => True
  end.

Definition inv (rows : list row) (s : cli) : Prop :=
  exists (dn bl : list (row * list bytes)) (part : list bytes),
  Permutation rows (map fst dn ++ flat_map held (cl_workers s) ++ cl_chan s ++ cl_todo s) /\
  cl_count s = length dn /\
  cl_out s = flat_map strings bl ++ part /\
  Permutation bl (dn ++ flat_map reported (cl_workers s)) /\
  Forall (fun d => ans (fst d) (Some (snd d))) dn /\
  Forall wok (cl_workers s) /\
  (In WDone (cl_workers s) -> cl_closed s = true /\ cl_chan s = []) /\
  (cl_closed s = true -> cl_todo s = []) /\
  if cl_lock s
  then exists r got ps, flat_map writing (cl_workers s) = [(r, got, ps)] /\ part ++ ps = pieces r (errors_of r got)
  else flat_map writing (cl_workers s) = [] /\ part = [].

Lemma swap_wok w1 w w' w2 : (wok w -> wok w') -> Forall wok (w1 ++ w :: w2) -> Forall wok (w1 ++ w' :: w2).
Proof.
  intros H F. apply Forall_app in F as [F1 F2]. inversion F2; subst. apply Forall_app. split; [exact F1|]. constructor; auto.
Qed.
Lemma flat_map_mid {A B} (f : A -> list B) w1 w w2 : flat_map f (w1 ++ w :: w2) = flat_map f w1 ++ f w ++ flat_map f w2.
Proof. rewrite flat_map_app. reflexivity. Qed.
Lemma done_mid (P : Prop) w1 w w' w2 : w' <> WDone -> (In WDone (w1 ++ w :: w2) -> P) -> In WDone (w1 ++ w' :: w2) -> P.
Proof.
  intros N H I. apply H. apply in_app_or in I as [I|[I|I]]; [apply in_or_app; auto|contradiction|apply in_or_app; right; right; exact I].
Qed.

Lemma perm_add {A} (x : A) bl dn a b : Permutation bl (dn ++ a ++ b) -> Permutation (bl ++ [x]) (dn ++ a ++ x :: b).
Proof.
  intros H. etransitivity; [apply Permutation_app_comm|]. cbn. rewrite H, (app_assoc dn a (x :: b)), (app_assoc dn a b).
  apply Permutation_middle.
Qed.
Lemma inv_start threads rows : inv rows (cli_start threads rows).
Proof.
  exists [], [], []. cbn. assert (F : forall {B} (f : wstate -> list B), f WIdle = [] -> flat_map f (repeat WIdle threads) = []).
  { intros B f E. induction threads; cbn; [reflexivity|]. rewrite E. assumption. }
  rewrite !F by reflexivity. cbn. split; [reflexivity|]. split; [reflexivity|]. split; [reflexivity|]. split; [reflexivity|].
  split; [constructor|]. split; [apply Forall_forall; intros w Hw; apply repeat_spec in Hw as ->; exact I|].
  split; [intros X; apply repeat_spec in X; discriminate X|]. split; [discriminate|]. split; reflexivity.
Qed.

Lemma inv_step threads rows s s' : inv rows s -> cli_step threads s s' -> inv rows s'.
Proof.
  intros (dn & bl & part & P & Cn & O & B & D & W & Dn & Cl & L) St. destruct St; cbn [cl_todo cl_closed cl_chan cl_lock cl_workers cl_out cl_count] in *;
    rewrite ?flat_map_mid in *; cbn [held reported writing app] in *.
  - (* send *)
    exists dn, bl, part. cbn [cl_todo cl_closed cl_chan cl_lock cl_workers cl_out cl_count]. repeat split; auto.
    + rewrite P. rewrite <- !app_assoc. reflexivity.
    + apply Dn in H0 as [X _]. discriminate.
    + apply Dn in H0 as [X _]. discriminate.
    + discriminate.
  - (* close *)
    exists dn, bl, part. cbn [cl_todo cl_closed cl_chan cl_lock cl_workers cl_out cl_count]. repeat split; auto. intros; apply Dn; assumption.
  - (* recv *)
    exists dn, bl, part. cbn [cl_todo cl_closed cl_chan cl_lock cl_workers cl_out cl_count]. rewrite ?flat_map_mid; cbn [held reported writing app].
    split; [|split; [exact Cn|split; [exact O|split; [exact B|split; [exact D|split; [eapply swap_wok; [|exact W]; cbn; auto|split; [|split; [exact Cl|exact L]]]]]]]].
    + rewrite P. apply Permutation_app_head. rewrite <- !app_assoc. apply Permutation_app_head. cbn.
      etransitivity; [symmetry; apply Permutation_middle|]. reflexivity.
    + intros I. assert (I' : In WDone (w1 ++ WIdle :: w2)). { eapply (done_mid _ w1 WIdle (WBusy r) w2); [discriminate| |exact I]. auto. }
      apply Dn in I' as [_ X]. discriminate.
  - (* stop *)
    exists dn, bl, part. cbn [cl_todo cl_closed cl_chan cl_lock cl_workers cl_out cl_count]. rewrite ?flat_map_mid; cbn [held reported writing app].
    split; [exact P|split; [exact Cn|split; [exact O|split; [exact B|split; [exact D|split; [eapply swap_wok; [|exact W]; cbn; auto|split; [auto|split; [exact Cl|exact L]]]]]]]].
  - (* analyse *)
    destruct (errors_of r got) as [|e0 es] eqn:E.
    + exists dn, (bl ++ [(r, got)]), part. cbn [cl_todo cl_closed cl_chan cl_lock cl_workers cl_out cl_count]. rewrite ?flat_map_mid; cbn [held reported writing app].
      split; [exact P|split; [exact Cn|split; [|split; [|split; [exact D|split; [|split; [|split; [exact Cl|exact L]]]]]]]].
      * cbn [flat_map]. unfold strings at 2. cbn [fst snd]. rewrite E. cbn. rewrite app_nil_r. exact O.
      * apply perm_add. exact B.
      * eapply swap_wok; [|exact W]. intros _. exact H.
      * eapply done_mid; [discriminate|exact Dn].
    + exists dn, bl, part. cbn [cl_todo cl_closed cl_chan cl_lock cl_workers cl_out cl_count]. rewrite ?flat_map_mid; cbn [held reported writing app].
      split; [exact P|split; [exact Cn|split; [exact O|split; [exact B|split; [exact D|split; [|split; [|split; [exact Cl|exact L]]]]]]]].
      * eapply swap_wok; [|exact W]. intros _. split; [exact H|]. rewrite E. discriminate.
      * eapply done_mid; [discriminate|exact Dn].
  - (* crash *)
    exists dn, bl, part. cbn [cl_todo cl_closed cl_chan cl_lock cl_workers cl_out cl_count]. rewrite ?flat_map_mid; cbn [held reported writing app].
    split; [exact P|split; [exact Cn|split; [exact O|split; [exact B|split; [exact D|split; [exact W|split; [exact Dn|split; [exact Cl|exact L]]]]]]]].
  - (* lock *)
    destruct L as [L1 L2]. exists dn, bl, part. cbn [cl_todo cl_closed cl_chan cl_lock cl_workers cl_out cl_count]. rewrite ?flat_map_mid; cbn [held reported writing app].
    split; [exact P|split; [exact Cn|split; [exact O|split; [exact B|split; [exact D|split; [|split; [|split; [exact Cl|]]]]]]]].
    + eapply swap_wok; [|exact W]. auto.
    + eapply done_mid; [discriminate|exact Dn].
    + exists r, got, (pieces r (errors_of r got)). apply app_eq_nil in L1 as [-> ->]. subst part. auto.
  - (* write *)
    destruct lk.
    2: { destruct L as [L _]. apply app_eq_nil in L as [_ L]. discriminate. }
    destruct L as (r' & got' & ps' & L & Q).
    assert (E : flat_map writing w1 = [] /\ flat_map writing w2 = [] /\ (r', got', ps') = (r, got, p :: ps)).
    { destruct (flat_map writing w1) as [|y ys]; cbn in L.
      - injection L as L1 L2 L3 L4. subst. rewrite L4. auto.
      - injection L as _ L. destruct ys; discriminate. }
    destruct E as (E1 & E2 & E3). injection E3 as -> -> ->.
    exists dn, bl, (part ++ [p]). cbn [cl_todo cl_closed cl_chan cl_lock cl_workers cl_out cl_count]. rewrite ?flat_map_mid; cbn [held reported writing app].
    split; [exact P|split; [exact Cn|split; [|split; [exact B|split; [exact D|split; [|split; [|split; [exact Cl|]]]]]]]].
    + rewrite O, app_assoc. reflexivity.
    + eapply swap_wok; [|exact W]. auto.
    + eapply done_mid; [discriminate|exact Dn].
    + exists r, got, ps. rewrite E1, E2. split; [reflexivity|]. rewrite <- Q, <- app_assoc. reflexivity.
  - (* unlock *)
    destruct L as (r' & got' & ps' & L & Q).
    assert (E : flat_map writing w1 = [] /\ flat_map writing w2 = [] /\ (r', got', ps') = (r, got, [])).
    { destruct (flat_map writing w1) as [|y ys]; cbn in L.
      - injection L as L1 L2 L3 L4. subst. rewrite L4. auto.
      - injection L as _ L. destruct ys; discriminate. }
    destruct E as (E1 & E2 & E3). injection E3 as -> -> ->. rewrite app_nil_r in Q. subst part.
    assert (Ne : errors_of r got <> [] /\ ans r (Some got)).
    { apply Forall_app in W as [_ W]. inversion W as [|? ? Hw _]. destruct Hw. auto. }
    exists dn, (bl ++ [(r, got)]), []. cbn [cl_todo cl_closed cl_chan cl_lock cl_workers cl_out cl_count]. rewrite ?flat_map_mid; cbn [held reported writing app].
    split; [exact P|split; [exact Cn|split; [|split; [|split; [exact D|split; [|split; [|split; [exact Cl|]]]]]]]].
    + cbn [flat_map]. unfold strings at 2. cbn [fst snd]. rewrite O, !app_nil_r.
      destruct (errors_of r got) as [|e es]; [destruct Ne; contradiction|]. reflexivity.
    + apply perm_add. exact B.
    + eapply swap_wok; [|exact W]. intros _. apply Ne.
    + eapply done_mid; [discriminate|exact Dn].
    + rewrite E1, E2. auto.
  - (* count *)
    assert (A : ans r (Some got)). { apply Forall_app in W as [_ W]. inversion W as [|? ? Hw _]. exact Hw. }
    exists ((r, got) :: dn), bl, part. cbn [cl_todo cl_closed cl_chan cl_lock cl_workers cl_out cl_count]. rewrite ?flat_map_mid; cbn [held reported writing app map fst length].
    split; [|split; [f_equal; exact Cn|split; [exact O|split; [|split; [constructor; [exact A|exact D]|split; [|split; [|split; [exact Cl|exact L]]]]]]]].
    + rewrite P. rewrite <- !app_assoc. cbn. rewrite app_assoc. etransitivity; [symmetry; apply Permutation_middle|]. rewrite <- app_assoc. reflexivity.
    + rewrite B. rewrite app_assoc. etransitivity; [symmetry; apply Permutation_middle|]. rewrite <- app_assoc. reflexivity.
    + eapply swap_wok; [|exact W]. cbn. auto.
    + eapply done_mid; [discriminate|exact Dn].
Qed.
Lemma inv_run threads rows n s : cli_run threads n (cli_start threads rows) s -> inv rows s.
Proof.
  intros R. remember (cli_start threads rows) as s0 eqn:E. revert E. induction R as [s|n s1 s2 s3 R IH St]; intros ->; [apply inv_start|].
  eapply inv_step; [apply IH; reflexivity|exact St].
Qed.

(** ** What is written *)
Lemma messages_lines : forall ls ws gs, exists out, lines lower (combine (combine ls ws) gs) out /\
  out = concat (flat_map (fun e => [bs "* "; e; nl]) (messages lower ls ws gs)).
Proof.
  induction ls as [|l ls IH]; intros [|w ws] [|g gs]; try (exists []; split; [constructor|reflexivity]).
  destruct (IH ws gs) as (out & L & E). cbn [combine messages]. unfold message.
  destruct ((0 <? length w) && negb (scmp lower g w)) eqn:C.
  - apply andb_prop in C as [C1 C2]. eexists. split.
    + apply LN_wrong; [|exact L]. split; [intros ->; discriminate C1|]. intros X. apply Bool.negb_true_iff in C2. unfold scmp in C2.
      rewrite X, (proj2 (beqs_eq _ _) eq_refl) in C2. discriminate.
    + rewrite E. cbn [app flat_map concat]. rewrite <- !app_assoc. reflexivity.
  - exists out. split; [|exact E]. apply LN_ok; [|exact L]. intros [N X]. apply Bool.andb_false_iff in C as [C|C].
    + destruct w; [contradiction|discriminate].
    + apply Bool.negb_false_iff in C. apply beqs_eq in C. contradiction.
Qed.
Lemma strings_block r got : block lower r got (concat (strings (r, got))).
Proof.
  destruct (messages_lines labels (r_want r) got) as (ls & L & E). exists ls. split; [exact L|].
  unfold strings, Model_Cli.errors_of. cbn [fst snd]. destruct (messages lower labels (r_want r) got) as [|e es].
  - left. split; [exact E|reflexivity].
  - right. split; [rewrite E; discriminate|]. unfold pieces. cbn [concat]. rewrite concat_app, <- E. cbn. reflexivity.
Qed.

Lemma concat_flat_map {A B} (f : A -> list (list B)) l : concat (flat_map f l) = concat (map (fun x => concat (f x)) l).
Proof. induction l as [|x l IH]; [reflexivity|]. cbn. rewrite concat_app, IH. reflexivity. Qed.
Lemma done_flat {B} (f : wstate -> list B) ws : f WDone = [] -> Forall (fun w => w = WDone) ws -> flat_map f ws = [].
Proof. intros E F. induction F as [|w ws -> F IH]; [reflexivity|]. cbn. rewrite E. exact IH. Qed.

Lemma finished_report threads rows n s : 0 < threads -> cli_run threads n (cli_start threads rows) s -> cli_finished s ->
  cl_count s = length rows /\
  exists ds, Permutation (map (fun d => fst (fst d)) ds) rows /\
    Forall (fun d => ans (fst (fst d)) (Some (snd (fst d))) /\ block lower (fst (fst d)) (snd (fst d)) (snd d)) ds /\
    concat (cl_out s) = concat (map snd ds).
Proof.
  intros Ht R (_ & Fc & Fw). pose proof (inv_run _ _ _ _ R) as (dn & bl & part & P & Cn & O & B & D & W & Dn & Cl & L).
  rewrite (Cl Fc) in P. rewrite (done_flat held) in P by (auto). rewrite (done_flat reported) in B by auto.
  assert (Hw : length (cl_workers s) = threads).
  { clear -R. remember (cli_start threads rows) as s0 eqn:E. revert E. induction R as [s|n s1 s2 s3 R IH St]; intros ->; [apply repeat_length|].
    specialize (IH eq_refl). destruct St; cbn in *; rewrite ?app_length in *; cbn in *; lia. }
  assert (In WDone (cl_workers s)) as I.
  { destruct (cl_workers s) as [|w ws]; [cbn in Hw; lia|]. inversion Fw; subst. left. reflexivity. }
  apply Dn in I as [_ Ch]. rewrite Ch in P. cbn in P. rewrite app_nil_r in P, B.
  assert (part = []) as ->.
  { destruct (cl_lock s); [|apply L]. destruct L as (r & got & ps & X & _). rewrite (done_flat writing) in X by auto. discriminate. }
  rewrite app_nil_r in O. split.
  - rewrite Cn. apply Permutation_length in P. rewrite map_length in P. lia.
  - exists (map (fun d => (d, concat (strings d))) bl). split; [|split].
    + rewrite map_map. cbn [fst]. rewrite P, B. reflexivity.
    + apply Forall_forall. intros x Hx. apply in_map_iff in Hx as ([r got] & <- & Hx). cbn [fst snd]. split; [|apply strings_block].
      rewrite Forall_forall in D. apply (Permutation_in _ B) in Hx. exact (D _ Hx).
    + rewrite O, map_map. cbn [snd]. apply concat_flat_map.
Qed.

(** ** Progress *)
Lemma pick (ws : list wstate) :
  (exists w1 w w2, ws = w1 ++ w :: w2 /\ w <> WIdle /\ w <> WDone /\ (forall r got, w <> WReport r got)) \/
  (exists w1 r got w2, ws = w1 ++ WReport r got :: w2 /\ flat_map writing ws = []) \/
  (exists w1 w2, ws = w1 ++ WIdle :: w2) \/
  Forall (fun w => w = WDone) ws.
Proof.
  induction ws as [|w ws IH]; [right; right; right; constructor|].
  destruct w as [|r|r got|r got ps|r got|];
    try (left; eexists [], _, ws; split; [reflexivity|]; split; [discriminate|]; split; [discriminate|intros ? ?; discriminate]).
  - destruct IH as [(w1 & w & w2 & -> & H)|[(w1 & r & got & w2 & -> & H)|_]].
    + left. exists (WIdle :: w1), w, w2. auto.
    + right. left. exists (WIdle :: w1), r, got, w2. auto.
    + right. right. left. exists [], ws. reflexivity.
  - destruct IH as [(w1 & w & w2 & -> & H)|[(w1 & r' & got' & w2 & -> & H)|H]].
    + left. exists (WReport r got :: w1), w, w2. auto.
    + right. left. exists [], r, got, (w1 ++ WReport r' got' :: w2). split; [reflexivity|exact H].
    + destruct (flat_map writing ws) as [|[[r' got'] ps'] l] eqn:E.
      * right. left. exists [], r, got, ws. split; [reflexivity|exact E].
      * left. assert (I : In (r', got', ps') (flat_map writing ws)) by (rewrite E; left; reflexivity).
        apply in_flat_map in I as (w & Iw & I). destruct w; cbn in I; try contradiction; destruct I as [I|[]]. injection I as -> -> ->.
        apply in_split in Iw as (w1 & w2 & ->). exists (WReport r got :: w1), (WWrite r' got' ps'), w2.
        split; [reflexivity|]. split; [discriminate|]. split; [discriminate|intros ? ?; discriminate].
  - destruct IH as [(w1 & w & w2 & -> & H)|[(w1 & r & got & w2 & -> & H)|[(w1 & w2 & ->)|H]]].
    + left. exists (WDone :: w1), w, w2. auto.
    + right. left. exists (WDone :: w1), r, got, w2. auto.
    + right. right. left. exists (WDone :: w1), w2. reflexivity.
    + right. right. right. constructor; auto.
Qed.

Lemma workers_length threads rows n s : cli_run threads n (cli_start threads rows) s -> length (cl_workers s) = threads.
Proof.
  intros R. remember (cli_start threads rows) as s0 eqn:E. revert E. induction R as [s|n s1 s2 s3 R IH St]; intros ->; [apply repeat_length|].
  specialize (IH eq_refl). destruct St; cbn in *; rewrite ?app_length in *; cbn in *; lia.
Qed.

Lemma progress threads rows n s : 0 < threads -> (forall r, exists a, ans r a) -> cli_run threads n (cli_start threads rows) s ->
  cl_crashed s = false -> cli_finished s \/ exists s', cli_step threads s s'.
Proof.
  intros Ht Tot R Nc. pose proof (workers_length _ _ _ _ R) as Hw. pose proof (inv_run _ _ _ _ R) as (dn & bl & part & P & Cn & O & B & D & W & Dn & Cl & L).
  destruct s as [td cl ch lk ws out cnt cr]. cbn [cl_todo cl_closed cl_chan cl_lock cl_workers cl_out cl_count cl_crashed] in *. subst cr.
  destruct (pick ws) as [(w1 & w & w2 & -> & N1 & N2 & N3)|[(w1 & r & got & w2 & -> & E)|[(w1 & w2 & ->)|F]]].
  - right. destruct w as [|r|r got|r got ps|r got|]; try contradiction.
    + destruct (Tot r) as [[got|] A]; eexists; [apply CS_analyse|apply CS_crash]; exact A.
    + destruct (N3 r got eq_refl).
    + destruct ps as [|p ps]; [|eexists; apply CS_write]. destruct lk; [eexists; apply CS_unlock|].
      destruct L as [L _]. rewrite flat_map_mid in L. apply app_eq_nil in L as [_ L]. discriminate.
    + eexists. apply CS_count.
  - right. destruct lk; [|eexists; apply CS_lock]. destruct L as (r' & got' & ps' & L & _). rewrite E in L. discriminate.
  - right. destruct ch as [|r ch]; [|eexists; apply CS_recv]. destruct cl; [eexists; apply CS_stop|].
    destruct td as [|r td]; [eexists; apply CS_close|]. eexists. apply CS_send. unfold capacity. cbn. lia.
  - left. split; [reflexivity|]. split; [|exact F]. apply Dn. destruct ws as [|w ws]; [cbn in Hw; lia|]. inversion F; subst. left. reflexivity.
Qed.

(** ** Termination *)
Definition wweight (w : wstate) : nat :=
  match w with
  | WIdle => 1 | WDone => 0 | WBusy _ => 40 | WReport _ _ => 38 | WWrite _ _ ps => 3 + length ps | WCount _ _ => 2
  end.
Definition weight (s : cli) : nat :=
  42 * length (cl_todo s) + 41 * length (cl_chan s) + list_sum (map wweight (cl_workers s)) +
  (if cl_closed s then 0 else 1) + (if cl_crashed s then 0 else 1).
Lemma messages_length : forall ls ws gs, length (messages lower ls ws gs) <= length ls.
Proof.
  induction ls as [|l ls IH]; intros [|w ws] [|g gs]; cbn; try lia. rewrite app_length. specialize (IH ws gs).
  unfold message. destruct (_ && _); cbn [length]; lia.
Qed.
Lemma pieces_length r got : length (pieces r (errors_of r got)) <= 33.
Proof.
  unfold pieces. cbn [length]. rewrite app_length. pose proof (messages_length labels (r_want r) got) as H. change (length labels) with 10 in H.
  change (messages lower labels (r_want r) got) with (errors_of r got) in H.
  assert (E : length (flat_map (fun e => [bs "* "; e; nl]) (errors_of r got)) = 3 * length (errors_of r got)).
  { clear H. induction (errors_of r got) as [|e es IH]; [reflexivity|]. cbn [flat_map]. rewrite app_length, IH. cbn [length]. lia. }
  rewrite E. cbn [length]. lia.
Qed.
Lemma weight_mid w1 w w2 : list_sum (map wweight (w1 ++ w :: w2)) = list_sum (map wweight w1) + (wweight w + list_sum (map wweight w2)).
Proof. rewrite map_app, list_sum_app. reflexivity. Qed.
Lemma step_weight threads s s' : cli_step threads s s' -> weight s' < weight s.
Proof.
  intros St. destruct St; unfold weight; cbn [cl_todo cl_closed cl_chan cl_workers cl_crashed]; rewrite ?weight_mid; cbn [wweight length];
    try (rewrite ?app_length; cbn [length]; lia).
  - destruct (errors_of r got); cbn [wweight]; lia.
  - pose proof (pieces_length r got). lia.
Qed.
Lemma run_bound threads rows n s : cli_run threads n (cli_start threads rows) s -> n + weight s <= 42 * length rows + threads + 2.
Proof.
  intros R. remember (cli_start threads rows) as s0 eqn:E. revert E. induction R as [s|n s1 s2 s3 R IH St]; intros ->.
  - unfold weight, cli_start. cbn [cl_todo cl_closed cl_chan cl_workers cl_crashed length].
    assert (X : list_sum (map wweight (repeat WIdle threads)) = threads) by (clear; induction threads as [|k IH]; [reflexivity|cbn [repeat map wweight]; change (list_sum (1 :: map wweight (repeat WIdle k))) with (1 + list_sum (map wweight (repeat WIdle k))); lia]).
    rewrite X. lia.
  - specialize (IH eq_refl). apply step_weight in St. lia.
Qed.

(** Every run can be completed, and cannot be prolonged for ever. *)
Lemma completes threads rows : 0 < threads -> (forall r, exists got, ans r (Some got)) -> (forall r, ~ ans r None) ->
  forall n s, cli_run threads n (cli_start threads rows) s ->
  n <= 42 * length rows + threads + 2 /\ (cli_finished s \/ exists s', cli_step threads s s').
Proof.
  intros Ht Tot Nn n s R. split; [pose proof (run_bound _ _ _ _ R); lia|].
  assert (cl_crashed s = false).
  { clear -R Nn. remember (cli_start threads rows) as s0 eqn:E. revert E. induction R as [s|n s1 s2 s3 R IH St]; intros ->; [reflexivity|].
    destruct St; try reflexivity. destruct (Nn _ H). }
  apply (progress threads rows n); auto. intros r. destruct (Tot r) as [got A]. exists (Some got). exact A.
Qed.

Lemma run_ends threads rows : 0 < threads -> (forall r, exists got, ans r (Some got)) -> (forall r, ~ ans r None) ->
  forall n s, cli_run threads n (cli_start threads rows) s -> exists m s', cli_run threads m (cli_start threads rows) s' /\ n <= m /\ cli_finished s'.
Proof.
  intros Ht Tot Nn n s. remember (42 * length rows + threads + 2 - n) as k eqn:Ek. revert n s Ek.
  induction k as [|k IH]; intros n s Ek R; destruct (completes threads rows Ht Tot Nn n s R) as [Le [F|[s' St]]].
  - exists n, s. auto.
  - pose proof (run_bound _ _ _ _ (CR_step _ _ _ _ _ _ _ R St)). lia.
  - exists n, s. auto.
  - destruct (IH (S n) s') as (m & s2 & R2 & L2 & F); [lia|exact (CR_step _ _ _ _ _ _ _ R St)|]. exists m, s2. split; [exact R2|]. split; [lia|exact F].
Qed.

(** A row whose analysis always panics keeps every run from finishing. *)
Lemma crash threads rows r : 0 < threads -> In r rows -> (forall got, ~ ans r (Some got)) ->
  forall n s, cli_run threads n (cli_start threads rows) s -> ~ cli_finished s.
Proof.
  intros Ht I Np n s R F. destruct (finished_report threads rows n s Ht R F) as (_ & ds & P & A & _).
  symmetry in P. apply (Permutation_in _ P) in I. apply in_map_iff in I as (d & E & Id). rewrite Forall_forall in A. destruct (A d Id) as [X _].
  rewrite E in X. exact (Np _ X).
Qed.

(** Without workers nothing is ever received. *)
Lemma no_workers rows : rows <> [] -> forall n s, cli_run 0 n (cli_start 0 rows) s -> n = 0 /\ s = cli_start 0 rows /\ ~ cli_finished s /\ forall s', ~ cli_step 0 s s'.
Proof.
  intros Nr. assert (St : forall s', ~ cli_step 0 (cli_start 0 rows) s').
  { intros s' H. unfold cli_start in H. cbn [repeat] in H. inversion H; subst;
      try (exfalso; match goal with X : ?a ++ _ :: _ = _ |- _ => destruct a; discriminate X | X : _ = ?a ++ _ :: _ |- _ => destruct a; discriminate X end).
    - unfold capacity in *. cbn in *. lia.
    - contradiction. }
  intros n s R. remember (cli_start 0 rows) as s0 eqn:E. assert (n = 0 /\ s = s0) as [-> ->].
  { induction R as [s|n s1 s2 s3 R IH S2]; [auto|]. subst s1. destruct (IH eq_refl) as [-> ->]; [|destruct (St _ S2)]. exact St. }
  split; [reflexivity|]. split; [reflexivity|]. split; [|exact St]. intros (_ & X & _). subst s0. discriminate.
Qed.
End Cli.

(** ** A concrete case *)
Definition sample_answers (r : row) (a : option (list bytes)) : Prop :=
  a = Some [bs "browser"; bs "Firefox"; bs "99.0"; bs ""; bs ""; bs "UNK"; bs "UNK"; bs ""; bs "Ubuntu"; bs ""].
Definition sample_rows : list row :=
  [mkRow (bs "Ubuntu Firefox/99.0") [bs "browser"; bs "Firefox"; bs "98"; bs ""; bs ""; bs ""; bs ""; bs ""; bs "GNU/Linux"; bs ""];
   mkRow (bs "Firefox/99.0 Ubuntu") [bs "browser"; bs ""; bs "99.0"; bs ""; bs ""; bs ""; bs ""; bs ""; bs ""; bs ""]].
Lemma sample_total : (forall r, exists got, sample_answers r (Some got)) /\ (forall r, ~ sample_answers r None).
Proof. split; intros r; [eexists; reflexivity|discriminate]. Qed.
Lemma sample_finishes : exists n s, cli_run (fun b => b) sample_answers 2 n (cli_start 2 sample_rows) s /\ cli_finished s.
Proof.
  destruct sample_total as [A B].
  destruct (run_ends (fun b => b) sample_answers 2 sample_rows ltac:(lia) A B 0 _ (CR_refl _ _ _ _)) as (m & s & R & _ & F).
  exists m, s. auto.
Qed.
Lemma sample_block : block (fun b => b) (mkRow (bs "Ubuntu Firefox/99.0") [bs "browser"; bs "Firefox"; bs "98"; bs ""; bs ""; bs ""; bs ""; bs ""; bs "GNU/Linux"; bs ""])
  [bs "browser"; bs "Firefox"; bs "99.0"; bs ""; bs ""; bs "UNK"; bs "UNK"; bs ""; bs "Ubuntu"; bs ""]
  (bs "Ubuntu Firefox/99.0" ++ [x0a] ++ bs "* browser version mismatch: need '98' got '99.0'" ++ [x0a] ++
   bs "* OS mismatch: need 'GNU/Linux' got 'Ubuntu'" ++ [x0a] ++ [x0a]).
Proof. exact (strings_block (fun b => b) _ _). Qed.

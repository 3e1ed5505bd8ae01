(** Proofs about [uaxpl] as a program. *)
From Verif Require Import Model_Base Model_CacheEntry Model_Ctx Model_Parse Model_Single Model_Cli Model_Main Spec_Single Spec_Cli
  Proof_Base Proof_Single Proof_Cli.
From Coq Require Import Permutation Lia.
Open Scope nat_scope.

Lemma wf_same fs p c : write_file fs p c p = Some c.
Proof. unfold write_file. rewrite (proj2 (beqs_eq p p) eq_refl). reflexivity. Qed.
Lemma wf_other fs p c q : q <> p -> write_file fs p c q = fs q.
Proof. intros H. unfold write_file. destruct (beqs q p) eqn:E; [apply beqs_eq in E; congruence|reflexivity]. Qed.

(** What [pass_url] does to the files. *)
Lemma pass_url_files fs net wr uri fs' r p : pass_url fs net wr uri = (fs', r) ->
  fs' p = fs p \/ exists s, segment uri s /\ p = bs "/tmp/uaxpl_" ++ s /\ fs p = None /\ fs' p = net uri.
Proof.
  unfold pass_url. destruct (behind_slash uri) as [s|] eqn:B; [|intros E; injection E as <- <-; left; reflexivity].
  destruct (fs (bs "/tmp/uaxpl_" ++ s)) as [c|] eqn:F; [intros E; injection E as <- <-; left; reflexivity|].
  destruct (net uri) as [body|] eqn:Nt; [|intros E; injection E as <- <-; left; reflexivity].
  destruct wr; [|intros E; injection E as <- <-; left; reflexivity].
  intros E. injection E as <- _.
  destruct (beqs p (bs "/tmp/uaxpl_" ++ s)) eqn:P.
  - apply beqs_eq in P. right. exists s. split; [apply behind_segment; exact B|]. split; [exact P|]. subst p. split; [exact F|].
    rewrite wf_same. reflexivity.
  - left. apply wf_other. intros X. rewrite X in P. rewrite (proj2 (beqs_eq _ _) eq_refl) in P. discriminate P.
Qed.

Section Main.
Variable T : tables.
Variable lower : bytes -> bytes.
Variable ans : row -> option (list bytes) -> Prop.
Variable json : bytes -> option (list row).
Variable net : bytes -> option bytes.
Variable wr : bool.

Lemma mode_files o fs fs' r p : mode_input net wr o fs = (fs', r) ->
  fs' p = fs p \/ op_file o = [] /\ exists s, segment (op_url o) s /\ p = bs "/tmp/uaxpl_" ++ s /\ fs p = None /\ fs' p = net (op_url o).
Proof.
  unfold mode_input. destruct (op_file o) as [|b f] eqn:E.
  - intros H. destruct (pass_url_files fs net wr (op_url o) fs' r p H) as [X|X]; [left; exact X|right; split; [reflexivity|exact X]].
  - intros H. injection H as <- _. left. reflexivity.
Qed.

Lemma other_files o opens fs fs' v : uaxpl T lower ans json net wr o opens fs fs' v -> forall p, p <> op_out o ->
  fs' p = fs p \/
  (op_ua o = [] /\ op_file o = [] /\ exists s, segment (op_url o) s /\ p = bs "/tmp/uaxpl_" ++ s /\ fs p = None /\ fs' p = net (op_url o)).
Proof.
  intros H p Hp. destruct H as [_ _ _|_ _|ev out c b _ _ _|fs1 U _ _ M|fs1 contents out v U _ _ M _].
  - left. reflexivity.
  - left. reflexivity.
  - left. apply wf_other, Hp.
  - destruct (mode_files o _ fs1 None p M) as [E|(F & s & S & P & E & E')].
    + left. rewrite E. apply wf_other, Hp.
    + right. split; [exact U|]. split; [exact F|]. exists s. split; [exact S|]. split; [exact P|].
      rewrite wf_other in E by exact Hp. split; [exact E|exact E'].
  - destruct (mode_files o _ fs1 _ p M) as [E|(F & s & S & P & E & E')].
    + left. rewrite wf_other by exact Hp. rewrite E. apply wf_other, Hp.
    + right. split; [exact U|]. split; [exact F|]. exists s. split; [exact S|]. split; [exact P|].
      rewrite wf_other in E by exact Hp. rewrite wf_other by exact Hp. split; [exact E|exact E'].
Qed.

Lemma file_mode o opens fs fs' : op_ua o = [] -> op_file o <> [] -> op_out o <> op_file o -> (0 < op_threads o)%Z ->
  uaxpl T lower ans json net wr o opens fs fs' Done ->
  exists contents rows out, fs (op_file o) = Some contents /\ fs' (op_file o) = Some contents /\ json contents = Some rows /\
    fs' (op_out o) = Some out /\
    exists ds, Permutation (map (fun d => fst (fst d)) ds) rows /\
      Forall (fun d => ans (fst (fst d)) (Some (snd (fst d))) /\ block lower (fst (fst d)) (snd (fst d)) (snd d)) ds /\
      out = concat (map snd ds).
Proof.
  intros U F D Th H. inversion H as [| |ev out c b U' |fs1 U' |fs1 contents out v _ _ _ M R]; subst; try congruence.
  unfold mode_input in M. destruct (op_file o) as [|x f] eqn:E; [congruence|]. rewrite <- E in *.
  assert (M1 : write_file fs (op_out o) [] = fs1) by congruence.
  assert (M2 : write_file fs (op_out o) [] (op_file o) = Some contents) by congruence.
  assert (D' : op_file o <> op_out o) by congruence.
  rewrite (wf_other _ _ _ _ D') in M2. subst fs1.
  inversion R as [|rows|rows n s J Th' Rn Fin|]; subst.
  exists contents, rows, (concat (cl_out s)). split; [exact M2|]. split; [rewrite !(wf_other _ _ _ _ D'); exact M2|].
  split; [exact J|]. split; [apply wf_same|].
  exact (proj2 (finished_report lower ans (Z.to_nat (op_threads o)) rows n s ltac:(lia) Rn Fin)).
Qed.

Lemma same_file o fs fs' v : json [] = None -> op_ua o = [] -> op_file o <> [] -> op_out o = op_file o ->
  uaxpl T lower ans json net wr o true fs fs' v -> v = Failed /\ fs' (op_file o) = Some [].
Proof.
  intros J U F E H. inversion H as [U' F' _|_ X|ev out c b U' _ _|fs1 _ _ _ M|fs1 contents out v' _ _ _ M R]; subst; try congruence.
  - unfold mode_input in M. destruct (op_file o) as [|x f] eqn:Ef; [congruence|]. rewrite E in M.
    assert (M2 : write_file fs (x :: f) [] (x :: f) = None) by congruence. rewrite wf_same in M2. discriminate M2.
  - unfold mode_input in M. destruct (op_file o) as [|x f] eqn:Ef; [congruence|]. rewrite E in *.
    assert (M2 : write_file fs (x :: f) [] (x :: f) = Some contents) by congruence. rewrite wf_same in M2. injection M2 as <-.
    inversion R; subst; try congruence. split; [reflexivity|]. apply wf_same.
Qed.
End Main.

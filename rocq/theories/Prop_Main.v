(** Property C85: the files of a run of uaxpl. *)
From Verif Require Import Model_Base Model_CacheEntry Model_Ctx Model_Parse Model_Shipped Model_Compiler Model_Built Model_Single Model_Cli Model_Main Data_Tiny
  Spec_Single Spec_Cli Proof_Cli Proof_Main.
From Coq Require Import Permutation.

(** A run changes its output file and, in URL mode, adds the download; no other file. *)
Theorem C85_other_files : forall T lower ans json net wr o opens fs fs' v, uaxpl T lower ans json net wr o opens fs fs' v ->
  forall p, p <> op_out o -> fs' p = fs p \/
  (op_ua o = [] /\ op_file o = [] /\ exists s, segment (op_url o) s /\ p = bs "/tmp/uaxpl_" ++ s /\ fs p = None /\ fs' p = net (op_url o)).
Proof. exact other_files. Qed.
Print Assumptions C85_other_files.

(** A batch from a file, with another file for the output: the reports are those of the rows in the file as it was. *)
Theorem C85_file_mode : forall T lower ans json net wr o opens fs fs', op_ua o = [] -> op_file o <> [] -> op_out o <> op_file o ->
  (0 < op_threads o)%Z -> uaxpl T lower ans json net wr o opens fs fs' Done ->
  exists contents rows out, fs (op_file o) = Some contents /\ fs' (op_file o) = Some contents /\ json contents = Some rows /\
    fs' (op_out o) = Some out /\
    exists ds, Permutation (map (fun d => fst (fst d)) ds) rows /\
      Forall (fun d => ans (fst (fst d)) (Some (snd (fst d))) /\ block lower (fst (fst d)) (snd (fst d)) (snd d)) ds /\
      out = concat (map snd ds).
Proof. exact file_mode. Qed.
Print Assumptions C85_file_mode.

(** The file named for input and output is emptied before it is read, whatever it holds. *)
Theorem C85_same_file : forall T lower ans json net wr o fs fs' v, json [] = None -> op_ua o = [] -> op_file o <> [] -> op_out o = op_file o ->
  uaxpl T lower ans json net wr o true fs fs' v -> v = Failed /\ fs' (op_file o) = Some [].
Proof. exact same_file. Qed.
Print Assumptions C85_same_file.

Definition sample_json (b : bytes) : option (list row) := match b with [] => None | _ :: _ => Some sample_rows end.
Definition sample_files : files := fun p => if beqs p (bs "in.json") then Some (bs "[...]") else None.
Definition to_other : options := mkOptions [] (bs "in.json") [] (bs "out.diff.txt") 2.
Definition to_itself : options := mkOptions [] (bs "in.json") [] (bs "in.json") 2.
Example C85_case : exists fs', uaxpl (built tiny_compiler tiny) (fun b => b) sample_answers sample_json (fun _ => None) true to_other true sample_files fs' Done.
Proof.
  destruct sample_finishes as (n & s & R & F). eexists.
  eapply UX_batch with (contents := bs "[...]"); [reflexivity|left; discriminate|reflexivity|reflexivity|].
  eapply PR_done; [reflexivity|discriminate|exact R|exact F].
Qed.
Theorem C85_same_file_refuted : exists T lower ans json net wr o fs fs' v contents rows,
  fs (op_file o) = Some contents /\ json contents = Some rows /\ rows <> [] /\
  uaxpl T lower ans json net wr o true fs fs' v /\ v = Failed /\ fs' (op_file o) = Some [].
Proof.
  exists (built tiny_compiler tiny), (fun b => b), sample_answers, sample_json, (fun _ => None), true, to_itself, sample_files.
  do 2 eexists. exists (bs "[...]"), sample_rows. split; [reflexivity|]. split; [reflexivity|]. split; [discriminate|]. split.
  - eapply UX_batch with (contents := []); [reflexivity|left; discriminate|reflexivity|reflexivity|]. apply PR_json. reflexivity.
  - split; reflexivity.
Qed.
Print Assumptions C85_same_file_refuted.

(** Property C84: what a run of uaxplc does. *)
From Verif Require Import Model_Base Model_Ctx Model_Compiler Model_Built Model_Emit Model_Uaxplc Data_Tiny Spec_Database Spec_Go Spec_Emit Spec_Uaxplc
  Proof_Uaxplc Proof_Written.
Open Scope nat_scope.

(** A run changes at most one file, the target of the flags, and only after the whole input was read. *)
Theorem C84_touches : forall W K args p, touched_file (snd (uaxplc W K args)) p ->
  exists m i t, asks args m i t /\ In m [bs "client"; bs "os"; bs "device"; bs "vendor"; bs "hint"] /\ target_of m t p /\
    (forall q, resolves W i q -> input_read W m q) /\
    (fst (uaxplc W K args) = Finished <-> w_writes W p = true).
Proof. exact touches. Qed.
Print Assumptions C84_touches.

(** A run that ends well wrote its file, except for the module "bot". *)
Theorem C84_finishes : forall W K args, fst (uaxplc W K args) = Finished ->
  exists m i t, asks args m i t /\
    ((m = bs "bot" /\ snd (uaxplc W K args) = Untouched) \/
     (In m [bs "client"; bs "os"; bs "device"; bs "vendor"; bs "hint"] /\
      exists p, touched_file (snd (uaxplc W K args)) p)).
Proof. exact finishes. Qed.
Print Assumptions C84_finishes.

(** Five runs, one for each module, leave the source of the tables of the database. *)
Theorem C84_release : forall W K D ci oi di vi hi cp op dp vp hp ac ao ad av ah tc to_ td tv th pc po pd pv ph sc so sd sv sh,
  keeps_meaning (w_format W) ->
  resolves W ci cp -> resolves W oi op -> resolves W di dp -> resolves W vi vp -> resolves W hi hp ->
  holds W cp op dp vp hp D -> writable K D ->
  Forall one_line ac -> Forall one_line ao -> Forall one_line ad -> Forall one_line av -> Forall one_line ah ->
  asks ac (bs "client") ci tc -> asks ao (bs "os") oi to_ -> asks ad (bs "device") di td ->
  asks av (bs "vendor") vi tv -> asks ah (bs "hint") hi th ->
  uaxplc W K ac = (Finished, Wrote pc sc) -> uaxplc W K ao = (Finished, Wrote po so) ->
  uaxplc W K ad = (Finished, Wrote pd sd) -> uaxplc W K av = (Finished, Wrote pv sv) ->
  uaxplc W K ah = (Finished, Wrote ph sh) ->
  source_of (built K D) sc so sd sv sh.
Proof. exact release_resolved. Qed.
Print Assumptions C84_release.

(** A directory without YAML files, such as a misspelt one, is no error: the target is overwritten with empty tables. *)
Theorem C84_empty_refuted : exists W K args p s o, keeps_meaning (w_format W) /\ (forall q, w_read W q = None) /\
  uaxplc W K args = (Finished, Wrote p s) /\ declares go_client s o /\ co_idx o = [] /\ co_re o = [].
Proof. exact empty_refuted. Qed.
Print Assumptions C84_empty_refuted.

(** A tilde inside a path is replaced too: a file that is there is not found. *)
Theorem C84_tilde_refuted : exists W K args m i t, asks args m i t /\ m = bs "os" /\ file_holds W (yaml_os W) i [] /\
  (forall p, w_writes W p = true) /\ uaxplc W K args = (Fatal, Untouched).
Proof. exact tilde_refuted. Qed.
Print Assumptions C84_tilde_refuted.

(** A world with the small database in the home directory; each file contains its own name. *)
Definition paths (dir : bytes) (names : list bytes) : list bytes := map (fun n => bs "/root/" ++ dir ++ bs "/" ++ n ++ bs ".yml") names.
Definition client_paths : list bytes := paths (bs "client") [bs "a"; bs "b"; bs "c"; bs "d"; bs "e"; bs "f"; bs "g"].
Definition device_paths : list bytes := paths (bs "device") [bs "a"; bs "b"; bs "c"; bs "d"; bs "e"; bs "f"; bs "g"; bs "h"].
Definition hint_paths : list bytes := paths (bs "hints") [bs "apps"; bs "browsers"].
Definition pick {Y} (paths : list bytes) (ys : list Y) (body : bytes) : option Y :=
  option_map snd (find (fun py => beqs (fst py) body) (combine paths ys)).
Definition home : world :=
  mkWorld (bs "/root")
    (fun g => if beqs g (bs "/root/client/*.yml") then Some client_paths else if beqs g (bs "/root/device/*.yml") then Some device_paths
              else if beqs g (bs "/root/hints/*.yml") then Some hint_paths else Some [])
    Some
    (pick client_paths (db_client tiny)) (fun _ => Some (db_os tiny)) (pick device_paths (db_device tiny))
    (fun _ => Some (db_vendor tiny)) (pick hint_paths (db_hint tiny)) Some (fun _ => true).
Definition args_client : list bytes := [bs "-module=client"; bs "-input=~/client"].
Definition args_os : list bytes := [bs "-m"; bs "client"; bs "--mod"; bs "os"; bs "-in"; bs "/root/oss.yml"; bs "ignored"].
Definition args_device : list bytes := [bs "-module=device"; bs "-i=~/device"; bs "--"; bs "-t=x"].
Definition args_vendor : list bytes := [bs "-t"; bs "v.go"; bs "-m=vendor"; bs "-i=vendors.yml"].
Definition args_hint : list bytes := [bs "-module=hint"; bs "-input=~/hints"].

Example C84_release_case : keeps_meaning (w_format home) /\ resolves home (bs "~/client") (bs "/root/client") /\
  holds home (bs "/root/client") (bs "/root/oss.yml") (bs "/root/device") (bs "vendors.yml") (bs "/root/hints") tiny /\
  writable tiny_compiler tiny /\
  asks args_client (bs "client") (bs "~/client") [] /\ asks args_os (bs "os") (bs "/root/oss.yml") [] /\
  asks args_device (bs "device") (bs "~/device") [] /\ asks args_vendor (bs "vendor") (bs "vendors.yml") (bs "v.go") /\
  asks args_hint (bs "hint") (bs "~/hints") [].
Proof.
  split; [exact keeps_same|]. split.
  { right. exists (bs "/client"). split; [reflexivity|]. split; [|reflexivity]. intros H. repeat destruct H as [H|H]; try discriminate H. exact H. }
  assert (L : forall l, forallb (fun s => negb (existsb (beq x0a) s)) l = true -> Forall one_line l).
  { intros l H. rewrite forallb_forall in H. apply Forall_forall. intros s Hs X. specialize (H s Hs).
    assert (E : existsb (beq x0a) s = true) by (apply existsb_exists; exists x0a; split; [exact X|reflexivity]). rewrite E in H. discriminate H. }
  split.
  { split; [|split; [|split; [|split]]].
    - exists client_paths. split; [|apply L; vm_compute; reflexivity]. split; [vm_compute; reflexivity|].
      repeat (constructor; [eexists; split; [reflexivity|]; split; [discriminate|vm_compute; reflexivity]|]). constructor.
    - eexists. split; [reflexivity|]. split; [discriminate|reflexivity].
    - exists device_paths. split; [|apply L; vm_compute; reflexivity]. split; [vm_compute; reflexivity|].
      repeat (constructor; [eexists; split; [reflexivity|]; split; [discriminate|vm_compute; reflexivity]|]). constructor.
    - eexists. split; [reflexivity|]. split; [discriminate|reflexivity].
    - exists hint_paths. split; [|apply L; vm_compute; reflexivity]. split; [vm_compute; reflexivity|].
      repeat (constructor; [eexists; split; [reflexivity|]; split; [discriminate|vm_compute; reflexivity]|]). constructor. }
  split; [exact tiny_writable|].
  repeat split; apply asks_iff; eexists; (split; [vm_compute; reflexivity|]); repeat split; vm_compute; reflexivity.
Qed.
(** What the runs do, in short: how each ends, and the file it writes. *)
Definition summary (r : ended * effect) : ended * option bytes :=
  (fst r, match snd r with Wrote p _ => Some p | _ => None end).
Example C84_runs : map (fun a => summary (uaxplc home tiny_compiler a)) [args_client; args_os; args_device; args_vendor; args_hint] =
  [(Finished, Some (bs "client_repo.go")); (Finished, Some (bs "os_repo.go")); (Finished, Some (bs "device_repo.go"));
   (Finished, Some (bs "v.go")); (Finished, Some (bs "hint_repo.go"))].
Proof. vm_compute. reflexivity. Qed.
Example C84_other : map (fun a => summary (uaxplc home tiny_compiler a))
    [[]; [bs "-m=engine"; bs "-i=x"]; [bs "-m=os"]; [bs "-m=bot"; bs "-i=x"]; [bs "-h"]; [bs "-x"]; [bs "-m"]] =
  [(Fatal, None); (Fatal, None); (Fatal, None); (Finished, None); (Help, None); (Usage, None); (Usage, None)].
Proof. vm_compute. reflexivity. Qed.

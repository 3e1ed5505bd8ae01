(** What a run of [uaxplc] should do. *)
From Verif Require Import Model_Base Model_Ctx Model_Compiler Model_Built Model_Uaxplc Spec_Go Spec_Emit.

(** ** The command line *)

(** The four ways to write a flag. *)
Inductive setting : bytes -> bytes -> list bytes -> Prop :=
| S_short : forall n v, setting n v [bs "-" ++ n; v]
| S_long : forall n v, setting n v [bs "--" ++ n; v]
| S_short_eq : forall n v, setting n v [bs "-" ++ n ++ bs "=" ++ v]
| S_long_eq : forall n v, setting n v [bs "--" ++ n ++ bs "=" ++ v].
(** Where the flags end: nowhere, at "--", or at an argument that is no flag. *)
Definition flags_end (args : list bytes) : Prop :=
  args = [] \/ exists a r, args = a :: r /\ (a = bs "--" \/ a = bs "-" \/ ~ exists s, a = bs "-" ++ s).
Inductive says (known : list bytes) : list bytes -> list (bytes * bytes) -> Prop :=
| Says_end : forall args, flags_end args -> says known args []
| Says_set : forall n v a args l, In n known -> setting n v a -> says known args l -> says known (a ++ args) ((n, v) :: l).

(** The last value given under one of the names, or nothing. *)
Definition last_value (names : list bytes) (l : list (bytes * bytes)) (v : bytes) : Prop :=
  (exists l1 n l2, l = l1 ++ (n, v) :: l2 /\ In n names /\ forall n' v', In (n', v') l2 -> ~ In n' names) \/
  (v = [] /\ forall n' v', In (n', v') l -> ~ In n' names).

Definition asks (args : list bytes) (m input target : bytes) : Prop :=
  exists l, says [bs "module"; bs "mod"; bs "m"; bs "input"; bs "in"; bs "i"; bs "target"; bs "t"] args l /\
    last_value [bs "module"; bs "mod"; bs "m"] l m /\ last_value [bs "input"; bs "in"; bs "i"] l input /\
    last_value [bs "target"; bs "t"] l target.

(** ** The database *)
Definition file_holds {Y} (W : world) (yaml : bytes -> option Y) (path : bytes) (y : Y) : Prop :=
  exists body, w_read W path = Some body /\ body <> [] /\ yaml body = Some y.
Definition dir_holds {Y} (W : world) (yaml : bytes -> option Y) (dir : bytes) (paths : list bytes) (ys : list Y) : Prop :=
  w_glob W (dir ++ bs "/*.yml") = Some paths /\ Forall2 (file_holds W yaml) paths ys.

(** Inputs name the parts of a database; file names are single lines. *)
Definition holds (W : world) (ci oi di vi hi : bytes) (D : database) : Prop :=
  (exists ps, dir_holds W (yaml_client W) ci ps (db_client D) /\ Forall one_line ps) /\
  file_holds W (yaml_os W) oi (db_os D) /\
  (exists ps, dir_holds W (yaml_device W) di ps (db_device D) /\ Forall one_line ps) /\
  file_holds W (yaml_vendor W) vi (db_vendor D) /\
  (exists ps, dir_holds W (yaml_hint W) hi ps (db_hint D) /\ Forall one_line ps).

(** What a path on the command line stands for: a tilde in front is the home directory. *)
Definition no_tilde (p : bytes) : Prop := ~ In x7e p.
Definition resolves (W : world) (i p : bytes) : Prop :=
  (no_tilde i /\ p = i) \/ exists r, i = bs "~" ++ r /\ no_tilde r /\ p = w_home W ++ r.
(** All files the input stands for could be read. *)
Definition input_read (W : world) (m p : bytes) : Prop :=
  (m = bs "client" /\ exists ps ys, dir_holds W (yaml_client W) p ps ys) \/
  (m = bs "os" /\ exists y, file_holds W (yaml_os W) p y) \/
  (m = bs "device" /\ exists ps ys, dir_holds W (yaml_device W) p ps ys) \/
  (m = bs "vendor" /\ exists y, file_holds W (yaml_vendor W) p y) \/
  (m = bs "hint" /\ exists ps ys, dir_holds W (yaml_hint W) p ps ys).
(** The file a run changed. *)
Definition touched_file (e : effect) (p : bytes) : Prop :=
  match e with Wrote q _ => q = p | Torn q => q = p | Untouched => False end.

(** [format.Source] keeps what a file declares. *)
Definition keeps_meaning (f : bytes -> option bytes) : Prop :=
  forall src dst, f src = Some dst ->
    (forall o, declares go_client src o -> declares go_client dst o) /\
    (forall o, declares go_os src o -> declares go_os dst o) /\
    (forall o, declares go_device src o -> declares go_device dst o) /\
    (forall o, declares go_vendor src o -> declares go_vendor dst o) /\
    (forall o, declares go_hint src o -> declares go_hint dst o).

Definition default_target (m : bytes) : bytes := m ++ bs "_repo.go".
Definition target_of (m target : bytes) (p : bytes) : Prop :=
  (target = [] /\ p = default_target m) \/ (target <> [] /\ p = target).

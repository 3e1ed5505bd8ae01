(** Programs that start: every pattern of the generated files is accepted by [regexp.MustCompile]. *)
From Verif Require Import Model_Base Model_Ctx Model_Regex Model_Compiler Model_Built Spec_Database.

(** A pattern of the modelled syntax which does not set the flag for letter case itself. *)
Definition pattern (p : bytes) : Prop := parse_re p <> None /\ forall q, p <> bs "(?i)" ++ q.
(** The pattern made of the value [rs] of a database. *)
Definition made (repl : bytes -> option bytes) (rs p : bytes) : Prop :=
  exists n, normalize rs = Some (Ok n) /\ p = match repl n with Some x => x | None => n end.
(** The patterns that [uaxplc] checks. *)
Inductive asked (K : compiler) (D : database) (p : bytes) : Prop :=
| AskClient f y : In f (db_client D) -> In y f -> made (k_client K) (yc_regex y) p -> asked K D p
| AskOS y : In y (db_os D) -> made (k_os K) (yo_regex y) p -> asked K D p
| AskVersion y v : In y (db_os D) -> In v (yo_versions y) -> made (fun _ => None) (yv_regex v) p -> asked K D p
| AskBrand f n b rs : In f (db_device D) -> In (n, b) f -> rs = yb_regex b \/ k_static K (yb_regex b) = Some rs ->
    made (k_device K) rs p -> asked K D p
| AskModel f n b m : In f (db_device D) -> In (n, b) f -> In m (yb_models b) -> made (k_device K) (ym_regex m) p -> asked K D p.
(** Those accepted are of the modelled syntax. *)
Definition checks (K : compiler) (D : database) : Prop := forall p, asked K D p -> k_valid K p = true -> pattern p.

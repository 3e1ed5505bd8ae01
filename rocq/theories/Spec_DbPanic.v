(** When the library built from a database panics. *)
From Verif Require Import Model_Base Model_Ctx Model_Parse Model_Regex Model_Compiler Model_Built Spec_Getters Spec_Select Spec_Compiler Spec_Database.

(** [m] holds the positions of a match, two for each group; group [n] is not among them although [n] is below their
    number. *)
Definition dangling (m : list Z) (n : Z) : Prop :=
  (0 <= n < Z.of_nat (length m))%Z /\ (Z.of_nat (length m) <= 2 * n + 1)%Z.

Section DB.
Variable K : compiler.
Variable D : database.
(** The version of the client entry refers to a missing group. *)
Definition client_trouble (ua : bytes) (y : yclient) : Prop :=
  exists m n, db_finds K (k_client K) word_start (yc_regex y) ua m /\ group_ref (yc_version y) n /\ dangling m n.
(** The name or the version of the entry of the operating system does, or the version of the sub-entry that applies. *)
Inductive os_trouble (ua : bytes) (y : yos) : Prop :=
| OT_name m n : db_finds K (k_os K) any_case (yo_regex y) ua m -> group_ref (yo_name y) n -> dangling m n -> os_trouble ua y
| OT_version m n : db_finds K (k_os K) any_case (yo_regex y) ua m -> yo_versions y = [] -> group_ref (yo_version y) n ->
    dangling m n -> os_trouble ua y
| OT_list m v mv n : db_finds K (k_os K) any_case (yo_regex y) ua m -> yo_versions y <> [] -> first (ver_hit K ua) (yo_versions y) v ->
    db_finds K (fun _ => None) any_case (yv_regex v) ua mv -> group_ref (yv_version v) n -> dangling mv n -> os_trouble ua y.

(** Files without entries make the library panic; so do templates that end in a dollar, and an engine whose pattern
    may match without its first group. *)
Definition client_files : Prop := length (db_client D) = 7 /\ Forall (fun f => f <> []) (db_client D).
Definition device_files : Prop := length (db_device D) = 8 /\ Forall (fun f => f <> []) (db_device D).
Definition tidy_template (t : bytes) : Prop := forall a, t <> a ++ [x24].
Definition tidy_brand (x : bytes * ybrand) : Prop :=
  tidy_template (yb_model (snd x)) /\ Forall (fun m => tidy_template (ym_model m)) (yb_models (snd x)).
Definition tidy_engines : Prop := forall en ua m, known_engine D en -> re_find (engine_regex en) ua = Some m ->
  exists s, captured m 1 ua s.
End DB.
Definition os_getters : list getter := [GOS; GOSVersion; GOSVersionString].
Definition device_getters : list getter := [GDeviceType; GBrand; GModel].

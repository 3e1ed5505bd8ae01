(** Two readings of one database: they may differ only in the order in which Go ranges over its maps. *)
From Coq Require Import Permutation List.
From Verif Require Import Model_Base Model_Ctx Model_Compiler Model_Built.

(** The same map: keys are different, and the pairs are the same. *)
Definition same_map {A} (m m' : list (bytes * A)) : Prop := NoDup (map fst m) /\ Permutation m m'.

Definition same_engine (e e' : option yengine) : Prop :=
  match e, e' with
  | None, None => True
  | Some e, Some e' => ye_default e = ye_default e' /\ same_map (ye_versions e) (ye_versions e')
  | _, _ => False
  end.
Definition same_client (y y' : yclient) : Prop :=
  yc_regex y = yc_regex y' /\ yc_name y = yc_name y' /\ yc_version y = yc_version y' /\ yc_url y = yc_url y' /\
  yc_type y = yc_type y' /\ same_engine (yc_engine y) (yc_engine y').

Record same_database (D D' : database) : Prop := mkSame {
  sd_client : Forall2 (Forall2 same_client) (db_client D) (db_client D');
  sd_os : db_os D = db_os D';
  sd_device : Forall2 same_map (db_device D) (db_device D');
  sd_vendor : same_map (db_vendor D) (db_vendor D');
  sd_hint : Forall2 same_map (db_hint D) (db_hint D')
}.

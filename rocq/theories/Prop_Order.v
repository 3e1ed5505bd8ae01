(** C69: compiling a database twice gives the same tables. *)
From Verif Require Import Model_Base Model_Ctx Model_Compiler Model_Built Data_Tiny Spec_Order Proof_Order.

(** The tables do not depend on the order in which Go ranges over the maps of the parsed database. *)
Theorem C69_map_order : forall K D D', same_database D D' -> built K D = built K D'.
Proof. exact built_same. Qed.
Print Assumptions C69_map_order.

(** A database with maps of two and more keys of each kind, and the same read backwards. *)
Example C69_case : same_database tiny (flip tiny) /\ db_vendor (flip tiny) <> db_vendor tiny /\ db_device (flip tiny) <> db_device tiny /\
  db_hint (flip tiny) <> db_hint tiny /\ db_client (flip tiny) <> db_client tiny.
Proof. split; [exact (flip_same tiny eq_refl)|]. repeat split; discriminate. Qed.

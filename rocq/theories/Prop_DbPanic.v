(** Property C65: when the library built from ANY database panics.  It does exactly when the entry that applies refers to
    a group its pattern does not have; a device getter does when no device applies and the operating system, consulted as
    the last resort, is in that state. *)
From Verif Require Import Model_Base Model_CacheEntry Model_Version Model_Ctx Model_Regex Model_Parse Model_Compiler Model_Shipped Model_Built
  Data_Tiny Data_TinyBroken
  Spec_Version Spec_Getters Spec_Select Spec_Panic Spec_Compiler Spec_Database Spec_DbPanic
  Proof_Base Proof_DbTiny Proof_DbPanic Proof_DbPanicTiny.
Open Scope nat_scope.

Theorem C65_clients : forall K D mC mD h ua g, client_files D -> Forall (Forall client_proper) (db_client D) -> tidy_engines D ->
  built_small (built K D) -> small ua -> In g client_getters ->
  (alone (built K D) mC mD h ua g = Panic <-> exists t idx y, db_client_is K D mC ua t idx y /\ client_trouble K ua y).
Proof. exact panic_clients. Qed.
Print Assumptions C65_clients.
(** The database of the examples of C53-C57 meets the conditions and does not panic ... *)
Example C65_clients_case : client_files tiny /\ Forall (Forall client_proper) (db_client tiny) /\ tidy_engines tiny /\
  built_small (built tiny_compiler tiny) /\ small (bs "Foo/29.0") /\ In GBrowser client_getters /\
  alone (built tiny_compiler tiny) 63 1023 0 (bs "Foo/29.0") GBrowser = Ok (VB (bs "Foo")).
Proof.
  destruct tiny_clients as [L P]. split; [split; [exact L|repeat (constructor; [discriminate|]); constructor]|]. split; [exact P|].
  split; [apply tidy_enginesb_ok; vm_compute; reflexivity|]. split; [exact tiny_small|]. split; [reflexivity|]. split; [cbn; auto|]. vm_compute. reflexivity.
Qed.
(** ... and one with a version "$1" for a pattern without groups does. *)
Example C65_clients_broken : client_files tiny_broken /\ Forall (Forall client_proper) (db_client tiny_broken) /\ tidy_engines tiny_broken /\
  built_small (built tiny_compiler tiny_broken) /\
  alone (built tiny_compiler tiny_broken) 63 1023 0 (bs "Qux") GBrowser = Panic /\
  alone (built tiny_compiler tiny_broken) 63 1023 0 (bs "Foo/29.0") GBrowser = Ok (VB (bs "Foo")).
Proof.
  destruct broken_clients as (F & P & S). split; [exact F|]. split; [exact P|].
  split; [apply tidy_enginesb_ok; vm_compute; reflexivity|]. split; [exact S|]. split; vm_compute; reflexivity.
Qed.

Theorem C65_systems : forall K D mC mD h ua g, db_os D <> [] -> Forall os_proper (db_os D) -> built_small (built K D) -> small ua ->
  In g os_getters -> (alone (built K D) mC mD h ua g = Panic <-> exists y, db_os_is K D ua y /\ os_trouble K ua y).
Proof. exact panic_systems. Qed.
Print Assumptions C65_systems.
Example C65_systems_case : db_os tiny <> [] /\ Forall os_proper (db_os tiny) /\ built_small (built tiny_compiler tiny) /\
  db_os tiny_nameless <> [] /\ Forall os_proper (db_os tiny_nameless) /\ built_small (built tiny_compiler tiny_nameless) /\
  alone (built tiny_compiler tiny_nameless) 63 1023 0 (bs "QuuOS") GOS = Panic /\
  alone (built tiny_compiler tiny_nameless) 63 1023 0 (bs "Zed/1.2") GOSVersionString = Ok (VB (bs "1.2")).
Proof.
  split; [discriminate|]. split; [exact tiny_systems|]. split; [exact tiny_small|]. split; [discriminate|]. destruct nameless_systems as [P S].
  split; [exact P|]. split; [exact S|]. split; vm_compute; reflexivity.
Qed.
(** Without any operating system each of these getters panics, whatever the user agent. *)
Theorem C65_no_systems : forall K D mC mD h ua g, db_os D = [] -> In g os_getters -> alone (built K D) mC mD h ua g = Panic.
Proof. exact no_systems. Qed.
Print Assumptions C65_no_systems.
Example C65_no_systems_case : db_os (mkDatabase (db_client tiny) [] (db_device tiny) (db_vendor tiny) (db_hint tiny)) = [] /\ In GOS os_getters.
Proof. split; [reflexivity|cbn; auto]. Qed.

Theorem C65_devices : forall K D mC mD h ua g, device_files D -> Forall (Forall brand_proper) (db_device D) ->
  Forall (Forall tidy_brand) (db_device D) -> db_os D <> [] -> Forall os_proper (db_os D) -> built_small (built K D) -> short ua ->
  In g device_getters ->
  (alone (built K D) mC mD h ua g = Panic <->
   db_no_device K D mD ua /\ on mD 1 /\ exists y, db_os_is K D ua y /\ os_trouble K ua y).
Proof. exact panic_devices. Qed.
Print Assumptions C65_devices.
Example C65_devices_case : device_files tiny_nameless /\ Forall (Forall brand_proper) (db_device tiny_nameless) /\
  Forall (Forall tidy_brand) (db_device tiny_nameless) /\
  (* no device, and the operating system is in trouble: the panic needs the bit of the notebooks *)
  alone (built tiny_compiler tiny_nameless) 63 1023 0 (bs "QuuOS") GBrand = Panic /\
  alone (built tiny_compiler tiny_nameless) 63 1022 0 (bs "QuuOS") GBrand = Ok (VB (bs "UNK")) /\
  (* with a device there is none *)
  alone (built tiny_compiler tiny_nameless) 63 1023 0 (bs "QuuOS Acme X1") GModel = Ok (VB (bs "X1")).
Proof.
  destruct tiny_brands as (L & P & _). split; [split; [exact L|repeat (constructor; [discriminate|]); constructor]|]. split; [exact P|].
  split; [apply tidy_brandsb_ok; vm_compute; reflexivity|]. split; [vm_compute; reflexivity|]. split; vm_compute; reflexivity.
Qed.
(** The condition on templates is needed: one that ends in a dollar panics although no group is missing. *)
Theorem C65_dollar : exists K D mC mD h ua, device_files D /\ Forall (Forall brand_proper) (db_device D) /\ db_os D <> [] /\
  Forall os_proper (db_os D) /\ built_small (built K D) /\ short ua /\ ~ db_no_device K D mD ua /\
  alone (built K D) mC mD h ua GModel = Panic.
Proof. exact dollar_panics. Qed.
Print Assumptions C65_dollar.

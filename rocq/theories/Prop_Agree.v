(** Property C75: entries that do not apply change nothing. *)
From Verif Require Import Model_Base Model_CacheEntry Model_Ctx Model_Parse Model_Compiler Model_Built Data_Tiny Spec_Getters Spec_Select Spec_Database Spec_Agree
  Proof_Choice Proof_Agree Proof_AgreeTiny.
Open Scope nat_scope.

(** C75, client: what is reported depends only on the first entry of each class that applies. *)
Theorem C75_client : forall K ua D D' mC mD h g, proper K D -> proper K D' -> short ua -> clients_agree K ua D D' ->
  In g [GClientType; GBrowserVersionString; GEngine] ->
  alone (built K D) mC mD h ua g <> Panic -> alone (built K D') mC mD h ua g <> Panic ->
  alone (built K D) mC mD h ua g = alone (built K D') mC mD h ua g.
Proof. exact client_answers. Qed.
Print Assumptions C75_client.
Theorem C75_browser : forall K ua D D' mC mD, proper K D -> proper K D' -> short ua -> clients_agree K ua D D' ->
  alone (built K D) mC mD 0 ua GBrowser <> Panic -> alone (built K D') mC mD 0 ua GBrowser <> Panic ->
  alone (built K D) mC mD 0 ua GBrowser = alone (built K D') mC mD 0 ua GBrowser.
Proof. exact browser_answers. Qed.
Print Assumptions C75_browser.
(** Entries put in anywhere that do not apply leave the first one as it is; so do entries put behind one that applies. *)
Theorem C75_padded : forall K ua D D', (forall i, i < 7 -> padded (client_hit K ua) (class D i) (class D' i)) -> clients_agree K ua D D'.
Proof. exact clients_padded. Qed.
Print Assumptions C75_padded.
Theorem C75_appended : forall K ua D D' more y, db_os D' = db_os D ++ more -> db_os_is K D ua y -> os_agree K ua D D'.
Proof. exact os_appended. Qed.
Print Assumptions C75_appended.
(** C75, engine version: only when the two databases also know the same engines ... *)
Theorem C75_engine_version : forall K ua D D' mC mD h, proper K D -> proper K D' -> short ua -> clients_agree K ua D D' -> engines_agree D D' ->
  alone (built K D) mC mD h ua GEngineVersionString <> Panic -> alone (built K D') mC mD h ua GEngineVersionString <> Panic ->
  alone (built K D) mC mD h ua GEngineVersionString = alone (built K D') mC mD h ua GEngineVersionString.
Proof. exact engine_version_answers. Qed.
Print Assumptions C75_engine_version.
(** ... not otherwise: a browser added to the database changes the engine version of another. *)
Theorem C75_engine_version_refuted : exists K ua D D', proper K D /\ proper K D' /\ short ua /\
  (forall i, i < 7 -> padded (client_hit K ua) (class D i) (class D' i)) /\
  alone (built K D) 63 1023 0 ua GEngineVersionString = Ok (VB []) /\
  alone (built K D') 63 1023 0 ua GEngineVersionString = Ok (VB (bs "5.36")).
Proof.
  exists tiny_compiler, bar_ua, fewer, tiny. split; [exact fewer_proper|]. split; [exact tiny_proper|]. split; [vm_compute; reflexivity|].
  split; [exact fewer_clients|]. split; vm_compute; reflexivity.
Qed.
Print Assumptions C75_engine_version_refuted.
(** C75, operating system. *)
Theorem C75_os : forall K ua D D' mC mD h g, proper K D -> proper K D' -> short ua -> os_agree K ua D D' -> In g [GOS; GOSVersionString] ->
  alone (built K D) mC mD h ua g <> Panic -> alone (built K D') mC mD h ua g <> Panic ->
  alone (built K D) mC mD h ua g = alone (built K D') mC mD h ua g.
Proof. exact os_both. Qed.
Print Assumptions C75_os.
(** C75, device: the same brands apply in each file, the same vendors have a fragment that is found. *)
Theorem C75_device : forall K ua D D' mC mD h g, proper K D -> proper K D' -> short ua ->
  devices_agree K ua D D' -> vendors_agree ua D D' -> os_agree K ua D D' -> In g [GDeviceType; GBrand; GModel] ->
  alone (built K D) mC mD h ua g <> Panic -> alone (built K D') mC mD h ua g <> Panic ->
  alone (built K D) mC mD h ua g = alone (built K D') mC mD h ua g.
Proof. exact device_both. Qed.
Print Assumptions C75_device.

Example C75_case : proper tiny_compiler tiny /\ proper tiny_compiler more /\ short agree_ua /\
  (forall i, i < 7 -> padded (client_hit tiny_compiler agree_ua) (class tiny i) (class more i)) /\
  padded (os_hit tiny_compiler agree_ua) (db_os tiny) (db_os more) /\ os_agree tiny_compiler agree_ua tiny more /\
  devices_agree tiny_compiler agree_ua tiny more /\ vendors_agree agree_ua tiny more /\
  alone (built tiny_compiler more) 63 1023 0 agree_ua GBrowser = Ok (VB (bs "Foo")) /\
  alone (built tiny_compiler more) 63 1023 0 agree_ua GBrowserVersionString = Ok (VB (bs "29.0")) /\
  alone (built tiny_compiler more) 63 1023 0 agree_ua GOS = Ok (VB (bs "Debian")) /\
  alone (built tiny_compiler more) 63 1023 0 agree_ua GModel = Ok (VB (bs "Tab X1")).
Proof.
  split; [exact tiny_proper|]. split; [exact more_proper|]. split; [vm_compute; reflexivity|]. split; [exact more_clients|].
  split; [exact more_systems|]. split; [exact (padded_first _ _ _ more_systems)|]. split; [exact more_devices|]. split; [exact more_vendors|].
  repeat split; vm_compute; reflexivity.
Qed.

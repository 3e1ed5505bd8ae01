(** Which databases an answer may depend on. *)
From Verif Require Import Model_Base Model_Ctx Model_Parse Model_Compiler Model_Built.

Definition client_question (g : getter) : Prop :=
  In g [GClientType; GBrowser; GBrowserVersion; GBrowserVersionString; GEngine; GEngineVersion; GEngineVersionString].
Definition os_question (g : getter) : Prop := In g [GOS; GOSVersion; GOSVersionString].
Definition device_question (g : getter) : Prop := In g [GDeviceType; GBrand; GModel].
Definition same_clients (D D' : database) : Prop := db_client D = db_client D' /\ db_hint D = db_hint D'.
Definition same_os (D D' : database) : Prop := db_os D = db_os D'.
Definition same_devices (D D' : database) : Prop := db_device D = db_device D' /\ db_vendor D = db_vendor D'.

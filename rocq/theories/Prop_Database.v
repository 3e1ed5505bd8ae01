(** Properties C53-C57: what the library built from ANY database reports, in terms of the entries of the database.
    [built K D] are the tables cmd/uaxplc generates from the database [D] with the replacement maps [K]; Spec_Database.v
    says what the database means, without tables, ranges or indexes. *)
From Verif Require Import Model_Base Model_CacheEntry Model_Version Model_Ctx Model_Regex Model_Parse Model_Compiler Model_Shipped Model_Built Data_Tiny
  Spec_Version Spec_Getters Spec_Select Spec_Compiler Spec_Database Proof_Base Proof_Choice Proof_Reports Proof_Database Proof_DbTiny.
Open Scope nat_scope.

Definition sample_ua : bytes := bs "Foo/29.0 Beta Tab X1 Debian 9_1 WebKit/5.36 Chrome/70.2".

(** C53: client type, name and version. *)
Theorem C53_client : forall K D mC mD h ua t, length (db_client D) = 7 -> Forall (Forall client_proper) (db_client D) ->
  built_small (built K D) -> small ua -> alone (built K D) mC mD h ua GClientType = Ok (VN t) ->
  (db_no_client K D mC ua -> t = 0%N /\ alone (built K D) mC mD 0 ua GBrowser = Ok (VB (bs "UNK"))) /\
  (forall t' idx y, db_client_is K D mC ua t' idx y -> t = t' /\
     (yc_name y <> [] -> alone (built K D) mC mD 0 ua GBrowser = Ok (VB (yc_name y))) /\
     (yc_name y = [] -> alone (built K D) mC mD 0 ua GBrowser = Ok (VB (bs "UNK")))) /\
  (db_no_client K D mC ua \/ exists t' idx y, db_client_is K D mC ua t' idx y).
Proof. exact db_clients. Qed.
Print Assumptions C53_client.
Theorem C53_version : forall K D mC mD h ua s, length (db_client D) = 7 -> Forall (Forall client_proper) (db_client D) ->
  built_small (built K D) -> small ua -> alone (built K D) mC mD h ua GBrowserVersionString = Ok (VB s) ->
  (db_no_client K D mC ua /\ s = []) \/
  (exists t idx y frag, db_client_is K D mC ua t idx y /\ db_fragment K ua y frag /\ version_of_fragment frag s).
Proof. exact db_client_version. Qed.
Print Assumptions C53_version.
Example C53_case : length (db_client tiny) = 7 /\ Forall (Forall client_proper) (db_client tiny) /\
  built_small (built tiny_compiler tiny) /\ small sample_ua /\
  alone (built tiny_compiler tiny) 63 1023 0 sample_ua GClientType = Ok (VN 1) /\
  alone (built tiny_compiler tiny) 63 1023 0 sample_ua GBrowser = Ok (VB (bs "Foo")) /\
  alone (built tiny_compiler tiny) 63 1023 0 sample_ua GBrowserVersionString = Ok (VB (bs "29.0")) /\
  (* a constant version *)
  alone (built tiny_compiler tiny) 63 1023 0 (bs "Bar") GBrowserVersionString = Ok (VB (bs "1.0")).
Proof. destruct tiny_clients as [L P]. split; [exact L|]. split; [exact P|]. split; [exact tiny_small|]. repeat split; vm_compute; reflexivity. Qed.

(** C54: engine name and version. *)
Theorem C54_engine : forall K D mC mD h ua, length (db_client D) = 7 -> Forall (Forall client_proper) (db_client D) ->
  built_small (built K D) -> small ua ->
  (forall s, alone (built K D) mC mD h ua GEngine = Ok (VB s) ->
     (db_not_a_browser K D mC ua /\ s = []) \/
     (exists t y en, db_client_is K D mC ua t 1 y /\ db_engine K D ua y en /\ db_engine_name ua en s)) /\
  (forall s, alone (built K D) mC mD h ua GEngineVersionString = Ok (VB s) ->
     (db_not_a_browser K D mC ua /\ s = []) \/
     (exists t y en, db_client_is K D mC ua t 1 y /\ db_engine K D ua y en /\ db_engine_version D ua en s)).
Proof. exact db_engines. Qed.
Print Assumptions C54_engine.
Example C54_case : small sample_ua /\
  alone (built tiny_compiler tiny) 63 1023 0 sample_ua GEngine = Ok (VB (bs "Blink")) /\
  alone (built tiny_compiler tiny) 63 1023 0 sample_ua GEngineVersionString = Ok (VB (bs "70.2")).
Proof. repeat split; vm_compute; reflexivity. Qed.

(** C55: name and version of the operating system. *)
Theorem C55_os : forall K D mC mD h ua, Forall os_proper (db_os D) -> built_small (built K D) -> small ua ->
  (forall s, alone (built K D) mC mD h ua GOS = Ok (VB s) ->
     (db_no_os K D ua /\ s = bs "UNK") \/ (exists y, db_os_is K D ua y /\ db_os_name K ua y s)) /\
  (forall s, alone (built K D) mC mD h ua GOSVersionString = Ok (VB s) ->
     (db_no_os K D ua /\ s = []) \/ (exists y v, db_os_is K D ua y /\ db_os_version K ua y v /\ dotted v s)).
Proof. exact db_systems. Qed.
Print Assumptions C55_os.
Example C55_case : Forall os_proper (db_os tiny) /\ built_small (built tiny_compiler tiny) /\ small sample_ua /\
  alone (built tiny_compiler tiny) 63 1023 0 sample_ua GOS = Ok (VB (bs "Debian")) /\
  alone (built tiny_compiler tiny) 63 1023 0 sample_ua GOSVersionString = Ok (VB (bs "9.1")) /\
  alone (built tiny_compiler tiny) 63 1023 0 (bs "Windows NT 6.1") GOSVersionString = Ok (VB (bs "6.1")).
Proof. split; [exact tiny_systems|]. split; [exact tiny_small|]. repeat split; vm_compute; reflexivity. Qed.

(** C56: type, model and brand of the device, and the brand guessed from the vendor list. *)
Theorem C56_device : forall K D mC mD h ua, length (db_device D) = 8 -> Forall (Forall brand_proper) (db_device D) ->
  Forall (fun v => fst v <> []) (db_vendor D) -> built_small (built K D) -> short ua ->
  (forall t, alone (built K D) mC mD h ua GDeviceType = Ok (VN t) ->
     (exists b idx def y, db_device_is K D mD ua b idx def y /\ db_device_type K ua (snd y) def t) \/
     (db_no_device K D mD ua /\
      exists os, (on mD 1 -> alone (built K D) mC mD h ua GOS = Ok (VB os)) /\ db_fallback_type mD ua os t)) /\
  (forall s, alone (built K D) mC mD h ua GModel = Ok (VB s) ->
     (exists b idx def y w, db_device_is K D mD ua b idx def y /\ db_model K ua (snd y) w /\ trimmed w s) \/
     (db_no_device K D mD ua /\ s = [])) /\
  (forall s, alone (built K D) mC mD h ua GBrand = Ok (VB s) ->
     (exists b idx def y, db_device_is K D mD ua b idx def y /\ trimmed (fst y) s) \/
     (db_no_device K D mD ua /\ db_fallback_brand D ua s)).
Proof. exact db_devices. Qed.
Print Assumptions C56_device.
Example C56_case : length (db_device tiny) = 8 /\ Forall (Forall brand_proper) (db_device tiny) /\
  Forall (fun v => fst v <> []) (db_vendor tiny) /\ built_small (built tiny_compiler tiny) /\ short sample_ua /\
  alone (built tiny_compiler tiny) 63 1023 0 sample_ua GDeviceType = Ok (VN 8) /\
  alone (built tiny_compiler tiny) 63 1023 0 sample_ua GBrand = Ok (VB (bs "Beta")) /\
  alone (built tiny_compiler tiny) 63 1023 0 sample_ua GModel = Ok (VB (bs "Tab X1")) /\
  alone (built tiny_compiler tiny) 63 1023 0 (bs "Bar nokia!") GBrand = Ok (VB (bs "Nokia")).
Proof.
  destruct tiny_brands as (L & P & V). split; [exact L|]. split; [exact P|]. split; [exact V|]. split; [exact tiny_small|].
  repeat split; vm_compute; reflexivity.
Qed.

(** C57: for a header of the database the name of the first file that has it is reported; for one whose hash is that of
    no header, "UNK". *)
Theorem C57_hint : forall K D mC mD header name ua, Forall (fun f => NoDup (map fst f)) (db_hint D) ->
  built_small (built K D) -> header <> [] -> fnv1 header <> 0%N -> hash_apart D header ->
  alone (built K D) mC mD 0 ua GClientType <> Panic ->
  (db_hint_is D header name -> name <> [] -> answer (built K D) (prepared mC mD header ua) GBrowser = Ok (VB name)) /\
  ((forall k, db_header D k -> fnv1 k <> fnv1 header) ->
   answer (built K D) (prepared mC mD header ua) GBrowser = Ok (VB (bs "UNK"))).
Proof. exact db_hints. Qed.
Print Assumptions C57_hint.
Example C57_case : Forall (fun f => NoDup (map fst f)) (db_hint tiny) /\ built_small (built tiny_compiler tiny) /\
  fnv1 (bs "com.x") <> 0%N /\ hash_apart tiny (bs "com.x") /\ db_hint_is tiny (bs "com.x") (bs "X App") /\
  alone (built tiny_compiler tiny) 63 1023 0 (bs "Bar") GClientType = Ok (VN 1) /\
  answer (built tiny_compiler tiny) (prepared 63 1023 (bs "com.x") (bs "Bar")) GBrowser = Ok (VB (bs "X App")).
Proof.
  split; [exact tiny_hints|]. split; [exact tiny_small|]. split; [vm_compute; discriminate|]. split; [exact tiny_apart|].
  split; [exact tiny_hint|]. split; vm_compute; reflexivity.
Qed.

(** Property C76: an answer that names something is never empty, and "UNK" means that nothing was found. *)
From Verif Require Import Model_Base Model_Blob Model_CacheEntry Model_Ctx Model_Parse Model_Shipped Data_OS Spec_Getters Spec_Select
  Proof_Choice Proof_Reports Proof_Tables Proof_Known Proof_KnownShipped.

(** C76, client, with the shipped tables: the browser name is never empty, it is UNK exactly when the client type is
    unknown, and then version, engine and engine version are empty. *)
Theorem C76_browser : forall mC mD ua t s, small ua ->
  alone shipped mC mD 0 ua GClientType = Ok (VN t) -> alone shipped mC mD 0 ua GBrowser = Ok (VB s) ->
  s <> [] /\ (s = bs "UNK" <-> t = 0%N).
Proof. exact (fun mC mD ua t s => client_known shipped mC mD ua t s shipped_client_sane shipped_clients). Qed.
Print Assumptions C76_browser.
Theorem C76_no_client : forall mC mD h ua g s, small ua -> alone shipped mC mD h ua GClientType = Ok (VN 0) ->
  In g [GBrowserVersionString; GEngine; GEngineVersionString] -> alone shipped mC mD h ua g = Ok (VB s) -> s = [].
Proof. exact (fun mC mD h ua g s => client_nothing shipped mC mD h ua g s shipped_client_sane). Qed.
Print Assumptions C76_no_client.
(** The name is not empty with a header hint either. *)
Theorem C76_hint : forall mC mD h ua s, small ua -> alone shipped mC mD h ua GBrowser = Ok (VB s) -> s <> [].
Proof. exact (fun mC mD h ua s => browser_some shipped mC mD h ua s shipped_client_sane shipped_clients shipped_hints). Qed.
Print Assumptions C76_hint.
(** Only browsers have an engine, and without an engine there is no engine version. *)
Theorem C76_engine : forall mC mD h ua t s, small ua -> alone shipped mC mD h ua GClientType = Ok (VN t) ->
  alone shipped mC mD h ua GEngine = Ok (VB s) -> s <> [] -> t = 1%N.
Proof. exact (fun mC mD h ua t s => engine_browser shipped mC mD h ua t s shipped_client_sane). Qed.
Print Assumptions C76_engine.
Theorem C76_engine_version : forall mC mD h ua s v, small ua -> alone shipped mC mD h ua GEngine = Ok (VB s) ->
  alone shipped mC mD h ua GEngineVersionString = Ok (VB v) -> s = [] -> v = [].
Proof. exact (fun mC mD h ua s v => engine_versioned shipped mC mD h ua s v shipped_client_sane shipped_clients). Qed.
Print Assumptions C76_engine_version.
(** An empty engine does not mean that no engine pattern applies: the user agent of a browser names WebKit. *)
Theorem C76_engine_refuted : exists mC mD ua, (exists v, In v (engine_class shipped) /\ engine_applies shipped ua v) /\
  alone shipped mC mD 0 ua GClientType = Ok (VN 1) /\ alone shipped mC mD 0 ua GEngine = Ok (VB []).
Proof. exact (ex_intro _ 1%N (ex_intro _ 0%N (ex_intro _ konqueror (silent_engine_ok shipped 1 0 konqueror shipped_silent)))). Qed.
Print Assumptions C76_engine_refuted.

(** C76, operating system: the name is never empty, it is UNK exactly when no entry applies, and then there is no
    version. *)
Theorem C76_os : forall mC mD h ua s, small ua -> alone shipped mC mD h ua GOS = Ok (VB s) ->
  s <> [] /\ (s = bs "UNK" <-> no_os shipped ua).
Proof. exact (fun mC mD h ua s => os_known shipped (map unblob d_or_re) mC mD h ua s shipped_os_sane shipped_patterns shipped_systems). Qed.
Print Assumptions C76_os.
Theorem C76_no_os : forall mC mD h ua s v, small ua -> alone shipped mC mD h ua GOS = Ok (VB s) ->
  alone shipped mC mD h ua GOSVersionString = Ok (VB v) -> s = bs "UNK" -> v = [].
Proof. exact (fun mC mD h ua s v => os_nothing shipped (map unblob d_or_re) mC mD h ua s v shipped_os_sane shipped_patterns shipped_systems). Qed.
Print Assumptions C76_no_os.

(** C76, device: the brand is never empty, and without a brand there is no model. *)
Theorem C76_brand : forall mC mD h ua s, short ua -> alone shipped mC mD h ua GBrand = Ok (VB s) ->
  s <> [] /\ forall m, alone shipped mC mD h ua GModel = Ok (VB m) -> s = bs "UNK" -> m = [].
Proof. exact (fun mC mD h ua s => brand_known shipped mC mD h ua s shipped_device_sane shipped_brands). Qed.
Print Assumptions C76_brand.

Example C76_case : alone shipped 63 128 0 (bs "EK-GC120") GBrand = Ok (VB (bs "Samsung")) /\
  alone shipped 63 0 0 (bs "Tablet") GBrand = Ok (VB (bs "UNK")) /\ alone shipped 63 0 0 (bs "Tablet") GModel = Ok (VB []) /\
  alone shipped 8 0 0 (bs "Akregator/1.2.3") GBrowser = Ok (VB (bs "Akregator")) /\
  alone shipped 8 0 0 (bs "Akregator/1.2.3") GClientType = Ok (VN 8) /\
  alone shipped 8 0 0 (bs "Tablet") GClientType = Ok (VN 0) /\
  alone shipped 8 0 0 (bs "NuttX/10.1") GOS = Ok (VB (bs "NuttX")).
Proof.
  exact (conj (bytes_case shipped 63 128 0 (bs "EK-GC120") GBrand (bs "Samsung") ltac:(vm_compute; reflexivity))
    (conj (bytes_case shipped 63 0 0 (bs "Tablet") GBrand (bs "UNK") ltac:(vm_compute; reflexivity))
    (conj (bytes_case shipped 63 0 0 (bs "Tablet") GModel [] ltac:(vm_compute; reflexivity))
    (conj (bytes_case shipped 8 0 0 (bs "Akregator/1.2.3") GBrowser (bs "Akregator") ltac:(vm_compute; reflexivity))
    (conj (number_case shipped 8 0 0 (bs "Akregator/1.2.3") GClientType 8 ltac:(vm_compute; reflexivity))
    (conj (number_case shipped 8 0 0 (bs "Tablet") GClientType 0 ltac:(vm_compute; reflexivity))
    (bytes_case shipped 8 0 0 (bs "NuttX/10.1") GOS (bs "NuttX") ltac:(vm_compute; reflexivity)))))))).
Qed.

(** Properties C48-C52. *)
From Verif Require Import Model_Base Model_CacheEntry Model_Version Model_Ctx Model_Parse Model_Shipped Spec_Getters Spec_Select Spec_Again
  Proof_Tables Proof_Choice Proof_Again Proof_Quirks.

(** C48: after a getter other than the two of the OS version, however the cache answered, another call changes nothing
    and returns the same. *)
Theorem C48_stable : forall T g c c1 v, g <> GOSVersion -> g <> GOSVersionString ->
  leaf (run_getter T g c) (c1, Ok v) -> run_getter T g c1 = Ret (c1, Ok v).
Proof. exact stable_but. Qed.
Print Assumptions C48_stable.

(** A second [GetOSVersionString] returns the same, and either changes nothing or appends the version to the buffer. *)
Theorem C48_os_version : forall T c c1 s, leaf (run_getter T GOSVersionString c) (c1, Ok (VB s)) ->
  exists c2, run_getter T GOSVersionString c1 = Ret (c2, Ok (VB s)) /\ (c2 = c1 \/ c2 = up_buf (c_buf c1 ++ s) c1).
Proof. exact os_version_again. Qed.
Print Assumptions C48_os_version.

Example C48_case : exists c c1, leaf (run_getter shipped GOS c) (c1, Ok (VB (bs "NuttX"))).
Proof. exact (leaf_case shipped 63 1023 0 (bs "NuttX/10.1") GOS (bs "NuttX") (bytes_case shipped 63 1023 0 (bs "NuttX/10.1") GOS (bs "NuttX") ltac:(vm_compute; reflexivity))). Qed.
Example C48_os_version_case : exists c c1, leaf (run_getter shipped GOSVersionString c) (c1, Ok (VB (bs "9.1"))).
Proof. exact (leaf_case shipped 63 1023 0 (bs "iPhone OS 9_1") GOSVersionString (bs "9.1") (bytes_case shipped 63 1023 0 (bs "iPhone OS 9_1") GOSVersionString (bs "9.1") ltac:(vm_compute; reflexivity))). Qed.

(** C48 is false: the buffer grows with every call, without bound. *)
Theorem C48_growth_refuted : exists T ua (s : bytes), s <> [] /\
  forall n, length (c_buf (again T GOSVersionString n (fresh_ctx ClientTypeAll DeviceTypeAll 0 ua))) = n * length s.
Proof. exact (grow_case shipped (bs "iPhone OS 9_1") (bs "9.1") ltac:(discriminate) ltac:(vm_cast_no_check (eq_refl true))). Qed.
Print Assumptions C48_growth_refuted.

(** C49 is false: a Mac is taken for iOS and "like Android" for Android ... *)
Theorem C49_skip_refuted : exists T ua ua',
  looks_mac ua /\ alone T ClientTypeAll DeviceTypeAll 0 ua GOS = Ok (VB (bs "iOS")) /\
  like_android ua' /\ alone T ClientTypeAll DeviceTypeAll 0 ua' GOS = Ok (VB (bs "Android")).
Proof.
  exact (rules_case shipped (bs "Mac Overcast") (bs "like Android 4")
    (ex_intro _ [] (ex_intro _ (bs " Overcast") eq_refl)) (ex_intro _ [] (ex_intro _ (bs " 4") eq_refl))
    (bytes_case shipped 63 1023 0 (bs "Mac Overcast") GOS (bs "iOS") ltac:(vm_compute; reflexivity))
    (bytes_case shipped 63 1023 0 (bs "like Android 4") GOS (bs "Android") ltac:(vm_compute; reflexivity))).
Qed.
Print Assumptions C49_skip_refuted.

(** ... because neither rule ever applies: no pattern of the table is one of the texts the rules name. *)
Theorem C49_rules_dead : forall ua x, ~ skipped shipped ua x.
Proof. exact (dead shipped ltac:(vm_cast_no_check (eq_refl true))). Qed.
Print Assumptions C49_rules_dead.

(** C50 is false ... *)
Theorem C50_template_refuted : exists T mC mD ua s, alone T mC mD 0 ua GBrowser = Ok (VB s) /\ s = bs "Podkicker$1".
Proof.
  exact (ex_intro _ shipped (ex_intro _ 2%N (ex_intro _ 1023%N (ex_intro _ (bs "Podkicker/1.9.4") (ex_intro _ (bs "Podkicker$1")
    (conj (bytes_case shipped 2 1023 0 (bs "Podkicker/1.9.4") GBrowser (bs "Podkicker$1") ltac:(vm_compute; reflexivity)) eq_refl)))))).
Qed.
Print Assumptions C50_template_refuted.

(** ... for five browser names and nothing else: no engine and no brand contains a dollar sign, and an operating system
    only when the user agent does. *)
Theorem C50_names : forall mC mD h ua s, small ua -> alone shipped mC mD h ua GBrowser = Ok (VB s) -> In x24 s ->
  h = 0%N /\ In s [bs "Podkicker$1"; bs "Microsoft Office $1"; bs "radio.$1"; bs "$1"; bs "$2"].
Proof.
  exact (fun mC mD h ua s => names_known shipped [bs "Podkicker$1"; bs "Microsoft Office $1"; bs "radio.$1"; bs "$1"; bs "$2"]
    mC mD h ua s shipped_client_sane ltac:(vm_cast_no_check (eq_refl true))).
Qed.
Print Assumptions C50_names.
Theorem C50_engine : forall mC mD h ua s, small ua -> alone shipped mC mD h ua GEngine = Ok (VB s) -> ~ In x24 s.
Proof. exact (fun mC mD h ua s => engine_clean shipped mC mD h ua s shipped_client_sane ltac:(vm_cast_no_check (eq_refl true))). Qed.
Print Assumptions C50_engine.
Theorem C50_brand : forall mC mD h ua s, short ua -> alone shipped mC mD h ua GBrand = Ok (VB s) -> ~ In x24 s.
Proof. exact (fun mC mD h ua s => brand_clean shipped mC mD h ua s shipped_device_sane ltac:(vm_cast_no_check (eq_refl true))). Qed.
Print Assumptions C50_brand.
Theorem C50_os : forall mC mD h ua s, small ua -> alone shipped mC mD h ua GOS = Ok (VB s) -> In x24 s -> In x24 ua.
Proof. exact (fun mC mD h ua s => os_clean shipped mC mD h ua s shipped_os_sane ltac:(vm_cast_no_check (eq_refl true))). Qed.
Print Assumptions C50_os.

Theorem C50_model : forall mC mD h ua s, short ua -> alone shipped mC mD h ua GModel = Ok (VB s) -> In x24 s -> In x24 ua.
Proof. exact (fun mC mD h ua s => model_clean shipped mC mD h ua s shipped_device_sane ltac:(vm_cast_no_check (eq_refl true))). Qed.
Print Assumptions C50_model.

Example C50_model_case : alone shipped 63 128 0 (bs "EK-GC120") GModel = Ok (VB (bs "Galaxy Camera 120")).
Proof. exact (bytes_case shipped 63 128 0 (bs "EK-GC120") GModel (bs "Galaxy Camera 120") ltac:(vm_compute; reflexivity)). Qed.
Example C50_engine_case : alone shipped 1 1023 0 (bs "AVG/100.0") GEngine = Ok (VB (bs "WebKit")).
Proof. exact (bytes_case shipped 1 1023 0 (bs "AVG/100.0") GEngine (bs "WebKit") ltac:(vm_compute; reflexivity)). Qed.
Example C50_brand_case : alone shipped 63 128 0 (bs "EK-GC120") GBrand = Ok (VB (bs "Samsung")).
Proof. exact (bytes_case shipped 63 128 0 (bs "EK-GC120") GBrand (bs "Samsung") ltac:(vm_compute; reflexivity)). Qed.

(** C51: the user agent of the README and what it says the getters print. *)
Definition readme_ua : bytes := bs "Mozilla/5.0 (Linux; U; Android 9; RMX1941 Build/PPR1.180610.011) AppleWebKit/537.36 (KHTML, like Gecko) Version/4.0 Chrome/53.0.2785.134 Mobile Safari/537.36 RealmeBrowser/35.5.0.8".
Definition readme_claims : list (getter * res value) :=
  [(GClientType, Ok (VN 1)); (GBrowser, Ok (VB (bs "Realme Browser"))); (GBrowserVersionString, Ok (VB (bs "35.5.0.8")));
   (GEngine, Ok (VB (bs "WebKit"))); (GEngineVersionString, Ok (VB (bs "537.36"))); (GDeviceType, Ok (VN 2));
   (GBrand, Ok (VB (bs "Realme"))); (GModel, Ok (VB (bs "C2"))); (GOS, Ok (VB (bs "Android"))); (GOSVersionString, Ok (VB (bs "9")))].
(** It is wrong about the engine. *)
Theorem C51_readme_refuted : exists g v, In (g, v) readme_claims /\ alone shipped ClientTypeAll DeviceTypeAll 0 readme_ua g <> v.
Proof.
  exact (readme_case shipped readme_claims readme_ua GEngine (Ok (VB (bs "WebKit"))) (Ok (VB (bs "Blink")))
    (or_intror (or_intror (or_intror (or_introl eq_refl)))) ltac:(discriminate) ltac:(vm_cast_no_check (eq_refl true))).
Qed.
Print Assumptions C51_readme_refuted.

(** C52: with nothing cached, the operating system depends on no setting, the device only on the device filter, the
    client only on the client filter (and the browser name on the header). *)
Theorem C52_os : forall T ua g mC mD h mC' mD' h', In g [GOS; GOSVersion; GOSVersionString] ->
  alone T mC' mD' h' ua g = alone T mC mD h ua g.
Proof. exact os_settings. Qed.
Print Assumptions C52_os.
Theorem C52_device : forall T ua g mC mD h mC' h', In g [GDeviceType; GBrand; GModel] ->
  alone T mC' mD h' ua g = alone T mC mD h ua g.
Proof. exact device_settings. Qed.
Print Assumptions C52_device.
Theorem C52_client : forall T ua g mC mD h mD' h',
  In g [GClientType; GBrowser; GBrowserVersion; GBrowserVersionString; GEngine; GEngineVersion; GEngineVersionString] ->
  alone T mC mD' h ua g = alone T mC mD h ua g /\ (g <> GBrowser -> alone T mC mD' h' ua g = alone T mC mD h ua g).
Proof. exact client_settings. Qed.
Print Assumptions C52_client.
Example C52_case : alone shipped 0 0 5 (bs "NuttX/10.1") GOS = Ok (VB (bs "NuttX")) /\
  alone shipped 63 1023 0 (bs "NuttX/10.1") GOS = Ok (VB (bs "NuttX")).
Proof. exact (conj (bytes_case shipped 0 0 5 (bs "NuttX/10.1") GOS (bs "NuttX") ltac:(vm_compute; reflexivity)) (bytes_case shipped 63 1023 0 (bs "NuttX/10.1") GOS (bs "NuttX") ltac:(vm_compute; reflexivity))). Qed.

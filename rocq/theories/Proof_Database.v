(** What the getters report about any compiled database. *)
From Verif Require Import Model_Base Model_CacheEntry Model_Version Model_Ctx Model_Regex Model_Parse Model_Compiler Model_Shipped Model_Built
  Spec_Version Spec_Getters Spec_Select Spec_Compiler Spec_Database Proof_Base Proof_Built Proof_DbClient Proof_DbOS Proof_DbDevice Proof_DbVendor.
From Coq Require Import Lia.
Open Scope nat_scope.

Section DB.
Variables (K : compiler) (D : database).
Let T := built K D.

Lemma proper_first : Forall (Forall client_proper) (db_client D) -> Forall (Forall proper1) (db_client D).
Proof. apply Forall_impl. intros f. apply Forall_impl. intros y [P _]. exact P. Qed.
Lemma db_clients mC mD h ua t : length (db_client D) = 7 -> Forall (Forall client_proper) (db_client D) -> built_small T -> small ua ->
  alone T mC mD h ua GClientType = Ok (VN t) ->
  (db_no_client K D mC ua -> t = 0%N /\ alone T mC mD 0 ua GBrowser = Ok (VB (bs "UNK"))) /\
  (forall t' idx y, db_client_is K D mC ua t' idx y -> t = t' /\
     (yc_name y <> [] -> alone T mC mD 0 ua GBrowser = Ok (VB (yc_name y))) /\
     (yc_name y = [] -> alone T mC mD 0 ua GBrowser = Ok (VB (bs "UNK")))) /\
  (db_no_client K D mC ua \/ exists t' idx y, db_client_is K D mC ua t' idx y).
Proof.
  intros L P (F & _) S H. destruct (client_built K D (proper_first P) F) as [k CF]. exact (client_choice K D T k CF L P mC mD h ua t S H).
Qed.
Lemma db_client_version mC mD h ua s : length (db_client D) = 7 -> Forall (Forall client_proper) (db_client D) -> built_small T -> small ua ->
  alone T mC mD h ua GBrowserVersionString = Ok (VB s) ->
  (db_no_client K D mC ua /\ s = []) \/
  (exists t idx y frag, db_client_is K D mC ua t idx y /\ db_fragment K ua y frag /\ version_of_fragment frag s).
Proof.
  intros L P (F & _) S H. destruct (client_built K D (proper_first P) F) as [k CF]. exact (client_version K D T k CF L P mC mD h ua s S H).
Qed.
Lemma db_engines mC mD h ua : length (db_client D) = 7 -> Forall (Forall client_proper) (db_client D) -> built_small T -> small ua ->
  (forall s, alone T mC mD h ua GEngine = Ok (VB s) ->
     (db_not_a_browser K D mC ua /\ s = []) \/
     (exists t y en, db_client_is K D mC ua t 1 y /\ db_engine K D ua y en /\ db_engine_name ua en s)) /\
  (forall s, alone T mC mD h ua GEngineVersionString = Ok (VB s) ->
     (db_not_a_browser K D mC ua /\ s = []) \/
     (exists t y en, db_client_is K D mC ua t 1 y /\ db_engine K D ua y en /\ db_engine_version D ua en s)).
Proof.
  intros L P (F & _) S. destruct (client_built K D (proper_first P) F) as [k CF]. exact (client_engine K D T k CF L P mC mD h ua S).
Qed.
Lemma db_systems mC mD h ua : Forall os_proper (db_os D) -> built_small T -> small ua ->
  (forall s, alone T mC mD h ua GOS = Ok (VB s) ->
     (db_no_os K D ua /\ s = bs "UNK") \/ (exists y, db_os_is K D ua y /\ db_os_name K ua y s)) /\
  (forall s, alone T mC mD h ua GOSVersionString = Ok (VB s) ->
     (db_no_os K D ua /\ s = []) \/ (exists y v, db_os_is K D ua y /\ db_os_version K ua y v /\ dotted v s)).
Proof.
  intros P (_ & F1 & F2 & _) S. destruct (os_built K D P F1 F2) as [o OF]. exact (os_answers K D T o OF mC mD h ua S).
Qed.
Lemma db_devices mC mD h ua : length (db_device D) = 8 -> Forall (Forall brand_proper) (db_device D) ->
  Forall (fun v => fst v <> []) (db_vendor D) -> built_small T -> short ua ->
  (forall t, alone T mC mD h ua GDeviceType = Ok (VN t) ->
     (exists b idx def y, db_device_is K D mD ua b idx def y /\ db_device_type K ua (snd y) def t) \/
     (db_no_device K D mD ua /\ exists os, (on mD 1 -> alone T mC mD h ua GOS = Ok (VB os)) /\ db_fallback_type mD ua os t)) /\
  (forall s, alone T mC mD h ua GModel = Ok (VB s) ->
     (exists b idx def y w, db_device_is K D mD ua b idx def y /\ db_model K ua (snd y) w /\ trimmed w s) \/
     (db_no_device K D mD ua /\ s = [])) /\
  (forall s, alone T mC mD h ua GBrand = Ok (VB s) ->
     (exists b idx def y, db_device_is K D mD ua b idx def y /\ trimmed (fst y) s) \/
     (db_no_device K D mD ua /\ db_fallback_brand D ua s)).
Proof.
  intros L P PV (_ & _ & _ & F1 & F2 & F3 & F4 & _) S. destruct (device_built K D P F1 F2) as [d DF]. split; [|split].
  - intros t H. exact (device_types K D T d DF L P mC mD h ua t S H).
  - intros s H. exact (device_models K D T d DF L P mC mD h ua s S H).
  - intros s H. destruct (device_brands K D T d DF L P mC mD h ua s S H) as [R|[N R]]; [left; exact R|right; split; [exact N|]].
    exact (fallback_down K D ua s F3 F4 PV R).
Qed.
Lemma db_hints mC mD header name ua : Forall (fun f => NoDup (map fst f)) (db_hint D) -> built_small T ->
  header <> [] -> fnv1 header <> 0%N -> hash_apart D header -> alone T mC mD 0 ua GClientType <> Panic ->
  (db_hint_is D header name -> name <> [] -> answer T (prepared mC mD header ua) GBrowser = Ok (VB name)) /\
  ((forall k, db_header D k -> fnv1 k <> fnv1 header) -> answer T (prepared mC mD header ua) GBrowser = Ok (VB (bs "UNK"))).
Proof. intros P (_ & _ & _ & _ & _ & _ & _ & F) Hn H0 A NP. exact (hint_answers K D mC mD header name ua F P Hn H0 A NP). Qed.
End DB.

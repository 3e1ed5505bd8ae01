(** Properties C23, C24, C31, C32, C39, C40: client detection. *)
From Verif Require Import Model_Base Model_CacheEntry Model_Ctx Model_Parse Model_Shipped Spec_Version Spec_Getters
  Spec_Select Proof_Client Proof_Choice Proof_Tables.

(** A feed reader on a camera (see Prop_Getters.v). *)
Definition camera_ua : bytes := bs "Akregator/1.2.3 (NuttX/10.1; EK-GC120)".

(** C23, cold cache: the type is 0 or one of the types switched on in the mask. *)
Theorem C23_filter_cold : forall T mC mD h ua t,
  alone T mC mD h ua GClientType = Ok (VN t) -> t = 0%N \/ In t [1; 2; 4; 8; 16; 32]%N /\ on mC t.
Proof. exact filter_cold. Qed.
Print Assumptions C23_filter_cold.

(** C23, shared cache: the same in every interleaving of goroutines that use the same mask. *)
Theorem C23_filter_same_mask : forall T mC mD scripts cf i l rs,
  collision_free (concat (map (fun l => asked l []) scripts)) ->
  conc_run (start T mC mD scripts) cf -> nth_error scripts i = Some l -> nth_error (cf_threads cf) i = Some (Ret rs) ->
  Forall2 (fun x r => detects T mC mD (fst (fst x)) -> snd x = GClientType ->
     exists t, r = Ok (VN t) /\ (t = 0%N \/ In t [1; 2; 4; 8; 16; 32]%N /\ on mC t)) (calls l [] 0) rs.
Proof. exact filter_history. Qed.
Print Assumptions C23_filter_same_mask.

Example C23_case : alone shipped 63 1023 0 camera_ua GClientType = Ok (VN 8).
Proof. exact (filter_case shipped camera_ua 8 ltac:(vm_compute; reflexivity)). Qed.

(** C23 is false when the cached row was stored under another mask. *)
Theorem C23_warm_cache_refuted : exists T mC mC' mD ua rs0 c0 o ev0 t c1 o1 ev1,
  run_getters T [GClientType] (fresh_ctx mC' mD 0 ua) None [] = (rs0, c0, o, ev0) /\
  run_getters T [GClientType] (fresh_ctx mC mD 0 ua) o [] = ([Ok (VN t)], c1, o1, ev1) /\
  t <> 0%N /\ ~ on mC t.
Proof. exact (mask_warm shipped 1 63 1023 camera_ua 8 ltac:(vm_compute; reflexivity)). Qed.
Print Assumptions C23_warm_cache_refuted.

(** C24: the client reported is the first entry that applies of the first class switched on that has one; there is at
    most one such entry ([t'] is determined), and without one the type is 0 and the name UNK. *)
Theorem C24_client_priority : forall T mC mD h ua t,
  client_sane T -> small ua -> alone T mC mD h ua GClientType = Ok (VN t) ->
  (no_client T mC ua -> t = 0%N /\ alone T mC mD 0 ua GBrowser = Ok (VB (bs "UNK"))) /\
  (forall t' idx x, client_is T mC ua t' idx x -> t = t' /\
     (forall name, text (cr_buf T) (ct_browser64 x) name -> ct_browser64 x <> 0%N -> alone T mC mD 0 ua GBrowser = Ok (VB name)) /\
     (ct_browser64 x = 0%N -> alone T mC mD 0 ua GBrowser = Ok (VB (bs "UNK")))) /\
  (no_client T mC ua \/ exists t' idx x, client_is T mC ua t' idx x).
Proof. exact priority. Qed.
Print Assumptions C24_client_priority.

Example C24_tables : client_sane shipped.
Proof. exact shipped_client_sane. Qed.
Example C24_case : alone shipped 63 1023 0 camera_ua GClientType = Ok (VN 8) /\
  exists x, client_is shipped 63 camera_ua 8 2 x /\ text (cr_buf shipped) (ct_browser64 x) (bs "Akregator") /\ ct_browser64 x <> 0%N.
Proof. exact (reader_case shipped camera_ua (bs "Akregator") ltac:(vm_compute; reflexivity)). Qed.

(** C31: a header known to the hint table decides the browser name, an empty header changes nothing, and no header
    changes any other getter. *)
Theorem C31_header_refines : forall T mC mD header ua,
  (forall e name, alone T mC mD 0 ua GClientType <> Panic -> header <> [] -> fnv1 header <> 0%N ->
     bound (hr_idx T) (fnv1 header) e -> text (hr_buf T) e name -> e <> 0%N ->
     answer T (prepared mC mD header ua) GBrowser = Ok (VB name)) /\
  (header = [] -> forall g, answer T (prepared mC mD header ua) g = alone T mC mD 0 ua g) /\
  (forall g, g <> GBrowser -> answer T (prepared mC mD header ua) g = alone T mC mD 0 ua g).
Proof. exact hint_refines. Qed.
Print Assumptions C31_header_refines.

Example C31_case : alone shipped 63 1023 0 camera_ua GClientType <> Panic /\
  bs "com.facebook.katana" <> [] /\ fnv1 (bs "com.facebook.katana") <> 0%N /\
  exists e, bound (hr_idx shipped) (fnv1 (bs "com.facebook.katana")) e /\ text (hr_buf shipped) e (bs "Facebook") /\ e <> 0%N.
Proof. exact (known_case shipped 63 1023 (bs "com.facebook.katana") camera_ua (bs "Facebook") ltac:(vm_compute; reflexivity)). Qed.

(** C31 is false for a non-empty header that is not in the table: the detected name is lost ... *)
Theorem C31_unknown_header_refuted : exists T mC mD header ua name,
  unbound (hr_idx T) (fnv1 header) /\ alone T mC mD 0 ua GBrowser = Ok (VB name) /\
  answer T (prepared mC mD header ua) GBrowser <> Ok (VB name).
Proof. exact (unknown_case shipped 63 1023 (bs "org.example.app") camera_ua (bs "Akregator") ltac:(vm_compute; reflexivity)). Qed.
Print Assumptions C31_unknown_header_refuted.

(** ... and always replaced by UNK. *)
Theorem C31_unknown_header : forall T mC mD header ua,
  alone T mC mD 0 ua GClientType <> Panic -> header <> [] -> fnv1 header <> 0%N -> unbound (hr_idx T) (fnv1 header) ->
  answer T (prepared mC mD header ua) GBrowser = Ok (VB (bs "UNK")).
Proof. exact hint_unknown. Qed.
Print Assumptions C31_unknown_header.

(** C32: the browser version is the fragment chosen by the entry, cut after its first slash, without trailing dots. *)
Theorem C32_version_format : forall T mC mD h ua,
  client_sane T -> small ua -> forall s, alone T mC mD h ua GBrowserVersionString = Ok (VB s) ->
  (no_client T mC ua /\ s = []) \/
  (exists t idx x frag, client_is T mC ua t idx x /\ client_fragment T ua x frag /\ version_of_fragment frag s).
Proof. exact browser_version. Qed.
Print Assumptions C32_version_format.

Example C32_case : alone shipped 63 1023 0 camera_ua GBrowserVersionString = Ok (VB (bs "1.2.3")).
Proof. exact (bytes_case shipped 63 1023 0 camera_ua GBrowserVersionString (bs "1.2.3") ltac:(vm_compute; reflexivity)). Qed.

(** C39 is false: Chrome 100 has a threshold 28 for Blink, but "100" is before "28" as text. *)
Theorem C39_numeric_thresholds_refuted : exists T ua x f v m n e good bad,
  client_is T 1 ua 1 1 x /\ ct_engineFI x <> (-1)%Z /\ nth_error (cr_ef T) (Z.to_nat (ct_engineFI x)) = Some f /\
  alone T 1 1023 0 ua GBrowserVersionString = Ok (VB v) /\ major_of v m /\ Decimal m n /\
  best_engine f n e /\ text (cr_buf T) e good /\
  alone T 1 1023 0 ua GEngine = Ok (VB bad) /\ bad <> good.
Proof.
  exact (chrome_case shipped (bs "Chrome/100.0") (bs "100.0") (bs "100") (bs "Blink") (bs "WebKit") (bs "28") 28 100
    ltac:(vm_compute; reflexivity)).
Qed.
Print Assumptions C39_numeric_thresholds_refuted.

(** C39 holds when the thresholds have as many digits as the major version and are listed greatest first. *)
Theorem C39_same_length : forall T ua x f s m n e,
  ct_engineFI x <> (-1)%Z -> nth_error (cr_ef T) (Z.to_nat (ct_engineFI x)) = Some f ->
  engine_source T ua x s -> major_of s m -> Decimal m n ->
  (forall t e', In (t, e') (fst f) -> length t = length m) ->
  (forall l1 t e' l2, fst f = l1 ++ (t, e') :: l2 ->
     exists k, Decimal t k /\ forall t' e'' k', In (t', e'') l2 -> Decimal t' k' -> (k' <= k)%Z) ->
  threshold f m e -> own_engine T ua x e /\ best_engine f n e.
Proof. exact engine_function_numeric. Qed.
Print Assumptions C39_same_length.

(** C40: where engine and engine version come from. *)
Theorem C40_engine_order : forall T mC mD h ua, client_sane T -> small ua ->
  (forall s, alone T mC mD h ua GEngine = Ok (VB s) ->
     (not_a_browser T mC ua /\ s = []) \/
     (exists t x e, client_is T mC ua t 1 x /\ engine_is T ua x e /\ engine_name_is T ua e s)) /\
  (forall s, alone T mC mD h ua GEngineVersionString = Ok (VB s) ->
     (not_a_browser T mC ua /\ s = []) \/
     (exists t x e, client_is T mC ua t 1 x /\ engine_is T ua x e /\ engine_version_is T ua e s)).
Proof. exact engine_full. Qed.
Print Assumptions C40_engine_order.

Example C40_case : alone shipped 1 1023 0 (bs "AVG/100.0") GEngine = Ok (VB (bs "WebKit")).
Proof. exact (bytes_case shipped 1 1023 0 (bs "AVG/100.0") GEngine (bs "WebKit") ltac:(vm_compute; reflexivity)). Qed.

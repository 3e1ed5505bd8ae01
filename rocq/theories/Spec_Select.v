(** What detection promises: which entry of the tables is chosen for a user agent, and what the getters report about
    it.  Nothing here uses the parser model; only the shape of the tables ([Model_Ctx.v]) is shared. *)
From Verif Require Import Model_Base Model_Ctx Spec_Version.

(** [s] is the part of [buf] between the two bounds packed into [e] (low bound in the upper 32 bits). *)
Definition text (buf : bytes) (e : N) (s : bytes) : Prop :=
  exists a b, buf = a ++ s ++ b /\
    N.of_nat (length a) = (e / 4294967296)%N /\ N.of_nat (length a + length s) = (e mod 4294967296)%N.

(** A fixed, non-empty text occurs in the user agent. *)
Definition occurs (s ua : bytes) : Prop := s <> [] /\ exists a b, ua = a ++ s ++ b.

(** An entry with pattern number [ri] (negative: none) or else the fixed text [m64] applies to the user agent. *)
Definition applies (res : list regex) (buf : bytes) (ri : Z) (m64 : N) (ua : bytes) : Prop :=
  ((0 <= ri)%Z /\ exists r, nth_error res (Z.to_nat ri) = Some r /\ re_find r ua <> None) \/
  ((ri < 0)%Z /\ exists s, text buf m64 s /\ occurs s ua).

(** [x] is the first element of [l] satisfying [P]. *)
Definition first {A} (P : A -> Prop) (l : list A) (x : A) : Prop :=
  exists l1 l2, l = l1 ++ x :: l2 /\ P x /\ forall y, In y l1 -> ~ P y.
Definition none {A} (P : A -> Prop) (l : list A) : Prop := forall y, In y l -> ~ P y.
(** ... and the last one. *)
Definition last_of {A} (P : A -> Prop) (l : list A) (x : A) : Prop :=
  exists l1 l2, l = l1 ++ x :: l2 /\ P x /\ forall y, In y l2 -> ~ P y.

(** A pattern finds [m] in the user agent; group [i] of [m] captured [s], or did not take part. *)
Definition captured (m : list Z) (i : Z) (ua s : bytes) : Prop :=
  exists a b, ua = a ++ s ++ b /\ (0 <= i)%Z /\
    nth_error m (2 * Z.to_nat i) = Some (Z.of_nat (length a)) /\
    nth_error m (2 * Z.to_nat i + 1) = Some (Z.of_nat (length a + length s)).
Definition absent (m : list Z) (i : Z) : Prop :=
  (0 <= i)%Z /\ forall lo hi, nth_error m (2 * Z.to_nat i) = Some lo -> nth_error m (2 * Z.to_nat i + 1) = Some hi ->
  lo = (-1)%Z \/ hi = (-1)%Z.

(** Submatch indices are sane: pairs, each either (-1, -1) or a range inside the text (the contract of
    [FindSubmatchIndex]). *)
Definition sane_regex (r : regex) : Prop :=
  forall s m, re_find r s = Some m ->
  exists ps, m = flat_map (fun x => [fst x; snd x]) ps /\
    Forall (fun x => x = (-1, -1)%Z \/ (0 <= fst x <= snd x /\ snd x <= Z.of_nat (length s))%Z) ps.

(** Shorter than 4 GiB (positions fit 32 bits, and -1 converted to uint32 lies outside). *)
Definition small (ua : bytes) : Prop := (N.of_nat (length ua) < 4294967295)%N.

(** ** Clients *)
Section Client.
Variable T : tables.

Definition client_applies (ua : bytes) (x : clientTuple) : Prop :=
  applies (cr_re T) (cr_buf T) (ct_matchRI x) (ct_match64 x) ua.

(** The classes in the documented order: feed reader, mobile app, media player, PIM, library, browser; with their
    place in the table. *)
Definition client_order : list (N * nat) := [(8, 2%nat); (2, 5%nat); (16, 4%nat); (32, 6%nat); (4, 3%nat); (1, 1%nat)]%N.
Definition on (mask typ : N) : Prop := N.land mask typ <> 0%N.

(** The class says nothing about the user agent: it is switched off, or none of its entries applies. *)
Definition client_silent (mask : N) (ua : bytes) (k : N * nat) : Prop :=
  on mask (fst k) -> exists ir, nth_error (cr_idx T) (snd k) = Some ir /\ none (client_applies ua) ir.

(** Entry [x] of class [(typ, idx)] is the client of the user agent. *)
Definition client_is (mask : N) (ua : bytes) (typ : N) (idx : nat) (x : clientTuple) : Prop :=
  exists before after ir, client_order = before ++ (typ, idx) :: after /\
    Forall (client_silent mask ua) before /\ on mask typ /\
    nth_error (cr_idx T) idx = Some ir /\ first (client_applies ua) ir x.
Definition no_client (mask : N) (ua : bytes) : Prop := Forall (client_silent mask ua) client_order.

(** The piece of text the version of entry [x] is taken from.  An entry that matches by a fixed text has no version
    (client_parser.go:100-108). *)
Inductive client_fragment (ua : bytes) (x : clientTuple) : bytes -> Prop :=
| CF_fixed_text : (ct_matchRI x < 0)%Z -> client_fragment ua x []
| CF_constant s : (0 <= ct_matchRI x)%Z -> ct_version64 x <> 0%N -> text (cr_buf T) (ct_version64 x) s ->
    client_fragment ua x s
| CF_no_version : (0 <= ct_matchRI x)%Z -> ct_version64 x = 0%N -> ct_browserVI x = (-1)%Z -> client_fragment ua x []
| CF_group r m s : (0 <= ct_matchRI x)%Z -> ct_version64 x = 0%N -> ct_browserVI x <> (-1)%Z ->
    nth_error (cr_re T) (Z.to_nat (ct_matchRI x)) = Some r -> re_find r ua = Some m ->
    captured m (ct_browserVI x) ua s -> client_fragment ua x s
| CF_absent r m : (0 <= ct_matchRI x)%Z -> ct_version64 x = 0%N -> ct_browserVI x <> (-1)%Z ->
    nth_error (cr_re T) (Z.to_nat (ct_matchRI x)) = Some r -> re_find r ua = Some m ->
    absent m (ct_browserVI x) -> client_fragment ua x [].

(** [out] is [s] without everything up to its first slash and without its trailing dots. *)
Definition version_of_fragment (s out : bytes) : Prop :=
  exists rest n, (~ In x2f s /\ rest = s \/ exists pre, s = pre ++ x2f :: rest /\ ~ In x2f pre) /\
    rest = out ++ repeat x2e n /\ (forall y, out <> y ++ [x2e]).

(** Client tables the theorems speak about: patterns with sane submatch indices, group numbers that fit. *)
Definition client_sane : Prop :=
  Forall sane_regex (cr_re T) /\ Forall sane_regex (cr_evre T) /\
  Forall (Forall (fun x => (-1 <= ct_browserVI x < 64)%Z)) (cr_idx T).

(** *** Engine of a browser entry *)

Definition engine_applies := client_applies.

(** Text up to the first dot; empty when there is no dot. *)
Definition major_of (s m : bytes) : Prop :=
  (exists r, s = m ++ x2e :: r /\ ~ In x2e m) \/ (~ In x2e s /\ m = []).

(** Go's order of strings. *)
Definition text_le (a b : bytes) : Prop :=
  (exists r, b = a ++ r) \/
  (exists p x y a' b', a = p ++ x :: a' /\ b = p ++ y :: b' /\ (bn x < bn y)%N).

(** Result of a version function: the first threshold in text order not above the major version, or the default. *)
Definition threshold (f : engineFn) (s : bytes) (e : N) : Prop :=
  (exists t, first (fun te => text_le (fst te) s) (fst f) (t, e)) \/
  (none (fun te => text_le (fst te) s) (fst f) /\ e = snd f).

(** The text whose major version is compared with the thresholds: the version fragment; for an entry with a constant
    version it is the piece of the user agent at the bounds of that constant (engine_parser.go:19-23 reads the user
    agent in both cases). *)
Inductive engine_source (ua : bytes) (x : clientTuple) : bytes -> Prop :=
| ES_constant s : (0 <= ct_matchRI x)%Z -> ct_version64 x <> 0%N -> text ua (ct_version64 x) s -> engine_source ua x s
| ES_fragment s : (ct_matchRI x < 0)%Z \/ ct_version64 x = 0%N -> client_fragment ua x s -> engine_source ua x s.

(** The engine named by the entry itself (0: none). *)
Inductive own_engine (ua : bytes) (x : clientTuple) : N -> Prop :=
| OE_default : ct_engineFI x = (-1)%Z -> own_engine ua x (ct_engine64 x)
| OE_function f s m e : ct_engineFI x <> (-1)%Z -> nth_error (cr_ef T) (Z.to_nat (ct_engineFI x)) = Some f ->
    engine_source ua x s -> major_of s m -> threshold f m e -> own_engine ua x e.

Definition engine_class : list clientTuple := nth 0 (cr_idx T) [].

(** The engine of the entry: its own, else the first engine entry that applies, else none. *)
Inductive engine_is (ua : bytes) (x : clientTuple) : N -> Prop :=
| EI_own e : own_engine ua x e -> e <> 0%N -> engine_is ua x e
| EI_pattern v : own_engine ua x 0 -> first (engine_applies ua) engine_class v -> engine_is ua x (ct_browser64 v)
| EI_none : own_engine ua x 0 -> none (engine_applies ua) engine_class -> engine_is ua x 0.

(** First binding of a key. *)
Definition bound {A} (m : list (N * A)) (k : N) (v : A) : Prop := first (fun kv => fst kv = k) m (k, v).
Definition unbound {A} (m : list (N * A)) (k : N) : Prop := none (fun kv => fst kv = k) m.

(** The engine version: group 1 of the engine's own pattern. *)
Inductive engine_version_is (ua : bytes) (e : N) : bytes -> Prop :=
| EV_none : e = 0%N \/ unbound (cr_ev T) e -> engine_version_is ua e []
| EV_nomatch ri r : e <> 0%N -> bound (cr_ev T) e ri -> nth_error (cr_evre T) (Z.to_nat ri) = Some r ->
    re_find r ua = None -> engine_version_is ua e []
| EV_nogroup ri r m : e <> 0%N -> bound (cr_ev T) e ri -> nth_error (cr_evre T) (Z.to_nat ri) = Some r ->
    re_find r ua = Some m -> length m < 4 -> engine_version_is ua e []
| EV_group ri r m s : e <> 0%N -> bound (cr_ev T) e ri -> nth_error (cr_evre T) (Z.to_nat ri) = Some r ->
    re_find r ua = Some m -> captured m 1 ua s -> engine_version_is ua e s.

(** The name of the engine. *)
Definition engine_name_is (ua : bytes) (e : N) (s : bytes) : Prop :=
  (e <> 0%N /\ text (cr_buf T) e s) \/
  (e = 0%N /\ re_find (re_blink T) ua <> None /\ s = bs "Blink") \/
  (e = 0%N /\ re_find (re_blink T) ua = None /\ s = []).

(** No browser entry is chosen: another class answers, or none. *)
Definition not_a_browser (mask : N) (ua : bytes) : Prop :=
  no_client mask ua \/ exists t idx x, client_is mask ua t idx x /\ idx <> 1.
End Client.

(** The engine a reader of the thresholds expects for version number [n]: that of the greatest (whole) threshold not
    above [n], or the default. *)
Definition best_engine (f : engineFn) (n : Z) (e : N) : Prop :=
  (exists t k, In (t, e) (fst f) /\ Decimal t k /\ (k <= n)%Z /\
     forall t' e' k', In (t', e') (fst f) -> Decimal t' k' -> (k' <= n)%Z -> (k' <= k)%Z) \/
  ((forall t' e' k', In (t', e') (fst f) -> Decimal t' k' -> (n < k')%Z) /\ e = snd f).

(** ** Operating systems *)
Section OS.
Variable T : tables.

Definition mac_words : list bytes := [bs "Mac"; bs "(x86_64)"; bs "com.apple.Safari"].
Definition looks_mac (ua : bytes) : Prop := exists w, In w mac_words /\ occurs w ua.
Definition like_android (ua : bytes) : Prop := occurs (bs "like Android") ua.

(** os.go:27-42: the patterns skipped. *)
Definition ios_patterns : list bytes :=
  [bs "(?i)^.*CFNetwork/.+ Darwin/(\d+[\.\d]+)";
   bs "(?i)(?:Podcasts/(?:[\d\.]+)|Instacast(?:HD)?/(?:\d\.[\d\.abc]+)|Pocket Casts, iOS|\(iOS\)|iOS; Opera|Overcast|Castro|Podcat|iCatcher|RSSRadio/|MobileSafari/)"].
Definition android_patterns : list bytes :=
  [bs "(?i)(?:(?:Orca-)?Android|Adr|AOSP)[ /]?(?:[a-z]+ )?(\d+[\.\d]*)";
   bs "(?i) Adr |Android|Silk-Accelerated=[a-z]{4,5}"].

Definition skipped (ua : bytes) (x : osTuple) : Prop :=
  (0 <= ot_matchRI x)%Z /\ exists r, nth_error (or_re T) (Z.to_nat (ot_matchRI x)) = Some r /\
  (In (re_src r) ios_patterns /\ looks_mac ua \/ In (re_src r) android_patterns /\ like_android ua).

Definition os_applies (ua : bytes) (x : osTuple) : Prop :=
  ~ skipped ua x /\ applies (or_re T) (or_buf T) (ot_matchRI x) (ot_match64 x) ua.
Definition os_is (ua : bytes) (x : osTuple) : Prop := first (os_applies ua) (or_os T) x.
Definition no_os (ua : bytes) : Prop := none (os_applies ua) (or_os T).

(** The pattern of an entry and what it finds. *)
Definition finds (ri : Z) (ua : bytes) (m : list Z) : Prop :=
  (0 <= ri)%Z /\ exists r, nth_error (or_re T) (Z.to_nat ri) = Some r /\ re_find r ua = Some m.

(** A group chosen by an index is there: the index is set, is not beyond the vector, and the group took part. *)
Definition group_text (m : list Z) (si : Z) (ua s : bytes) : Prop := si <> (-1)%Z /\ captured m si ua s.
Definition no_group (m : list Z) (si : Z) : Prop := si = (-1)%Z \/ absent m si.

(** [out] is [s] without surrounding spaces. *)
Definition trimmed (s out : bytes) : Prop :=
  exists i j, s = repeat x20 i ++ out ++ repeat x20 j /\ (forall y, out <> x20 :: y) /\ (forall y, out <> y ++ [x20]).

(** The group starts where the user agent starts. *)
Definition at_start (m : list Z) (i : Z) : Prop := nth_error m (2 * Z.to_nat i) = Some 0%Z.
(** The name reported; a group that captured the empty text at the very start counts as "no name". *)
Inductive os_name_is (ua : bytes) (x : osTuple) : bytes -> Prop :=
| ON_group m s out : finds (ot_matchRI x) ua m -> group_text m (ot_nameSI x) ua s ->
    s <> [] \/ ~ at_start m (ot_nameSI x) -> trimmed s out -> os_name_is ua x out
| ON_empty m : finds (ot_matchRI x) ua m -> group_text m (ot_nameSI x) ua [] -> at_start m (ot_nameSI x) -> os_name_is ua x (bs "UNK")
| ON_const s out : (forall m, finds (ot_matchRI x) ua m -> no_group m (ot_nameSI x)) ->
    ot_name64 x <> 0%N -> text (or_buf T) (ot_name64 x) s -> trimmed s out -> os_name_is ua x out
| ON_none : (forall m, finds (ot_matchRI x) ua m -> no_group m (ot_nameSI x)) ->
    ot_name64 x = 0%N -> os_name_is ua x (bs "UNK").

(** The elements of [l] between the two bounds packed into [e]. *)
Definition range_of {A} (l : list A) (e : N) : list A :=
  firstn (N.to_nat (e mod 4294967296 - e / 4294967296)) (skipn (N.to_nat (e / 4294967296)) l).

(** The sub-version entries of an OS entry. *)
Definition ov_applies (ua : bytes) (v : osVersionTuple) : Prop :=
  applies (or_re T) (or_buf T) (ov_matchRI v) (ov_match64 v) ua.
Definition subversions (x : osTuple) : list osVersionTuple := range_of (or_ov T) (ot_versions64 x).

(** What the entry's own version group captured. *)
Definition entry_group (m : list Z) (x : osTuple) (ua s : bytes) : Prop :=
  group_text m (ot_versionSI x) ua s \/ no_group m (ot_versionSI x) /\ s = [].

(** The version before underscores are replaced: the entry's constant if it has one; otherwise, for an entry with
    a pattern, the first sub-version that applies (its constant, or its group), or what the entry's group captured. *)
Inductive os_version_is (ua : bytes) (x : osTuple) : bytes -> Prop :=
| OV_const s : ot_version64 x <> 0%N -> text (or_buf T) (ot_version64 x) s -> os_version_is ua x s
| OV_fixed_text : ot_version64 x = 0%N -> (ot_matchRI x < 0)%Z -> os_version_is ua x []
| OV_entry m s : ot_version64 x = 0%N -> finds (ot_matchRI x) ua m ->
    ot_versions64 x = 0%N \/ none (ov_applies ua) (subversions x) -> entry_group m x ua s -> os_version_is ua x s
| OV_sub_const m v s : ot_version64 x = 0%N -> finds (ot_matchRI x) ua m ->
    ot_versions64 x <> 0%N -> first (ov_applies ua) (subversions x) v ->
    (ov_matchRI v < 0)%Z \/ ov_versionSI v = (-1)%Z -> text (or_buf T) (ov_version64 v) s -> os_version_is ua x s
| OV_sub_group m v mv s : ot_version64 x = 0%N -> finds (ot_matchRI x) ua m ->
    ot_versions64 x <> 0%N -> first (ov_applies ua) (subversions x) v ->
    finds (ov_matchRI v) ua mv -> group_text mv (ov_versionSI v) ua s -> os_version_is ua x s
| OV_sub_absent m v mv s : ot_version64 x = 0%N -> finds (ot_matchRI x) ua m ->
    ot_versions64 x <> 0%N -> first (ov_applies ua) (subversions x) v ->
    finds (ov_matchRI v) ua mv -> ov_versionSI v <> (-1)%Z -> absent mv (ov_versionSI v) ->
    entry_group m x ua s -> os_version_is ua x s.

(** OS tables the theorems speak about. *)
Definition os_sane : Prop :=
  Forall sane_regex (or_re T) /\
  Forall (fun x => (-1 <= ot_nameSI x < 64)%Z /\ (-1 <= ot_versionSI x < 64)%Z) (or_os T) /\
  Forall (fun v => (-1 <= ov_versionSI v < 64)%Z) (or_ov T).

(** Underscores become dots, everything else stays. *)
Definition dotted (s out : bytes) : Prop :=
  length out = length s /\
  forall i b, nth_error s i = Some b ->
    (b = x5f -> nth_error out i = Some x2e) /\ (b <> x5f -> nth_error out i = Some b).
End OS.

(** ** Devices *)
Section Device.
Variable T : tables.

Definition device_applies (ua : bytes) (x : deviceTuple) : Prop :=
  applies (dr_re T) (dr_buf T) (dt_matchRI x) (dt_match64 x) ua.

(** Mask bit, class, default type, in the documented order: camera, car browser, console, portable media player,
    shell TV, TV, mobile, notebook.  (The default of portable media players is "notebook": device_parser.go:87.) *)
Definition device_order : list (N * nat * N) :=
  [(128, 0%nat, 128); (256, 1%nat, 256); (16, 2%nat, 16); (512, 5%nat, 1); (64, 6%nat, 64); (32, 7%nat, 32);
   (2, 3%nat, 2); (1, 4%nat, 1)]%N.

Definition device_silent (mask : N) (ua : bytes) (k : N * nat * N) : Prop :=
  on mask (fst (fst k)) -> exists ir, nth_error (dr_idx T) (snd (fst k)) = Some ir /\ none (device_applies ua) ir.
Definition device_is (mask : N) (ua : bytes) (bit : N) (idx : nat) (def : N) (x : deviceTuple) : Prop :=
  exists before after ir, device_order = before ++ (bit, idx, def) :: after /\
    Forall (device_silent mask ua) before /\ on mask bit /\
    nth_error (dr_idx T) idx = Some ir /\ first (device_applies ua) ir x.
Definition no_device (mask : N) (ua : bytes) : Prop := Forall (device_silent mask ua) device_order.

(** Type names known to the code. *)
Definition type_names : list (bytes * N) :=
  [(bs "smartphone", 2); (bs "phablet", 4); (bs "tablet", 8); (bs "tv", 32); (bs "console", 16);
   (bs "portable media player", 512)]%N.
Definition type_called (s : bytes) (def t : N) : Prop :=
  In (s, t) type_names \/ (forall u, ~ In (s, u) type_names) /\ t = def.
(** The type named by [own], or by [outer] when [own] is empty. *)
Definition type_from (own outer def t : N) : Prop :=
  exists s, text (dr_buf T) own s /\
    (s <> [] /\ type_called s def t \/ s = [] /\ exists s', text (dr_buf T) outer s' /\ type_called s' def t).

Definition model_applies (ua : bytes) (m : modelTuple) : Prop :=
  applies (dr_re T) (dr_buf T) (mt_matchRI m) (mt_match64 m) ua.
Definition models (x : deviceTuple) : list modelTuple := range_of (dr_dm T) (dt_models64 x).

(** The model entry that goes with a device entry: its single model, or the first of its models that applies.  The
    first argument is the pattern number whose groups fill the template. *)
Inductive model_is (ua : bytes) (x : deviceTuple) : option (Z * modelTuple) -> Prop :=
| MI_single m : dt_modelSI x <> (-1)%Z -> nth_error (dr_dm T) (Z.to_nat (dt_modelSI x)) = Some m ->
    model_is ua x (Some (dt_matchRI x, m))
| MI_list m : dt_modelSI x = (-1)%Z -> dt_models64 x <> 0%N -> first (model_applies ua) (models x) m ->
    model_is ua x (Some (mt_matchRI m, m))
| MI_none : dt_modelSI x = (-1)%Z -> dt_models64 x = 0%N \/ none (model_applies ua) (models x) -> model_is ua x None.

(** The type: named by the model or else by the entry; the class default when the entry has a list of models and
    none of them applies. *)
Inductive device_type_is (ua : bytes) (x : deviceTuple) (def : N) : N -> Prop :=
| DT_model ri m t : model_is ua x (Some (ri, m)) -> type_from (mt_type64 m) (dt_type64 x) def t ->
    device_type_is ua x def t
| DT_entry t : model_is ua x None -> dt_models64 x = 0%N -> type_from (dt_type64 x) 0 def t -> device_type_is ua x def t
| DT_default : model_is ua x None -> dt_models64 x <> 0%N -> device_type_is ua x def def.

(** Expansion of a template: [$1], [$2], [$3] stand for captured groups (any other character after the dollar for
    the whole match; a second dollar then starts a placeholder of its own); at the first group that is missing or did
    not take part the expansion stops. *)
Definition group_no (d : byte) : Z :=
  if beqs [d] (bs "1") then 1%Z else if beqs [d] (bs "2") then 2%Z else if beqs [d] (bs "3") then 3%Z else 0%Z.
Inductive expands (m : list Z) (ua : bytes) : bytes -> bytes -> Prop :=
| EX_plain s : ~ In x24 s -> expands m ua s s
| EX_group pre d rest s out : ~ In x24 pre -> d <> x24 -> captured m (group_no d) ua s -> expands m ua rest out ->
    expands m ua (pre ++ x24 :: d :: rest) (pre ++ s ++ out)
| EX_dollar pre rest s out : ~ In x24 pre -> captured m 0 ua s -> expands m ua (x24 :: rest) out ->
    expands m ua (pre ++ x24 :: x24 :: rest) (pre ++ s ++ out)
| EX_stop pre d rest : ~ In x24 pre -> absent m (group_no d) -> expands m ua (pre ++ x24 :: d :: rest) pre.

(** The model before trimming. *)
Inductive model_text (ua : bytes) (x : deviceTuple) : bytes -> Prop :=
| MT_none : model_is ua x None -> model_text ua x []
| MT_fixed ri m s : model_is ua x (Some (ri, m)) -> (ri < 0)%Z -> text (dr_buf T) (mt_model64 m) s -> model_text ua x s
| MT_template ri m r ms tpl out : model_is ua x (Some (ri, m)) -> (0 <= ri)%Z ->
    nth_error (dr_re T) (Z.to_nat ri) = Some r -> re_find r ua = Some ms ->
    text (dr_buf T) (mt_model64 m) tpl -> expands ms ua tpl out -> model_text ua x out.

(** The brand of an entry: its constant without surrounding spaces. *)
Definition brand_is (x : deviceTuple) (s : bytes) : Prop :=
  (dt_brand64 x = 0%N /\ s = bs "UNK") \/
  (dt_brand64 x <> 0%N /\ exists w, text (dr_buf T) (dt_brand64 x) w /\ trimmed w s).

(** Device tables the theorems speak about: sane patterns, templates shorter than 256 bytes; and user agents shorter
    than 16 MiB (so that an expanded template stays below 4 GiB). *)
Definition device_sane : Prop :=
  Forall sane_regex (dr_re T) /\
  Forall (fun m => forall tpl, text (dr_buf T) (mt_model64 m) tpl -> (length tpl < 256)%nat) (dr_dm T).
Definition short (ua : bytes) : Prop := (N.of_nat (length ua) < 16777215)%N.

(** device_parser.go:24-39. *)
Definition desktop_names : list bytes :=
  [bs "AmigaOS"; bs "IBM"; bs "GNU/Linux"; bs "Ubuntu"; bs "Fedora"; bs "Mac"; bs "Unix"; bs "OpenBSD"; bs "FreeBSD";
   bs "Windows"; bs "BeOS"; bs "Chrome OS"; bs "Chromium OS"; bs "OS ROSA"].

(** The type when no entry applies and the operating system is called [os]. *)
Definition fallback_type (mask : N) (ua os : bytes) (t : N) : Prop :=
  (on mask 1 /\ In os desktop_names /\ t = 1%N) \/
  (~ (on mask 1 /\ In os desktop_names) /\
   ((re_find (re_tablet T) ua <> None /\ t = 8%N) \/
    (re_find (re_tablet T) ua = None /\ re_find (re_mobile T) ua <> None /\ t = 2%N) \/
    (re_find (re_tablet T) ua = None /\ re_find (re_mobile T) ua = None /\ t = 0%N))).

(** The vendor fragments in table order, each with its brand. *)
Definition fragments : list (N * regex) :=
  flat_map (fun v => map (fun r => (vt_brand64 v, r)) (range_of (vr_re T) (vt_range64 v))) (vr_idx T).

(** The brand when no entry applies: the last vendor fragment found, unless the words Tablet or Mobile occur. *)
Inductive fallback_brand (ua : bytes) : bytes -> Prop :=
| FB_word : re_find (re_tablet T) ua <> None \/ re_find (re_mobile T) ua <> None -> fallback_brand ua (bs "UNK")
| FB_none : re_find (re_tablet T) ua = None -> re_find (re_mobile T) ua = None ->
    none (fun br => re_find (snd br) ua <> None) fragments -> fallback_brand ua (bs "UNK")
| FB_last b r s out : re_find (re_tablet T) ua = None -> re_find (re_mobile T) ua = None ->
    last_of (fun br => re_find (snd br) ua <> None) fragments (b, r) ->
    text (vr_buf T) b s -> trimmed s out -> b <> 0%N -> fallback_brand ua out
| FB_unnamed r : re_find (re_tablet T) ua = None -> re_find (re_mobile T) ua = None ->
    last_of (fun br => re_find (snd br) ua <> None) fragments (0%N, r) -> fallback_brand ua (bs "UNK").
End Device.

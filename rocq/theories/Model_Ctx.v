(** Model of ctx.go (state, setters, reset), client.go, device.go, the tuple types and cache_entry.go's FromCtx,
    together with the two monads used to transcribe the parsers. *)
From Verif Require Import Model_Base Model_CacheEntry Model_Version.

(** ** Enumerations *)

(** client.go:9-18: [1 << iota]. *)
Definition ClientTypeBrowser : N := 1.
Definition ClientTypeMobileApp : N := 2.
Definition ClientTypeLibrary : N := 4.
Definition ClientTypeFeedReader : N := 8.
Definition ClientTypeMediaPlayer : N := 16.
Definition ClientTypePIM : N := 32.
Definition ClientTypeAll : N := 63.

(** device.go:7-21. *)
Definition DeviceTypeNotebook : N := 1.
Definition DeviceTypeMobile : N := 2.
Definition DeviceTypePhablet : N := 4.
Definition DeviceTypeTablet : N := 8.
Definition DeviceTypeConsole : N := 16.
Definition DeviceTypeTV : N := 32.
Definition DeviceTypeShellTV : N := 64.
Definition DeviceTypeCamera : N := 128.
Definition DeviceTypeCarBrowser : N := 256.
Definition DeviceTypePortableMediaPlayer : N := 512.
Definition DeviceTypeAll : N := 1023.

(** ctx.go:14 [Unknown]. *)
Definition Unknown : bytes := bs "UNK".

(** client.go:34-51 [ClientType.String]. *)
Definition client_type_string (t : N) : bytes :=
  if (t =? ClientTypeBrowser)%N then bs "browser"
  else if (t =? ClientTypeMobileApp)%N then bs "mobile app"
  else if (t =? ClientTypeLibrary)%N then bs "library"
  else if (t =? ClientTypeFeedReader)%N then bs "feed reader"
  else if (t =? ClientTypeMediaPlayer)%N then bs "mediaplayer"
  else if (t =? ClientTypePIM)%N then bs "pim"
  else Unknown.

(** device.go:39-64 [DeviceType.String]. *)
Definition device_type_string (t : N) : bytes :=
  if (t =? DeviceTypeNotebook)%N then bs "desktop"
  else if (t =? DeviceTypeMobile)%N then bs "smartphone"
  else if (t =? DeviceTypeTablet)%N then bs "tablet"
  else if (t =? DeviceTypePhablet)%N then bs "phablet"
  else if (t =? DeviceTypeConsole)%N then bs "console"
  else if (t =? DeviceTypeTV)%N then bs "tv"
  else if (t =? DeviceTypeShellTV)%N then bs "tv"
  else if (t =? DeviceTypeCamera)%N then bs "camera"
  else if (t =? DeviceTypeCarBrowser)%N then bs "car browser"
  else if (t =? DeviceTypePortableMediaPlayer)%N then bs "portable media player"
  else Unknown.

(** ctx.go:13-28: [iota] is 1 at flagClientDetect (Unknown is the constant 0 of the block). *)
Definition flagClientDetect : N := 1.
Definition flagDeviceDetect : N := 2.
Definition flagOSDetect : N := 3.
Definition flagOSBufSrc : N := 4.
Definition flagOSVerBufSrc : N := 5.
Definition flagVerConstSrc : N := 6.
Definition flagDeviceForceDesktop : N := 7.
Definition flagEngineForceBlink : N := 8.
Definition flagVendorFragment : N := 9.

(** ** Tables *)

(** A compiled regular expression, as far as the parsers use it: its source text ([String()]) and
    [FindSubmatchIndex] ([None] is nil).  [Match(s)] is [FindSubmatchIndex(s) != nil]. *)
Record regex := mkRegex { re_src : bytes; re_find : bytes -> option (list Z) }.
Definition re_match (r : regex) (s : bytes) : bool :=
  match re_find r s with Some _ => true | None => false end.
(** [FindSubmatchIndex] as a slice: nil has length 0. *)
Definition re_groups (r : regex) (s : bytes) : list Z :=
  match re_find r s with Some m => m | None => [] end.

(** client.go:22-32. *)
Record clientTuple := mkClient {
  ct_matchRI : Z; ct_match64 : N; ct_browser64 : N; ct_version64 : N; ct_browserVI : Z;
  ct_engine64 : N; ct_engineFI : Z; ct_url64 : N; ct_type64 : N
}.
(** os.go:9-17. *)
Record osTuple := mkOS {
  ot_name64 : N; ot_nameSI : Z; ot_matchRI : Z; ot_match64 : N; ot_versionSI : Z; ot_version64 : N; ot_versions64 : N
}.
(** os.go:19-24. *)
Record osVersionTuple := mkOV { ov_matchRI : Z; ov_match64 : N; ov_versionSI : Z; ov_version64 : N }.
(** device.go:23-30. *)
Record deviceTuple := mkDevice {
  dt_type64 : N; dt_brand64 : N; dt_matchRI : Z; dt_match64 : N; dt_modelSI : Z; dt_models64 : N
}.
(** device.go:32-37. *)
Record modelTuple := mkModel { mt_type64 : N; mt_matchRI : Z; mt_match64 : N; mt_model64 : N }.
(** vendor.go:5-8. *)
Record vendorTuple := mkVendor { vt_brand64 : N; vt_range64 : N }.

(** A function of [__cr_ef] (client_repo.go:2852-3054): [if s >= "t1" {return e1} ... return d]. *)
Definition engineFn := (list (bytes * N) * N)%type.

(** Go string comparison [a <= b] (bytewise, shorter prefix first). *)
Fixpoint str_leb (a b : bytes) : bool :=
  match a, b with
  | [], _ => true
  | _ :: _, [] => false
  | x :: a', y :: b' => (bn x <? bn y)%N || (beq x y && str_leb a' b')
  end.
Fixpoint ef_apply_list (l : list (bytes * N)) (d : N) (s : bytes) : N :=
  match l with
  | [] => d
  | (t, e) :: l' => if str_leb t s then e else ef_apply_list l' d s
  end.
Definition ef_apply (f : engineFn) (s : bytes) : N := ef_apply_list (fst f) (snd f) s.

(** A Go map with integer keys, as an association list. *)
Fixpoint amap_get {A} (m : list (N * A)) (k : N) : option A :=
  match m with
  | [] => None
  | (k', v) :: m' => if (k' =? k)%N then Some v else amap_get m' k
  end.

(** The generated tables ([__cr_*], [__or_*], [__dr_*], [__vr_*], [__hr_*]) and the three patterns compiled in
    device_parser.go:41-42 and engine_parser.go:11. *)
Record tables := mkTables {
  cr_idx : list (list clientTuple); cr_re : list regex; cr_ef : list engineFn;
  cr_ev : list (N * Z); cr_evre : list regex; cr_buf : bytes;
  or_os : list osTuple; or_ov : list osVersionTuple; or_re : list regex; or_buf : bytes;
  dr_idx : list (list deviceTuple); dr_dm : list modelTuple; dr_re : list regex; dr_buf : bytes;
  vr_idx : list vendorTuple; vr_re : list regex; vr_buf : bytes;
  hr_idx : list (N * N); hr_buf : bytes;
  re_tablet : regex; re_mobile : regex; re_blink : regex
}.

(** ** Contexts *)

(** ctx.go:30-55 [type Ctx struct]. *)
Record ctx := mkCtx {
  c_bits : N; c_src : bytes; c_buf : bytes;
  c_maskC : N; c_maskD : N; c_hint : N;
  c_clientType : N; c_clientName : N; c_clientVersion : N; c_cver : version;
  c_engineName : N; c_engineVersion : N; c_ever : version;
  c_deviceType : N; c_brand : N; c_model : N;
  c_osName : N; c_osVersion : N; c_over : version
}.

(** ctx.go:57-63 [NewCtx]. *)
Definition new_ctx : ctx :=
  mkCtx 0 [] [] ClientTypeAll DeviceTypeAll 0 0 0 0 version_zero 0 0 version_zero 0 0 0 0 0 version_zero.

(** Field updates. *)
Definition up_bits (x : N) (c : ctx) : ctx :=
  mkCtx x (c_src c) (c_buf c) (c_maskC c) (c_maskD c) (c_hint c) (c_clientType c) (c_clientName c)
    (c_clientVersion c) (c_cver c) (c_engineName c) (c_engineVersion c) (c_ever c) (c_deviceType c) (c_brand c)
    (c_model c) (c_osName c) (c_osVersion c) (c_over c).
Definition up_src (x : bytes) (c : ctx) : ctx :=
  mkCtx (c_bits c) x (c_buf c) (c_maskC c) (c_maskD c) (c_hint c) (c_clientType c) (c_clientName c)
    (c_clientVersion c) (c_cver c) (c_engineName c) (c_engineVersion c) (c_ever c) (c_deviceType c) (c_brand c)
    (c_model c) (c_osName c) (c_osVersion c) (c_over c).
Definition up_buf (x : bytes) (c : ctx) : ctx :=
  mkCtx (c_bits c) (c_src c) x (c_maskC c) (c_maskD c) (c_hint c) (c_clientType c) (c_clientName c)
    (c_clientVersion c) (c_cver c) (c_engineName c) (c_engineVersion c) (c_ever c) (c_deviceType c) (c_brand c)
    (c_model c) (c_osName c) (c_osVersion c) (c_over c).
Definition up_maskC (x : N) (c : ctx) : ctx :=
  mkCtx (c_bits c) (c_src c) (c_buf c) x (c_maskD c) (c_hint c) (c_clientType c) (c_clientName c)
    (c_clientVersion c) (c_cver c) (c_engineName c) (c_engineVersion c) (c_ever c) (c_deviceType c) (c_brand c)
    (c_model c) (c_osName c) (c_osVersion c) (c_over c).
Definition up_maskD (x : N) (c : ctx) : ctx :=
  mkCtx (c_bits c) (c_src c) (c_buf c) (c_maskC c) x (c_hint c) (c_clientType c) (c_clientName c)
    (c_clientVersion c) (c_cver c) (c_engineName c) (c_engineVersion c) (c_ever c) (c_deviceType c) (c_brand c)
    (c_model c) (c_osName c) (c_osVersion c) (c_over c).
Definition up_hint (x : N) (c : ctx) : ctx :=
  mkCtx (c_bits c) (c_src c) (c_buf c) (c_maskC c) (c_maskD c) x (c_clientType c) (c_clientName c)
    (c_clientVersion c) (c_cver c) (c_engineName c) (c_engineVersion c) (c_ever c) (c_deviceType c) (c_brand c)
    (c_model c) (c_osName c) (c_osVersion c) (c_over c).
Definition up_clientType (x : N) (c : ctx) : ctx :=
  mkCtx (c_bits c) (c_src c) (c_buf c) (c_maskC c) (c_maskD c) (c_hint c) x (c_clientName c)
    (c_clientVersion c) (c_cver c) (c_engineName c) (c_engineVersion c) (c_ever c) (c_deviceType c) (c_brand c)
    (c_model c) (c_osName c) (c_osVersion c) (c_over c).
Definition up_clientName (x : N) (c : ctx) : ctx :=
  mkCtx (c_bits c) (c_src c) (c_buf c) (c_maskC c) (c_maskD c) (c_hint c) (c_clientType c) x
    (c_clientVersion c) (c_cver c) (c_engineName c) (c_engineVersion c) (c_ever c) (c_deviceType c) (c_brand c)
    (c_model c) (c_osName c) (c_osVersion c) (c_over c).
Definition up_clientVersion (x : N) (c : ctx) : ctx :=
  mkCtx (c_bits c) (c_src c) (c_buf c) (c_maskC c) (c_maskD c) (c_hint c) (c_clientType c) (c_clientName c)
    x (c_cver c) (c_engineName c) (c_engineVersion c) (c_ever c) (c_deviceType c) (c_brand c)
    (c_model c) (c_osName c) (c_osVersion c) (c_over c).
Definition up_cver (x : version) (c : ctx) : ctx :=
  mkCtx (c_bits c) (c_src c) (c_buf c) (c_maskC c) (c_maskD c) (c_hint c) (c_clientType c) (c_clientName c)
    (c_clientVersion c) x (c_engineName c) (c_engineVersion c) (c_ever c) (c_deviceType c) (c_brand c)
    (c_model c) (c_osName c) (c_osVersion c) (c_over c).
Definition up_engineName (x : N) (c : ctx) : ctx :=
  mkCtx (c_bits c) (c_src c) (c_buf c) (c_maskC c) (c_maskD c) (c_hint c) (c_clientType c) (c_clientName c)
    (c_clientVersion c) (c_cver c) x (c_engineVersion c) (c_ever c) (c_deviceType c) (c_brand c)
    (c_model c) (c_osName c) (c_osVersion c) (c_over c).
Definition up_engineVersion (x : N) (c : ctx) : ctx :=
  mkCtx (c_bits c) (c_src c) (c_buf c) (c_maskC c) (c_maskD c) (c_hint c) (c_clientType c) (c_clientName c)
    (c_clientVersion c) (c_cver c) (c_engineName c) x (c_ever c) (c_deviceType c) (c_brand c)
    (c_model c) (c_osName c) (c_osVersion c) (c_over c).
Definition up_ever (x : version) (c : ctx) : ctx :=
  mkCtx (c_bits c) (c_src c) (c_buf c) (c_maskC c) (c_maskD c) (c_hint c) (c_clientType c) (c_clientName c)
    (c_clientVersion c) (c_cver c) (c_engineName c) (c_engineVersion c) x (c_deviceType c) (c_brand c)
    (c_model c) (c_osName c) (c_osVersion c) (c_over c).
Definition up_deviceType (x : N) (c : ctx) : ctx :=
  mkCtx (c_bits c) (c_src c) (c_buf c) (c_maskC c) (c_maskD c) (c_hint c) (c_clientType c) (c_clientName c)
    (c_clientVersion c) (c_cver c) (c_engineName c) (c_engineVersion c) (c_ever c) x (c_brand c)
    (c_model c) (c_osName c) (c_osVersion c) (c_over c).
Definition up_brand (x : N) (c : ctx) : ctx :=
  mkCtx (c_bits c) (c_src c) (c_buf c) (c_maskC c) (c_maskD c) (c_hint c) (c_clientType c) (c_clientName c)
    (c_clientVersion c) (c_cver c) (c_engineName c) (c_engineVersion c) (c_ever c) (c_deviceType c) x
    (c_model c) (c_osName c) (c_osVersion c) (c_over c).
Definition up_model (x : N) (c : ctx) : ctx :=
  mkCtx (c_bits c) (c_src c) (c_buf c) (c_maskC c) (c_maskD c) (c_hint c) (c_clientType c) (c_clientName c)
    (c_clientVersion c) (c_cver c) (c_engineName c) (c_engineVersion c) (c_ever c) (c_deviceType c) (c_brand c)
    x (c_osName c) (c_osVersion c) (c_over c).
Definition up_osName (x : N) (c : ctx) : ctx :=
  mkCtx (c_bits c) (c_src c) (c_buf c) (c_maskC c) (c_maskD c) (c_hint c) (c_clientType c) (c_clientName c)
    (c_clientVersion c) (c_cver c) (c_engineName c) (c_engineVersion c) (c_ever c) (c_deviceType c) (c_brand c)
    (c_model c) x (c_osVersion c) (c_over c).
Definition up_osVersion (x : N) (c : ctx) : ctx :=
  mkCtx (c_bits c) (c_src c) (c_buf c) (c_maskC c) (c_maskD c) (c_hint c) (c_clientType c) (c_clientName c)
    (c_clientVersion c) (c_cver c) (c_engineName c) (c_engineVersion c) (c_ever c) (c_deviceType c) (c_brand c)
    (c_model c) (c_osName c) x (c_over c).
Definition up_over (x : version) (c : ctx) : ctx :=
  mkCtx (c_bits c) (c_src c) (c_buf c) (c_maskC c) (c_maskD c) (c_hint c) (c_clientType c) (c_clientName c)
    (c_clientVersion c) (c_cver c) (c_engineName c) (c_engineVersion c) (c_ever c) (c_deviceType c) (c_brand c)
    (c_model c) (c_osName c) (c_osVersion c) x.

Definition set_flag (i : N) (c : ctx) : ctx := up_bits (set_bit (c_bits c) i) c.

(** ctx.go:286-309 [reset]. *)
Definition ctx_reset_ (c : ctx) : ctx :=
  let c := up_bits 0 c in
  let c := up_src [] c in
  let c := up_buf [] c in
  let c := up_hint 0 c in
  let c := up_clientType 0 c in
  let c := up_clientName 0 c in
  let c := up_clientVersion 0 c in
  let c := up_cver (version_reset (c_cver c)) c in
  let c := up_engineName 0 c in
  let c := up_engineVersion 0 c in
  let c := up_ever (version_reset (c_ever c)) c in
  let c := up_deviceType 0 c in
  let c := up_brand 0 c in
  let c := up_model 0 c in
  let c := up_osName 0 c in
  let c := up_osVersion 0 c in
  up_over (version_reset (c_over c)) c.

(** ctx.go:280-284 [Reset]. *)
Definition ctx_reset (c : ctx) : ctx :=
  let c := ctx_reset_ c in
  let c := up_maskC ClientTypeAll c in
  up_maskD DeviceTypeAll c.

(** ctx.go:65-69 [SetUserAgent] (the argument is copied), 78-80 [SetUserAgentStr]. *)
Definition set_user_agent (src : bytes) (c : ctx) : ctx := up_src src (ctx_reset_ c).

(** ctx.go:71-76 [SetRequestedWith]. *)
Definition set_requested_with (header : bytes) (c : ctx) : ctx :=
  if 0 <? length header then up_hint (fnv1 header) c else c.

(** ctx.go:82-90 [FilterClientType], [FilterDeviceType]. *)
Definition filter_client_type (mask : N) (c : ctx) : ctx := up_maskC mask c.
Definition filter_device_type (mask : N) (c : ctx) : ctx := up_maskD mask c.

(** ctx.go:92-94 [GetUserAgent]. *)
Definition get_user_agent (c : ctx) : bytes := c_src c.

(** ctx.go:311-324 [fromCache]. *)
Definition from_cache (row : entry) (c : ctx) : ctx :=
  let c := up_bits (e_bits row) c in
  let c := up_clientType (e_clientType row) c in
  let c := up_clientName (e_clientName row) c in
  let c := up_clientVersion (e_clientVersion row) c in
  let c := up_engineName (e_engineName row) c in
  let c := up_engineVersion (e_engineVersion row) c in
  let c := up_deviceType (e_deviceType row) c in
  let c := up_brand (e_brandName row) c in
  let c := up_model (e_modelName row) c in
  let c := up_osName (e_osName row) c in
  let c := up_osVersion (e_osVersion row) c in
  up_buf (e_data row) c.

(** cache_entry.go:35-48 [FromCtx] into a zero entry ([var e CacheEntry]). *)
Definition from_ctx (c : ctx) : entry :=
  mkEntry (c_bits c) (c_clientType c) (c_clientName c) (c_clientVersion c) (c_engineName c) (c_engineVersion c)
          (c_deviceType c) (c_brand c) (c_model c) (c_osName c) (c_osVersion c) (c_src c) 0 0.

(** ** Monads *)

(** Code that reads and writes the context and may panic; on a panic the updates made so far remain. *)
Definition M (A : Type) : Type := ctx -> ctx * res A.
Definition mret {A} (a : A) : M A := fun c => (c, Ok a).
Definition mbind {A B} (m : M A) (f : A -> M B) : M B :=
  fun c => match m c with (c', Ok a) => f a c' | (c', Panic) => (c', Panic) end.
Definition mlift {A} (r : res A) : M A := fun c => (c, r).
Definition mmod (f : ctx -> ctx) : M unit := fun c => (f c, Ok tt).
Definition mget {A} (f : ctx -> A) : M A := fun c => (c, Ok (f c)).

(** Code that also talks to the shared cache: a tree of cache operations. *)
Inductive prog (A : Type) : Type :=
| Ret (a : A)
| CGet (key : bytes) (k : option entry -> prog A)
| CSet (key : bytes) (e : entry) (k : prog A).
Arguments Ret {A} _.
Arguments CGet {A} _ _.
Arguments CSet {A} _ _ _.

Fixpoint prog_bind {A B} (p : prog A) (f : A -> prog B) : prog B :=
  match p with
  | Ret a => f a
  | CGet key k => CGet key (fun o => prog_bind (k o) f)
  | CSet key e k => CSet key e (prog_bind k f)
  end.

Definition P (A : Type) : Type := ctx -> prog (ctx * res A).
Definition pret {A} (a : A) : P A := fun c => Ret (c, Ok a).
Definition pbind {A B} (m : P A) (f : A -> P B) : P B :=
  fun c => prog_bind (m c) (fun x => match x with (c', Ok a) => f a c' | (c', Panic) => Ret (c', Panic) end).
Definition plift {A} (m : M A) : P A := fun c => Ret (m c).
Definition pcget (key : ctx -> bytes) : P (option entry) := fun c => CGet (key c) (fun o => Ret (c, Ok o)).
Definition pcset (key : ctx -> bytes) (e : ctx -> entry) : P unit := fun c => CSet (key c) (e c) (Ret (c, Ok tt)).

(** [defer d()] around a body: [d] runs on normal return and on panic (with the body's outcome visible to it);
    a panic of [d] replaces the outcome. *)
Definition pdefer {A} (body : P A) (d : res A -> P unit) : P A :=
  fun c => prog_bind (body c) (fun x =>
    let '(c1, r) := x in
    prog_bind (d r c1) (fun y => let '(c2, r2) := y in Ret (c2, match r2 with Ok _ => r | Panic => Panic end))).

Declare Scope m_scope.
Delimit Scope m_scope with m.
Notation "x <- a ;; b" := (mbind a (fun x => b)) (at level 61, a at next level, right associativity) : m_scope.
Notation "a ;; b" := (mbind a (fun _ => b)) (at level 61, right associativity) : m_scope.
Declare Scope p_scope.
Delimit Scope p_scope with p.
Notation "x <- a ;; b" := (pbind a (fun x => b)) (at level 61, a at next level, right associativity) : p_scope.
Notation "a ;; b" := (pbind a (fun _ => b)) (at level 61, right associativity) : p_scope.

(** Go index with a signed (possibly negative) index. *)
Definition zindex {A} (l : list A) (i : Z) : res A := if (i <? 0)%Z then Panic else index l (Z.to_N i).
(** int8 arithmetic. *)
Definition wrap8 (z : Z) : Z := ((z + 128) mod 256 - 128)%Z.

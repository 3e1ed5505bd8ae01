(** The getters of ctx.go access by access, for several goroutines that use one context.
    A getter is a tree of reads and writes of the fields of [Ctx]; [Model_Parse.v] gives the same getters as one piece
    each (they agree: Proof_Readers.v).
    Simplifications: a byte slice with its contents is one location; a detection (parseClient, parseDevice, parseOS) is
    one step that writes every location; goroutines interleave at single accesses. *)
From Verif Require Import Model_Base Model_CacheEntry Model_Version Model_Ctx Model_Parse Spec_Getters Spec_Again.

(** ctx.go:30-55, version.go:10-18: the locations; a [Version] is six of them. *)
Inductive which := OfClient | OfEngine | OfOS.
Inductive loc :=
| Lbits | Lsrc | Lbuf | Lhint | LclientType | LclientName | LclientVersion | LengineName | LengineVersion
| LdeviceType | Lbrand | Lmodel | LosName | LosVersion
| Lcomp (w : which) (i : nat)      (* Major, Minor, Patch, Revision *)
| Lsuffix (w : which) | Lparsed (w : which).
Definition ty (l : loc) : Type :=
  match l with
  | Lsrc | Lbuf | Lsuffix _ => bytes
  | Lcomp _ _ => Z
  | Lparsed _ => bool
  | _ => N
  end.
Definition ver (w : which) (c : ctx) : version := match w with OfClient => c_cver c | OfEngine => c_ever c | OfOS => c_over c end.
Definition up_ver (w : which) (v : version) (c : ctx) : ctx :=
  match w with OfClient => up_cver v c | OfEngine => up_ever v c | OfOS => up_over v c end.
Definition component (i : nat) (v : version) : Z :=
  match i with 0 => v_major v | 1 => v_minor v | 2 => v_patch v | 3 => v_revision v | _ => 0%Z end.
Definition peek (l : loc) (c : ctx) : ty l :=
  match l return ty l with
  | Lbits => c_bits c | Lsrc => c_src c | Lbuf => c_buf c | Lhint => c_hint c
  | LclientType => c_clientType c | LclientName => c_clientName c | LclientVersion => c_clientVersion c
  | LengineName => c_engineName c | LengineVersion => c_engineVersion c
  | LdeviceType => c_deviceType c | Lbrand => c_brand c | Lmodel => c_model c
  | LosName => c_osName c | LosVersion => c_osVersion c
  | Lcomp w i => component i (ver w c)
  | Lsuffix w => v_suffix (ver w c)
  | Lparsed w => v_p (ver w c)
  end.
Definition poke (l : loc) : ty l -> ctx -> ctx :=
  match l return ty l -> ctx -> ctx with
  | Lbits => up_bits | Lsrc => up_src | Lbuf => up_buf | Lhint => up_hint
  | LclientType => up_clientType | LclientName => up_clientName | LclientVersion => up_clientVersion
  | LengineName => up_engineName | LengineVersion => up_engineVersion
  | LdeviceType => up_deviceType | Lbrand => up_brand | Lmodel => up_model
  | LosName => up_osName | LosVersion => up_osVersion
  | Lcomp w i => fun z c => up_ver w (set_component i z (ver w c)) c
  | Lsuffix w => fun s c => up_ver w (set_suffix s (ver w c)) c
  | Lparsed w => fun b c => up_ver w (mkVersion (v_major (ver w c)) (v_minor (ver w c)) (v_patch (ver w c)) (v_revision (ver w c)) (v_suffix (ver w c)) b) c
  end.

Inductive steps (A : Type) : Type :=
| Stop (r : res A)
| Read (l : loc) (k : ty l -> steps A)
| Write (l : loc) (v : ty l) (k : steps A)
| Detect (p : P bool) (k : steps A).
Arguments Stop {A} _.
Arguments Read {A} _ _.
Arguments Write {A} _ _ _.
Arguments Detect {A} _ _.
Fixpoint then_ {A B} (s : steps A) (f : A -> steps B) : steps B :=
  match s with
  | Stop (Ok a) => f a
  | Stop Panic => Stop Panic
  | Read l k => Read l (fun x => then_ (k x) f)
  | Write l v k => Write l v (then_ k f)
  | Detect p k => Detect p (then_ k f)
  end.

Section Readers.
Variable T : tables.

(** [if !c.CheckBit(flag) { c.parse() }] at the beginning of each getter. *)
Definition checked_first {A} (flag : N) (parse : P bool) (k : steps A) : steps A :=
  Read Lbits (fun b => if check_bit b flag then k else Detect parse k).
Definition with_bit {A} (flag : N) (k : bool -> steps A) : steps A := Read Lbits (fun b => k (check_bit b flag)).

(** ctx.go:96-101. *)
Definition r_client_type : steps N := checked_first flagClientDetect (parse_client T) (Read LclientType (fun t => Stop (Ok t))).
(** ctx.go:103-125. *)
Definition r_browser : steps bytes := checked_first flagClientDetect (parse_client T) (Read Lhint (fun h =>
  if negb (h =? 0)%N then
    match amap_get (hr_idx T) h with
    | Some he => Stop (if (0 <? he)%N then slice64 (hr_buf T) he else Ok Unknown)
    | None => Stop (Ok Unknown)
    end
  else Read LclientName (fun cn =>
    if (0 <? cn)%N then Read LclientName (fun e => Stop (if (0 <? e)%N then slice64 (cr_buf T) e else Ok Unknown))
    else Stop (Ok Unknown)))).
(** ctx.go:135-152. *)
Definition r_browser_version_string : steps bytes := checked_first flagClientDetect (parse_client T) (Read LclientVersion (fun e =>
  if (0 <? e)%N then
    Read Lsrc (fun src => with_bit flagVerConstSrc (fun k => Read LclientVersion (fun e =>
      then_ (Stop (slice64 (if k then cr_buf T else src) e)) (fun raw =>
        let raw := match index_byte_at raw x2f 0 with Some p => skipn (p + 1) raw | None => raw end in
        Stop (Ok (trim_right raw x2e))))))
  else Stop (Ok []))).
(** ctx.go:154-166. *)
Definition r_engine : steps bytes := checked_first flagClientDetect (parse_client T) (with_bit flagEngineForceBlink (fun b =>
  if b then Stop (Ok (bs "Blink"))
  else Read LengineName (fun e => if (0 <? e)%N then Read LengineName (fun e => Stop (slice64 (cr_buf T) e)) else Stop (Ok [])))).
(** ctx.go:176-185. *)
Definition r_engine_version_string : steps bytes := checked_first flagClientDetect (parse_client T) (Read LengineVersion (fun e =>
  if (0 <? e)%N then Read LengineVersion (fun e => Read Lsrc (fun src => Stop (slice64 src e))) else Stop (Ok []))).
(** ctx.go:187-195. *)
Definition r_device_type : steps N := checked_first flagDeviceDetect (parse_device T) (with_bit flagDeviceForceDesktop (fun b =>
  if b then Stop (Ok DeviceTypeNotebook) else Read LdeviceType (fun t => Stop (Ok t)))).
(** ctx.go:197-212. *)
Definition r_brand : steps bytes := checked_first flagDeviceDetect (parse_device T) (Read Lbrand (fun e =>
  if negb (e =? 0)%N then
    with_bit flagVendorFragment (fun b => Read Lbrand (fun e =>
      then_ (Stop (slice64 (if b then vr_buf T else dr_buf T) e)) (fun raw => Stop (Ok (trim raw x20)))))
  else Stop (Ok Unknown))).
(** ctx.go:214-225. *)
Definition r_model : steps bytes := checked_first flagDeviceDetect (parse_device T) (Read Lmodel (fun e =>
  if negb (e =? 0)%N then
    Read Lmodel (fun e => Read Lbuf (fun buf => then_ (Stop (slice64 buf e)) (fun raw => Stop (Ok (trim raw x20)))))
  else Stop (Ok []))).
(** ctx.go:227-242. *)
Definition r_os : steps bytes := checked_first flagOSDetect (parse_os T) (Read LosName (fun e =>
  if negb (e =? 0)%N then
    with_bit flagOSBufSrc (fun b =>
      if b then Read Lsrc (fun src => Read LosName (fun e => then_ (Stop (slice64 src e)) (fun raw => Stop (Ok (trim raw x20)))))
      else Read LosName (fun e => then_ (Stop (slice64 (or_buf T) e)) (fun raw => Stop (Ok (trim raw x20)))))
  else Stop (Ok Unknown))).
(** ctx.go:263-274: one append per byte, [off] being the length of [c.buf] before. *)
Fixpoint r_dots (raw : bytes) (off : nat) : steps bytes :=
  match raw with
  | [] => Read Lbuf (fun buf => Stop (slice buf (N.of_nat off) (N.of_nat (length buf))))
  | b :: raw' => Read Lbuf (fun buf => Write Lbuf (buf ++ [if beq b x5f then x2e else b]) (r_dots raw' off))
  end.
(** ctx.go:252-278. *)
Definition r_os_version_string : steps bytes := checked_first flagOSDetect (parse_os T) (Read LosVersion (fun e =>
  if (0 <? e)%N then
    Read Lsrc (fun src => with_bit flagOSVerBufSrc (fun k => Read LosVersion (fun e =>
      then_ (Stop (slice64 (if k then or_buf T else src) e)) (fun raw =>
        match index_byte raw x5f with
        | Some _ => Read Lbuf (fun buf => r_dots raw (length buf))
        | None => Stop (Ok raw)
        end))))
  else Stop (Ok []))).

(** version.go:25-52; [None]: strconv.Atoi has failed. *)
Fixpoint r_parse_loop (w : which) (is : list nat) (s : bytes) : steps (option bytes) :=
  match is with
  | [] => Stop (Ok (Some s))
  | i :: is' =>
      let idx := index_byte s x2e in
      if (match idx with Some _ => true | None => false end) || (0 <? length s) then
        let idx := match idx with Some k => k | None => length s end in
        match atoi (firstn idx s) with
        | None => Stop (Ok None)
        | Some d => Write (Lcomp w i) (wrap32 d) (r_parse_loop w is' (if idx <? length s then skipn (idx + 1) s else []))
        end
      else r_parse_loop w is' s
  end.
(** version.go:20-62. *)
Definition r_parse (w : which) (s : bytes) : steps unit :=
  Read (Lparsed w) (fun p =>
    if p then Stop (Ok tt)
    else if 0 <? length s then
      then_ (r_parse_loop w [0; 1; 2; 3] s) (fun o =>
        match o with
        | None => Stop (Ok tt)
        | Some s =>
            match (if 0 <? length s then index_space_hyphen s else None) with
            | Some idx => Write (Lsuffix w) (skipn (idx + 1) s) (Write (Lparsed w) true (Stop (Ok tt)))
            | None => Write (Lparsed w) true (Stop (Ok tt))
            end
        end)
    else Write (Lparsed w) true (Stop (Ok tt))).
(** The caller reads the Version behind the pointer. *)
Definition r_deref (w : which) : steps version :=
  Read (Lcomp w 0) (fun a => Read (Lcomp w 1) (fun b => Read (Lcomp w 2) (fun c => Read (Lcomp w 3) (fun d =>
  Read (Lsuffix w) (fun s => Read (Lparsed w) (fun p => Stop (Ok (mkVersion a b c d s p)))))))).
(** ctx.go:127-133, 168-174, 244-250. *)
Definition r_version (w : which) (text : steps bytes) : steps version :=
  Read (Lparsed w) (fun p => if p then r_deref w else then_ text (fun raw => then_ (r_parse w raw) (fun _ => r_deref w))).

Definition r_map {A B} (f : A -> B) (s : steps A) : steps B := then_ s (fun a => Stop (Ok (f a))).
Definition reading (g : getter) : steps value :=
  match g with
  | GClientType => r_map VN r_client_type
  | GBrowser => r_map VB r_browser
  | GBrowserVersion => r_map VV (r_version OfClient r_browser_version_string)
  | GBrowserVersionString => r_map VB r_browser_version_string
  | GEngine => r_map VB r_engine
  | GEngineVersion => r_map VV (r_version OfEngine r_engine_version_string)
  | GEngineVersionString => r_map VB r_engine_version_string
  | GDeviceType => r_map VN r_device_type
  | GBrand => r_map VB r_brand
  | GModel => r_map VB r_model
  | GOS => r_map VB r_os
  | GOSVersion => r_map VV (r_version OfOS r_os_version_string)
  | GOSVersionString => r_map VB r_os_version_string
  | GUserAgent => Read Lsrc (fun s => Stop (Ok (VB s)))
  end.

(** Goroutines: what is left of the getter running, the getters after it, the answers so far. *)
Record gorout := mkGo { g_now : option (steps value); g_todo : list getter; g_got : list (res value) }.
Inductive access := Reads (l : loc) | Writes (l : loc) | WritesAll.
Definition shared := (ctx * list gorout)%type.

(** One access (or the beginning or the end of a getter) of one goroutine.  A detection ends in any way it can, whatever
    the cache answers. *)
Inductive go1 : ctx -> gorout -> option access -> ctx -> gorout -> Prop :=
| G_call c g gs got : go1 c (mkGo None (g :: gs) got) None c (mkGo (Some (reading g)) gs got)
| G_ret c r gs got : go1 c (mkGo (Some (Stop r)) gs got) None c (mkGo None gs (got ++ [r]))
| G_read c l k gs got : go1 c (mkGo (Some (Read l k)) gs got) (Some (Reads l)) c (mkGo (Some (k (peek l c))) gs got)
| G_write c l v k gs got : go1 c (mkGo (Some (Write l v k)) gs got) (Some (Writes l)) (poke l v c) (mkGo (Some k) gs got)
| G_detect c p k gs got c' r : leaf (p c) (c', r) ->
    go1 c (mkGo (Some (Detect p k)) gs got) (Some WritesAll) c' (mkGo (Some (match r with Ok _ => k | Panic => Stop Panic end)) gs got).
(** Runs, with the accesses made and the number of the goroutine that made each. *)
Inductive together : shared -> list (nat * access) -> shared -> Prop :=
| To_refl s : together s [] s
| To_step s tr c a b g o c' g' : together s tr (c, a ++ g :: b) -> go1 c g o c' g' ->
    together s (match o with Some x => tr ++ [(length a, x)] | None => tr end) (c', a ++ g' :: b).
End Readers.
(** Goroutines that are about to call getters on one context. *)
Definition all_start (c : ctx) (calls : list (list getter)) : shared := (c, map (fun gs => mkGo None gs []) calls).

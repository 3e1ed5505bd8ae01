(** Model of client_parser.go, engine_parser.go, os.go, device_parser.go and the getters of ctx.go. *)
From Verif Require Import Model_Base Model_CacheEntry Model_Version Model_Ctx.

Section Parse.
Variable T : tables.

(** client_parser.go:7-15. *)
Definition cpBrowserEngine : nat := 0.
Definition cpBrowser : nat := 1.
Definition cpFeedReader : nat := 2.
Definition cpLibrary : nat := 3.
Definition cpMediaPlayer : nat := 4.
Definition cpMobileApp : nat := 5.
Definition cpPIM : nat := 6.

(** [e.Decode()] followed by [buf[lo:hi]]. *)
Definition slice64 (buf : bytes) (e : N) : res bytes := slice buf (fst (e_decode e)) (snd (e_decode e)).

(** [X.Encode(uint32(lo), uint32(hi))]. *)
Definition encode64 (lo hi : Z) : N := e_encode (u32 lo) (u32 hi).

(** [len(si) > 0 && bytes.Index(c.src, si) != -1]. *)
Definition substr_hit (src si : bytes) : bool := (0 <? length si) && contains_b src si.

(** ** Engine *)

(** engine_parser.go:28-44: the search loop over the engine class. *)
Fixpoint engine_loop (src : bytes) (ir : list clientTuple) : res (option clientTuple) :=
  match ir with
  | [] => Ok None
  | v :: ir' =>
      if (0 <=? ct_matchRI v)%Z then
        rbind (zindex (cr_re T) (ct_matchRI v)) (fun re =>
        if re_match re src then Ok (Some v) else engine_loop src ir')
      else
        rbind (slice64 (cr_buf T) (ct_match64 v)) (fun si =>
        if substr_hit src si then Ok (Some v) else engine_loop src ir')
  end.

(** engine_parser.go:14-60 [evalEngine]. *)
Definition eval_engine (cri : clientTuple) : M unit :=
  ((if negb (ct_engine64 cri =? 0)%N then mmod (up_engineName (ct_engine64 cri)) else mret tt) ;;
   (if negb (ct_engineFI cri =? -1)%Z then
      src <- mget c_src ;;
      cv <- mget c_clientVersion ;;
      raw <- mlift (slice64 src cv) ;;
      f <- mlift (zindex (cr_ef T) (ct_engineFI cri)) ;;
      mmod (up_engineName (ef_apply f (get_major raw)))
    else mret tt) ;;
   en <- mget c_engineName ;;
   (if (en =? 0)%N then
      ir <- mlift (index (cr_idx T) (N.of_nat cpBrowserEngine)) ;;
      mlift (zindex ir (Z.of_nat (length ir) - 1)) ;;
      src <- mget c_src ;;
      e <- mlift (engine_loop src ir) ;;
      (match e with Some v => mmod (up_engineName (ct_browser64 v)) | None => mret tt end)
    else mret tt) ;;
   en <- mget c_engineName ;;
   (if negb (en =? 0)%N then
      match amap_get (cr_ev T) en with
      | Some ri =>
          re <- mlift (zindex (cr_evre T) ri) ;;
          src <- mget c_src ;;
          let m := re_groups re src in
          if 4 <=? length m then
            lo <- mlift (zindex m 2) ;;
            hi <- mlift (zindex m 3) ;;
            mmod (up_engineVersion (encode64 lo hi))
          else mret tt
      | None => mret tt
      end
    else mret tt) ;;
   en <- mget c_engineName ;;
   src <- mget c_src ;;
   (if (en =? 0)%N && re_match (re_blink T) src then mmod (set_flag flagEngineForceBlink) else mret tt))%m.

(** ** Client *)

(** client_parser.go:88-99: version of the matching entry. *)
Definition client_version (x : clientTuple) (re : regex) : M unit :=
  (if negb (ct_version64 x =? 0)%N then
     mmod (up_clientVersion (ct_version64 x)) ;; mmod (set_flag flagVerConstSrc)
   else if negb (ct_browserVI x =? -1)%Z then
     src <- mget c_src ;;
     let m := re_groups re src in
     if (ct_browserVI x <? Z.of_nat (length m))%Z then
       lo <- mlift (zindex m (wrap8 (ct_browserVI x * 2))) ;;
       hi <- mlift (zindex m (wrap8 (wrap8 (ct_browserVI x * 2) + 1))) ;;
       if negb (lo =? -1)%Z && negb (hi =? -1)%Z then mmod (up_clientVersion (encode64 lo hi)) else mret tt
     else mret tt
   else mret tt)%m.

(** client_parser.go:82-110, the loop; [break] ends it with the tuple found. *)
Fixpoint client_loop (ir : list clientTuple) : M (option clientTuple) :=
  (match ir with
   | [] => mret None
   | v :: ir' =>
       if (0 <=? ct_matchRI v)%Z then
         re <- mlift (zindex (cr_re T) (ct_matchRI v)) ;;
         src <- mget c_src ;;
         if re_match re src then client_version v re ;; mret (Some v) else client_loop ir'
       else
         si <- mlift (slice64 (cr_buf T) (ct_match64 v)) ;;
         src <- mget c_src ;;
         if substr_hit src si then mret (Some v) else client_loop ir'
   end)%m.

(** client_parser.go:77-123 [evalClient]. *)
Definition eval_client (idx : nat) : M bool :=
  (ir <- mlift (index (cr_idx T) (N.of_nat idx)) ;;
   mlift (zindex ir (Z.of_nat (length ir) - 1)) ;;
   x <- client_loop ir ;;
   match x with
   | Some x =>
       mmod (up_clientName (ct_browser64 x)) ;;
       (if idx =? cpBrowser then eval_engine x else mret tt) ;;
       mret true
   | None => mret false
   end)%m.

(** client_parser.go:32-74: the classes, in order. *)
Definition client_classes : list (N * nat) :=
  [(ClientTypeFeedReader, cpFeedReader); (ClientTypeMobileApp, cpMobileApp); (ClientTypeMediaPlayer, cpMediaPlayer);
   (ClientTypePIM, cpPIM); (ClientTypeLibrary, cpLibrary); (ClientTypeBrowser, cpBrowser)].

Fixpoint client_try (l : list (N * nat)) : M bool :=
  (match l with
   | [] => mret false
   | (typ, idx) :: l' =>
       mask <- mget c_maskC ;;
       if negb (N.land mask typ =? 0)%N then
         ok <- eval_client idx ;;
         if ok then mmod (up_clientType typ) ;; mret true else client_try l'
       else client_try l'
   end)%m.

(** client_parser.go:24-30 (device_parser.go:52-58, os.go:51-57): the deferred function. *)
Definition finish (flag : N) : P unit :=
  (plift (mmod (set_flag flag)) ;; pcset get_user_agent from_ctx)%p.

(** client_parser.go:17-75 [parseClient]. *)
Definition parse_client : P bool :=
  (o <- pcget get_user_agent ;;
   match o with
   | Some e =>
       if check_bit (e_bits e) flagClientDetect then plift (mmod (from_cache e)) ;; pret true
       else pdefer (plift (client_try client_classes)) (fun _ => finish flagClientDetect)
   | None => pdefer (plift (client_try client_classes)) (fun _ => finish flagClientDetect)
   end)%p.

(** ** Operating system *)

(** os.go:27-42. *)
Definition osMaybeMacBytes : list bytes := [bs "Mac"; bs "(x86_64)"; bs "com.apple.Safari"].
Definition osMaybeMacRE : list bytes :=
  [bs "(?i)^.*CFNetwork/.+ Darwin/(\d+[\.\d]+)";
   bs "(?i)(?:Podcasts/(?:[\d\.]+)|Instacast(?:HD)?/(?:\d\.[\d\.abc]+)|Pocket Casts, iOS|\(iOS\)|iOS; Opera|Overcast|Castro|Podcat|iCatcher|RSSRadio/|MobileSafari/)"].
Definition osMaybeNotAND : bytes := bs "like Android".
Definition osMaybeNotANDRE : list bytes :=
  [bs "(?i)(?:(?:Orca-)?Android|Adr|AOSP)[ /]?(?:[a-z]+ )?(\d+[\.\d]*)";
   bs "(?i) Adr |Android|Silk-Accelerated=[a-z]{4,5}"].
Definition in_list (s : bytes) (l : list bytes) : bool := existsb (beqs s) l.

(** os.go:63-66. *)
Definition maybe_mac (src : bytes) : bool := existsb (contains_b src) osMaybeMacBytes.
Definition maybe_not_and (src : bytes) : bool := contains_b src osMaybeNotAND.

(** A capture group selected by an int8 index: [m[si*2], m[si*2+1]]. *)
Definition group (m : list Z) (si : Z) : res (Z * Z) :=
  rbind (zindex m (wrap8 (si * 2))) (fun lo =>
  rbind (zindex m (wrap8 (wrap8 (si * 2) + 1))) (fun hi => Ok (lo, hi))).

(** os.go:126-152, the loop of [osEvalVer]. *)
Fixpoint os_ver_loop (rv : list osVersionTuple) : M unit :=
  (match rv with
   | [] => mret tt
   | v :: rv' =>
       if (0 <=? ov_matchRI v)%Z then
         re <- mlift (zindex (or_re T) (ov_matchRI v)) ;;
         src <- mget c_src ;;
         if re_match re src then
           if negb (ov_versionSI v =? -1)%Z then
             let m := re_groups re src in
             if (ov_versionSI v <? Z.of_nat (length m))%Z then
               g <- mlift (group m (ov_versionSI v)) ;;
               if negb (fst g =? -1)%Z && negb (snd g =? -1)%Z
               then mmod (up_osVersion (encode64 (fst g) (snd g))) else mret tt
             else mret tt
           else mmod (up_osVersion (ov_version64 v)) ;; mmod (set_flag flagOSVerBufSrc)
         else os_ver_loop rv'
       else if negb (ov_match64 v =? 0)%N then
         si <- mlift (slice64 (or_buf T) (ov_match64 v)) ;;
         src <- mget c_src ;;
         if substr_hit src si
         then mmod (up_osVersion (ov_version64 v)) ;; mmod (set_flag flagOSVerBufSrc)
         else os_ver_loop rv'
       else os_ver_loop rv'
   end)%m.

(** os.go:121-153 [osEvalVer]. *)
Definition os_eval_ver (r : N) : M unit :=
  (rv <- mlift (slice (or_ov T) (fst (e_decode r)) (snd (e_decode r))) ;;
   mlift (zindex rv (Z.of_nat (length rv) - 1)) ;;
   os_ver_loop rv)%m.

(** os.go:78-97: the matching entry. *)
Definition os_hit (x : osTuple) (re : regex) : M unit :=
  (mmod (up_osName (ot_name64 x)) ;;
   src <- mget c_src ;;
   (if negb (ot_nameSI x =? -1)%Z || negb (ot_versionSI x =? -1)%Z then
      let m := re_groups re src in
      (if (ot_nameSI x <? Z.of_nat (length m))%Z && negb (ot_nameSI x =? -1)%Z then
         g <- mlift (group m (ot_nameSI x)) ;;
         if negb (fst g =? -1)%Z && negb (snd g =? -1)%Z
         then mmod (up_osName (encode64 (fst g) (snd g))) ;; mmod (set_flag flagOSBufSrc) else mret tt
       else mret tt) ;;
      (if (ot_versionSI x <? Z.of_nat (length m))%Z && negb (ot_versionSI x =? -1)%Z then
         g <- mlift (group m (ot_versionSI x)) ;;
         if negb (fst g =? -1)%Z && negb (snd g =? -1)%Z
         then mmod (up_osVersion (encode64 (fst g) (snd g))) else mret tt
       else mret tt)
    else mret tt) ;;
   (if negb (ot_versions64 x =? 0)%N then os_eval_ver (ot_versions64 x) else mret tt))%m.

(** os.go:67-108, the loop. *)
Fixpoint os_loop (mac notand : bool) (r : list osTuple) : M (option osTuple) :=
  (match r with
   | [] => mret None
   | v :: r' =>
       if (0 <=? ot_matchRI v)%Z then
         re <- mlift (zindex (or_re T) (ot_matchRI v)) ;;
         if in_list (re_src re) osMaybeMacRE && mac then os_loop mac notand r'
         else if in_list (re_src re) osMaybeNotANDRE && notand then os_loop mac notand r'
         else
           src <- mget c_src ;;
           if re_match re src then os_hit v re ;; mret (Some v) else os_loop mac notand r'
       else if negb (ot_match64 v =? 0)%N then
         si <- mlift (slice64 (or_buf T) (ot_match64 v)) ;;
         src <- mget c_src ;;
         if substr_hit src si then mmod (up_osName (ot_name64 v)) ;; mret (Some v) else os_loop mac notand r'
       else os_loop mac notand r'
   end)%m.

(** os.go:59-118. *)
Definition eval_os : M bool :=
  (mlift (zindex (or_os T) (Z.of_nat (length (or_os T)) - 1)) ;;
   src <- mget c_src ;;
   x <- os_loop (maybe_mac src) (maybe_not_and src) (or_os T) ;;
   match x with
   | Some x =>
       (if negb (ot_version64 x =? 0)%N
        then mmod (up_osVersion (ot_version64 x)) ;; mmod (set_flag flagOSVerBufSrc) else mret tt) ;;
       mret true
   | None => mret false
   end)%m.

(** os.go:45-119 [parseOS]. *)
Definition parse_os : P bool :=
  (o <- pcget get_user_agent ;;
   match o with
   | Some e =>
       if check_bit (e_bits e) flagOSDetect then plift (mmod (from_cache e)) ;; pret true
       else pdefer (plift eval_os) (fun _ => finish flagOSDetect)
   | None => pdefer (plift eval_os) (fun _ => finish flagOSDetect)
   end)%p.

(** [if !c.CheckBit(flag) { c.parseX() }]. *)
Definition ensure (flag : N) (parse : P bool) : P unit :=
  fun c => if check_bit (c_bits c) flag then Ret (c, Ok tt) else (parse ;; pret tt)%p c.

(** ctx.go:231-241: the part of [GetOS] after detection. *)
Definition read_os : M bytes :=
  (e <- mget c_osName ;;
   if negb (e =? 0)%N then
     src <- mget c_src ;;
     b <- mget (fun c => check_bit (c_bits c) flagOSBufSrc) ;;
     raw <- mlift (slice64 (if b then src else or_buf T) e) ;;
     mret (trim raw x20)
   else mret Unknown)%m.

(** ctx.go:227-242 [GetOS]. *)
Definition get_os : P bytes := (ensure flagOSDetect parse_os ;; plift read_os)%p.

(** ** Device *)

(** device_parser.go:12-21. *)
Definition dpCamera : nat := 0.
Definition dpCarBrowser : nat := 1.
Definition dpConsole : nat := 2.
Definition dpMobile : nat := 3.
Definition dpNotebook : nat := 4.
Definition dpPortableMediaPlayer : nat := 5.
Definition dpShellTV : nat := 6.
Definition dpTV : nat := 7.

(** device_parser.go:24-39. *)
Definition desktopOS : list bytes :=
  [bs "AmigaOS"; bs "IBM"; bs "GNU/Linux"; bs "Ubuntu"; bs "Fedora"; bs "Mac"; bs "Unix"; bs "OpenBSD"; bs "FreeBSD";
   bs "Windows"; bs "BeOS"; bs "Chrome OS"; bs "Chromium OS"; bs "OS ROSA"].

(** Append to [c.buf]. *)
Definition append_buf (b : bytes) : M unit := mmod (fun c => up_buf (c_buf c ++ b) c).
Definition buf_len : M Z := mget (fun c => Z.of_nat (length (c_buf c))).

(** device_parser.go:210-217 [deviceBufMNE]. *)
Definition device_buf_mne (e : N) : M unit :=
  (raw <- mlift (slice64 (dr_buf T) e) ;;
   lo1 <- buf_len ;;
   append_buf raw ;;
   hi1 <- buf_len ;;
   mmod (up_model (encode64 lo1 hi1)))%m.

(** conv.go:3-12 [b2i]. *)
Definition b2i (b : byte) : nat :=
  if beq b x31 then 1 else if beq b x32 then 2 else if beq b x33 then 3 else 0.

(** device_parser.go:227-249, the loop of [deviceBufMNE1]; [p] is the position of a '$' in [raw].
    [fuel] bounds the iterations ([p] grows each time). *)
Fixpoint mne1_loop (fuel : nat) (raw src : bytes) (m : list Z) (p : nat) : M unit :=
  match fuel with
  | 0 => mret tt
  | S fuel' =>
      (p1 <- mlift (index raw (N.of_nat (p + 1))) ;;
       let i := b2i p1 in
       if length m <=? i * 2 + 1 then mret tt
       else
         lo2 <- mlift (zindex m (Z.of_nat (i * 2))) ;;
         hi2 <- mlift (zindex m (Z.of_nat (i * 2 + 1))) ;;
         if (lo2 <? 0)%Z || (hi2 <? 0)%Z then mret tt
         else
           r <- mlift (slice src (Z.to_N lo2) (Z.to_N hi2)) ;;
           append_buf r ;;
           let pp := p + 1 in
           match index_byte_at raw x24 pp with
           | Some p' =>
               (if pp + 1 <? p' then
                  t <- mlift (slice raw (N.of_nat (pp + 1)) (N.of_nat p')) ;;
                  append_buf t
                else mret tt) ;;
               mne1_loop fuel' raw src m p'
           | None =>
               t <- mlift (slice raw (N.of_nat (pp + 1)) (N.of_nat (length raw))) ;;
               append_buf t
           end)%m
  end.

(** device_parser.go:219-258 [deviceBufMNE1]. *)
Definition device_buf_mne1 (e : N) (re : regex) : M unit :=
  (raw <- mlift (slice64 (dr_buf T) e) ;;
   match index_byte raw x24 with
   | Some p =>
       lo1 <- buf_len ;;
       append_buf (firstn p raw) ;;
       src <- mget c_src ;;
       mne1_loop (length raw) raw src (re_groups re src) p ;;
       hi1 <- buf_len ;;
       mmod (up_model (encode64 lo1 hi1))
   | None =>
       lo1 <- buf_len ;;
       append_buf raw ;;
       hi1 <- buf_len ;;
       mmod (up_model (encode64 lo1 hi1))
   end)%m.

(** device_parser.go:270-285: the type names. *)
Definition type_of_name (raw : bytes) (def : N) : N :=
  if beqs raw (bs "smartphone") then DeviceTypeMobile
  else if beqs raw (bs "phablet") then DeviceTypePhablet
  else if beqs raw (bs "tablet") then DeviceTypeTablet
  else if beqs raw (bs "tv") then DeviceTypeTV
  else if beqs raw (bs "console") then DeviceTypeConsole
  else if beqs raw (bs "portable media player") then DeviceTypePortableMediaPlayer
  else def.

(** device_parser.go:260-286 [deviceEvalType]. *)
Definition device_eval_type (typ typ1 def : N) : res N :=
  rbind (slice64 (dr_buf T) typ) (fun raw =>
  let e := if length raw =? 0 then typ1 else typ in
  rbind (slice64 (dr_buf T) e) (fun raw =>
  Ok (if length raw =? 0 then def else type_of_name raw def))).

(** device_parser.go:152-169: search of the class. *)
Fixpoint device_loop (src : bytes) (ir : list deviceTuple) : res (option deviceTuple) :=
  match ir with
  | [] => Ok None
  | v :: ir' =>
      if (0 <=? dt_matchRI v)%Z then
        rbind (zindex (dr_re T) (dt_matchRI v)) (fun re =>
        if re_match re src then Ok (Some v) else device_loop src ir')
      else
        rbind (slice64 (dr_buf T) (dt_match64 v)) (fun si =>
        if substr_hit src si then Ok (Some v) else device_loop src ir')
  end.

(** device_parser.go:183-201: search of the models [lo, hi); the result is the type ([def] when none matches). *)
Fixpoint model_loop (x : deviceTuple) (def : N) (is : list N) : M N :=
  (match is with
   | [] => mret def
   | i :: is' =>
       m <- mlift (index (dr_dm T) i) ;;
       if (0 <=? mt_matchRI m)%Z then
         re <- mlift (zindex (dr_re T) (mt_matchRI m)) ;;
         src <- mget c_src ;;
         if re_match re src then
           device_buf_mne1 (mt_model64 m) re ;;
           mlift (device_eval_type (mt_type64 m) (dt_type64 x) def)
         else model_loop x def is'
       else if negb (mt_match64 m =? 0)%N then
         si <- mlift (slice64 (dr_buf T) (mt_match64 m)) ;;
         src <- mget c_src ;;
         if substr_hit src si then
           device_buf_mne (mt_model64 m) ;;
           mlift (device_eval_type (mt_type64 m) (dt_type64 x) def)
         else model_loop x def is'
       else model_loop x def is'
   end)%m.

(** [for i := lo; i < hi; i++]: the values of [i]. *)
Definition nrange (lo hi : N) : list N := map (fun k => (lo + N.of_nat k)%N) (seq 0 (N.to_nat (hi - lo))).

(** device_parser.go:170-206: the matching entry. *)
Definition device_hit (x : deviceTuple) (def : N) : M N :=
  (mmod (up_brand (dt_brand64 x)) ;;
   if negb (dt_modelSI x =? -1)%Z then
     sm <- mlift (zindex (dr_dm T) (dt_modelSI x)) ;;
     (if negb (dt_matchRI x =? -1)%Z then
        re <- mlift (zindex (dr_re T) (dt_matchRI x)) ;;
        device_buf_mne1 (mt_model64 sm) re
      else device_buf_mne (mt_model64 sm)) ;;
     mlift (device_eval_type (mt_type64 sm) (dt_type64 x) def)
   else if negb (dt_models64 x =? 0)%N then
     model_loop x def (nrange (fst (e_decode (dt_models64 x))) (snd (e_decode (dt_models64 x))))
   else mlift (device_eval_type (dt_type64 x) 0 def))%m.

(** device_parser.go:149-207: the body of [evalDevice]; [None] is [ok = false]. *)
Definition eval_device_body (idx : nat) (def : N) : M (option N) :=
  (ir <- mlift (index (dr_idx T) (N.of_nat idx)) ;;
   mlift (zindex ir (Z.of_nat (length ir) - 1)) ;;
   src <- mget c_src ;;
   x <- mlift (device_loop src ir) ;;
   match x with
   | Some x => typ <- device_hit x def ;; mret (Some typ)
   | None => mret None
   end)%m.

(** device_parser.go:139-147: the deferred function of [evalDevice]; [ok] is false when the body panicked. *)
Definition force_desktop (idx : nat) (r : res (option N)) : P unit :=
  match r with
  | Ok (Some _) => pret tt
  | _ =>
      if idx =? dpNotebook then
        (os <- get_os ;;
         if in_list os desktopOS then plift (mmod (set_flag flagDeviceForceDesktop)) else pret tt)%p
      else pret tt
  end.

(** device_parser.go:136-208 [evalDevice]. *)
Definition eval_device (idx : nat) (def : N) : P (option N) :=
  pdefer (plift (eval_device_body idx def)) (force_desktop idx).

(** device_parser.go:60-115: mask bit, class and default type, in order. *)
Definition device_classes : list (N * nat * N) :=
  [(DeviceTypeCamera, dpCamera, DeviceTypeCamera);
   (DeviceTypeCarBrowser, dpCarBrowser, DeviceTypeCarBrowser);
   (DeviceTypeConsole, dpConsole, DeviceTypeConsole);
   (DeviceTypePortableMediaPlayer, dpPortableMediaPlayer, DeviceTypeNotebook);
   (DeviceTypeShellTV, dpShellTV, DeviceTypeShellTV);
   (DeviceTypeTV, dpTV, DeviceTypeTV);
   (DeviceTypeMobile, dpMobile, DeviceTypeMobile);
   (DeviceTypeNotebook, dpNotebook, DeviceTypeNotebook)].

Fixpoint device_try (l : list (N * nat * N)) : P bool :=
  (match l with
   | [] => pret false
   | (bit, idx, def) :: l' =>
       mask <- plift (mget c_maskD) ;;
       if negb (N.land mask bit =? 0)%N then
         o <- eval_device idx def ;;
         match o with
         | Some typ => plift (mmod (up_deviceType typ)) ;; pret true
         | None => device_try l'
         end
       else device_try l'
   end)%p.

(** device_parser.go:292-298: the patterns [j] in [lo, hi) of one vendor. *)
Fixpoint vendor_inner (brand : N) (js : list N) : M unit :=
  (match js with
   | [] => mret tt
   | j :: js' =>
       re <- mlift (index (vr_re T) j) ;;
       src <- mget c_src ;;
       (if re_match re src then mmod (up_brand brand) ;; mmod (set_flag flagVendorFragment) else mret tt) ;;
       vendor_inner brand js'
   end)%m.

(** device_parser.go:288-300 [evalVendor]. *)
Fixpoint vendor_loop (l : list vendorTuple) : M unit :=
  (match l with
   | [] => mret tt
   | b :: l' =>
       vendor_inner (vt_brand64 b) (nrange (fst (e_decode (vt_range64 b))) (snd (e_decode (vt_range64 b)))) ;;
       vendor_loop l'
   end)%m.
Definition eval_vendor : M unit := vendor_loop (vr_idx T).

(** device_parser.go:117-133: the fallbacks. *)
Definition device_fallback : M bool :=
  (src <- mget c_src ;;
   if re_match (re_tablet T) src then mmod (up_deviceType DeviceTypeTablet) ;; mret true
   else if re_match (re_mobile T) src then mmod (up_deviceType DeviceTypeMobile) ;; mret true
   else
     b <- mget c_brand ;;
     (if (b =? 0)%N then eval_vendor else mret tt) ;;
     mret false)%m.

(** device_parser.go:60-133. *)
Definition device_body : P bool :=
  (ok <- device_try device_classes ;; if ok then pret true else plift device_fallback)%p.

(** device_parser.go:45-134 [parseDevice]. *)
Definition parse_device : P bool :=
  (o <- pcget get_user_agent ;;
   match o with
   | Some e =>
       if check_bit (e_bits e) flagDeviceDetect then plift (mmod (from_cache e)) ;; pret true
       else pdefer device_body (fun _ => finish flagDeviceDetect)
   | None => pdefer device_body (fun _ => finish flagDeviceDetect)
   end)%p.

(** ** Getters *)

(** ctx.go:96-101 [GetClientType]. *)
Definition get_client_type : P N := (ensure flagClientDetect parse_client ;; plift (mget c_clientType))%p.

(** ctx.go:103-125 [GetBrowser]. *)
Definition read_browser : M bytes :=
  (h <- mget c_hint ;;
   cn <- mget c_clientName ;;
   let '(e, buf) :=
     if negb (h =? 0)%N then
       match amap_get (hr_idx T) h with Some he => (he, hr_buf T) | None => (0%N, []) end
     else if (0 <? cn)%N then (cn, cr_buf T) else (0%N, []) in
   if (0 <? e)%N then mlift (slice64 buf e) else mret Unknown)%m.
Definition get_browser : P bytes := (ensure flagClientDetect parse_client ;; plift read_browser)%p.

(** ctx.go:135-152 [GetBrowserVersionString]. *)
Definition read_browser_version : M bytes :=
  (e <- mget c_clientVersion ;;
   if (0 <? e)%N then
     src <- mget c_src ;;
     k <- mget (fun c => check_bit (c_bits c) flagVerConstSrc) ;;
     raw <- mlift (slice64 (if k then cr_buf T else src) e) ;;
     let raw := match index_byte_at raw x2f 0 with Some p => skipn (p + 1) raw | None => raw end in
     mret (trim_right raw x2e)
   else mret [])%m.
Definition get_browser_version_string : P bytes :=
  (ensure flagClientDetect parse_client ;; plift read_browser_version)%p.

(** ctx.go:127-133 [GetBrowserVersion]; the result is the Version pointed to. *)
Definition get_browser_version : P version :=
  fun c => if v_p (c_cver c) then Ret (c, Ok (c_cver c))
           else (raw <- get_browser_version_string ;;
                 plift (mmod (fun c => up_cver (fst (parse (c_cver c) raw)) c)) ;;
                 plift (mget c_cver))%p c.

(** ctx.go:154-166 [GetEngine]. *)
Definition read_engine : M bytes :=
  (b <- mget (fun c => check_bit (c_bits c) flagEngineForceBlink) ;;
   if b then mret (bs "Blink")
   else
     e <- mget c_engineName ;;
     if (0 <? e)%N then mlift (slice64 (cr_buf T) e) else mret [])%m.
Definition get_engine : P bytes := (ensure flagClientDetect parse_client ;; plift read_engine)%p.

(** ctx.go:176-185 [GetEngineVersionString]. *)
Definition read_engine_version : M bytes :=
  (e <- mget c_engineVersion ;;
   if (0 <? e)%N then src <- mget c_src ;; mlift (slice64 src e) else mret [])%m.
Definition get_engine_version_string : P bytes :=
  (ensure flagClientDetect parse_client ;; plift read_engine_version)%p.

(** ctx.go:168-174 [GetEngineVersion]. *)
Definition get_engine_version : P version :=
  fun c => if v_p (c_ever c) then Ret (c, Ok (c_ever c))
           else (raw <- get_engine_version_string ;;
                 plift (mmod (fun c => up_ever (fst (parse (c_ever c) raw)) c)) ;;
                 plift (mget c_ever))%p c.

(** ctx.go:187-195 [GetDeviceType]. *)
Definition read_device_type : M N :=
  (b <- mget (fun c => check_bit (c_bits c) flagDeviceForceDesktop) ;;
   if b then mret DeviceTypeNotebook else mget c_deviceType)%m.
Definition get_device_type : P N := (ensure flagDeviceDetect parse_device ;; plift read_device_type)%p.

(** ctx.go:197-212 [GetBrand]. *)
Definition read_brand : M bytes :=
  (e <- mget c_brand ;;
   if negb (e =? 0)%N then
     b <- mget (fun c => check_bit (c_bits c) flagVendorFragment) ;;
     raw <- mlift (slice64 (if b then vr_buf T else dr_buf T) e) ;;
     mret (trim raw x20)
   else mret Unknown)%m.
Definition get_brand : P bytes := (ensure flagDeviceDetect parse_device ;; plift read_brand)%p.

(** ctx.go:214-225 [GetModel]. *)
Definition read_model : M bytes :=
  (e <- mget c_model ;;
   if negb (e =? 0)%N then
     buf <- mget c_buf ;;
     raw <- mlift (slice64 buf e) ;;
     mret (trim raw x20)
   else mret [])%m.
Definition get_model : P bytes := (ensure flagDeviceDetect parse_device ;; plift read_model)%p.

(** ctx.go:252-278 [GetOSVersionString]. *)
Definition dots (raw : bytes) : bytes := map (fun b => if beq b x5f then x2e else b) raw.
Definition read_os_version : M bytes :=
  (e <- mget c_osVersion ;;
   if (0 <? e)%N then
     src <- mget c_src ;;
     k <- mget (fun c => check_bit (c_bits c) flagOSVerBufSrc) ;;
     raw <- mlift (slice64 (if k then or_buf T else src) e) ;;
     match index_byte raw x5f with
     | Some _ => append_buf (dots raw) ;; mret (dots raw)
     | None => mret raw
     end
   else mret [])%m.
Definition get_os_version_string : P bytes := (ensure flagOSDetect parse_os ;; plift read_os_version)%p.

(** ctx.go:244-250 [GetOSVersion]. *)
Definition get_os_version : P version :=
  fun c => if v_p (c_over c) then Ret (c, Ok (c_over c))
           else (raw <- get_os_version_string ;;
                 plift (mmod (fun c => up_over (fst (parse (c_over c) raw)) c)) ;;
                 plift (mget c_over))%p c.

(** All getters, as one operation type with one result type. *)
Inductive getter :=
| GClientType | GBrowser | GBrowserVersion | GBrowserVersionString | GEngine | GEngineVersion | GEngineVersionString
| GDeviceType | GBrand | GModel | GOS | GOSVersion | GOSVersionString | GUserAgent.
Inductive value := VN (n : N) | VB (b : bytes) | VV (v : version).

Definition pmap {A B} (f : A -> B) (p : P A) : P B := (a <- p ;; pret (f a))%p.

Definition run_getter (g : getter) : P value :=
  match g with
  | GClientType => pmap VN get_client_type
  | GBrowser => pmap VB get_browser
  | GBrowserVersion => pmap VV get_browser_version
  | GBrowserVersionString => pmap VB get_browser_version_string
  | GEngine => pmap VB get_engine
  | GEngineVersion => pmap VV get_engine_version
  | GEngineVersionString => pmap VB get_engine_version_string
  | GDeviceType => pmap VN get_device_type
  | GBrand => pmap VB get_brand
  | GModel => pmap VB get_model
  | GOS => pmap VB get_os
  | GOSVersion => pmap VV get_os_version
  | GOSVersionString => pmap VB get_os_version_string
  | GUserAgent => plift (v <- mget get_user_agent ;; mret (VB v))%m
  end.

End Parse.

(** pool.go:19-33 over sync.Pool: [Put] resets the context and stores it; [Get] takes some stored context or, when the
    pool gives none (which it may do at any time), makes a new one; the pool may drop stored contexts.  The contents of
    the two buffers beyond their lengths are modelled in Model_Stale.v. *)
Definition pool := list ctx.
Definition pool_put (p : pool) (c : ctx) : pool := ctx_reset c :: p.
Inductive pool_get : pool -> ctx -> pool -> Prop :=
| Pool_stored p1 c p2 : pool_get (p1 ++ c :: p2) c (p1 ++ p2)
| Pool_new p : pool_get p new_ctx p.
Definition pool_drop (p p' : pool) : Prop := exists p1 c p2, p = p1 ++ c :: p2 /\ p' = p1 ++ p2.

(** alias.go:3-21 [NewCtxWithSrc], [NewCtxWithSrcStr]; [AcquireWithSrc(Str)] is [set_user_agent] on what [pool_get]
    gives. *)
Definition new_ctx_with_src (src : bytes) : ctx := set_user_agent src new_ctx.

(** What a database says about a user agent, read directly from its entries: no tables, ranges or indexes. *)
From Verif Require Import Model_Base Model_Ctx Model_Regex Model_Compiler Model_Shipped Model_Built
  Spec_Version Spec_Select Spec_Compiler.
From Coq Require Import Permutation.

(** ** Patterns *)

(** A [regex:] value without any of the characters special to patterns is a fixed text. *)
Definition plain (rs : bytes) : Prop := forall c, In c rs -> ~ In c (bs "?:.+*\|^;()[]{}$").

(** What is put around a pattern: letters match whatever their case; the match of a client pattern starts where a word
    starts.  C62 says what the latter means. *)
Definition any_case (p : bytes) : bytes := bs "(?i)" ++ p.
Definition word_start (p : bytes) : bytes :=
  bs "(?i)(?:^|[^A-Z0-9\-_]|[^A-Z0-9\-]_|sprd-|MZ-)(?:" ++ p ++ bs ")".

(** The pattern standing for [rs]: [rs] normalised, or its replacement; [wrap] is the text put around it. *)
Definition pattern_for (K : compiler) (repl : bytes -> option bytes) (wrap : bytes -> bytes) (rs : bytes) (r : regex) : Prop :=
  ~ plain rs /\ exists n, normalize rs = Some (Ok n) /\
    let p := match repl n with Some x => x | None => n end in k_valid K p = true /\ r = compile (wrap p).
Definition db_finds K repl wrap (rs ua : bytes) (m : list Z) : Prop :=
  exists r, pattern_for K repl wrap rs r /\ re_find r ua = Some m.
(** The entry applies: its text occurs, or its pattern matches.  An entry whose pattern Go rejects never applies. *)
Definition db_applies K repl wrap (rs ua : bytes) : Prop :=
  (plain rs /\ occurs rs ua) \/ exists m, db_finds K repl wrap rs ua m.

(** [v] is ["$n"]: group [n] of the pattern. *)
Definition group_ref (v : bytes) (n : Z) : Prop := exists d, v = x24 :: d /\ Decimal d n.
(** A value of the database that starts with a dollar refers to a group, of number below 64. *)
Definition proper_ref (v : bytes) : Prop := (forall d, v <> x24 :: d) \/ exists n, group_ref v n /\ (n < 64)%Z.
Definition constant (v : bytes) : Prop := v <> [] /\ forall d, v <> x24 :: d.

(** The pairs of a map in the order of their keys as text. *)
Definition in_order {A} (m l : list (bytes * A)) : Prop :=
  Permutation m l /\ forall l1 x l2, l = l1 ++ x :: l2 -> forall y, In y l2 -> text_le (fst x) (fst y).

Section DB.
Variable K : compiler.
Variable D : database.

(** ** Clients *)
Definition client_hit (ua : bytes) (y : yclient) : Prop := db_applies K (k_client K) word_start (yc_regex y) ua.
Definition class (i : nat) : list yclient := nth i (db_client D) [].
Definition db_client_silent (mask : N) (ua : bytes) (k : N * nat) : Prop :=
  on mask (fst k) -> none (client_hit ua) (class (snd k)).
Definition db_client_is (mask : N) (ua : bytes) (typ : N) (idx : nat) (y : yclient) : Prop :=
  exists before after, client_order = before ++ (typ, idx) :: after /\
    Forall (db_client_silent mask ua) before /\ on mask typ /\ first (client_hit ua) (class idx) y.
Definition db_no_client (mask : N) (ua : bytes) : Prop := Forall (db_client_silent mask ua) client_order.

(** The text the version is taken from. *)
Inductive db_fragment (ua : bytes) (y : yclient) : bytes -> Prop :=
| BF_plain : plain (yc_regex y) -> db_fragment ua y []
| BF_constant : ~ plain (yc_regex y) -> constant (yc_version y) -> db_fragment ua y (yc_version y)
| BF_none : ~ plain (yc_regex y) -> yc_version y = [] -> db_fragment ua y []
| BF_group m n s : db_finds K (k_client K) word_start (yc_regex y) ua m -> group_ref (yc_version y) n ->
    captured m n ua s -> db_fragment ua y s
| BF_absent m n : db_finds K (k_client K) word_start (yc_regex y) ua m -> group_ref (yc_version y) n ->
    absent m n -> db_fragment ua y [].

(** The engine the entry names itself; empty: none. *)
Inductive db_own_engine (ua : bytes) (y : yclient) : bytes -> Prop :=
| BE_none : yc_engine y = None -> db_own_engine ua y []
| BE_default e : yc_engine y = Some e -> ye_versions e = [] -> db_own_engine ua y (ye_default e)
| BE_version e s m w : yc_engine y = Some e -> ye_versions e <> [] -> db_fragment ua y s -> major_of s m ->
    first_engine (ye_versions e) (ye_default e) m w -> db_own_engine ua y w.
(** The engine: the entry's own, else the name of the first entry of the engine file that applies, else none. *)
Inductive db_engine (ua : bytes) (y : yclient) : bytes -> Prop :=
| BN_own en : db_own_engine ua y en -> en <> [] -> db_engine ua y en
| BN_pattern v : db_own_engine ua y [] -> first (client_hit ua) (class 0) v -> db_engine ua y (yc_name v)
| BN_none : db_own_engine ua y [] -> none (client_hit ua) (class 0) -> db_engine ua y [].
Definition db_engine_name (ua en s : bytes) : Prop :=
  (en <> [] /\ s = en) \/
  (en = [] /\ re_find (compile src_blink) ua <> None /\ s = bs "Blink") \/
  (en = [] /\ re_find (compile src_blink) ua = None /\ s = []).
(** Names that occur as an engine of some entry. *)
Definition known_engine (en : bytes) : Prop :=
  en <> [] /\ exists f y e, In f (db_client D) /\ In y f /\ yc_engine y = Some e /\
    (ye_default e = en \/ exists v, In (v, en) (ye_versions e)).
(** The pattern of the engine's version: that of mod_client.go:193-204. *)
Definition engine_regex (en : bytes) : regex :=
  compile (bs "(?i)" ++
    if beqs en (bs "Gecko") then bs "[ ](?:rv[: ]([0-9\.]+)).*gecko/[0-9.]+"
    else (if beqs en (bs "Blink") then bs "Chrome" else en) ++ bs "\s*[/\s]\s*(\d+(?:.\d+)+)").
Inductive db_engine_version (ua en : bytes) : bytes -> Prop :=
| BV_unknown : ~ known_engine en -> db_engine_version ua en []
| BV_nomatch : known_engine en -> re_find (engine_regex en) ua = None -> db_engine_version ua en []
| BV_nogroup m : known_engine en -> re_find (engine_regex en) ua = Some m -> length m < 4 -> db_engine_version ua en []
| BV_group m s : known_engine en -> re_find (engine_regex en) ua = Some m -> captured m 1 ua s -> db_engine_version ua en s.
Definition db_not_a_browser (mask : N) (ua : bytes) : Prop :=
  db_no_client mask ua \/ exists t idx y, db_client_is mask ua t idx y /\ idx <> 1.

(** Client entries the theorems speak about: references to groups that are numbers below 64; a map of versions has
    different keys and non-empty engine names, and goes with a version that is no constant. *)
Definition client_proper (y : yclient) : Prop :=
  proper_ref (yc_version y) /\
  forall e, yc_engine y = Some e -> ye_versions e <> [] ->
    ~ constant (yc_version y) /\ NoDup (map fst (ye_versions e)) /\ Forall (fun ve => snd ve <> []) (ye_versions e).

(** ** Operating systems *)
Definition os_text (y : yos) (src : bytes) : Prop := exists r, pattern_for K (k_os K) any_case (yo_regex y) r /\ re_src r = src.
Definition db_skipped (ua : bytes) (y : yos) : Prop :=
  exists src, os_text y src /\
    (In src ios_patterns /\ looks_mac ua \/ In src android_patterns /\ like_android ua).
Definition os_hit (ua : bytes) (y : yos) : Prop := ~ db_skipped ua y /\ db_applies K (k_os K) any_case (yo_regex y) ua.
Definition db_os_is (ua : bytes) (y : yos) : Prop := first (os_hit ua) (db_os D) y.
Definition db_no_os (ua : bytes) : Prop := none (os_hit ua) (db_os D).

(** The name: the group it refers to, or the constant; "UNK" when there is none. *)
Inductive db_os_name (ua : bytes) (y : yos) : bytes -> Prop :=
| BO_group m n s out : db_finds K (k_os K) any_case (yo_regex y) ua m -> group_ref (yo_name y) n -> captured m n ua s ->
    s <> [] \/ ~ at_start m n -> trimmed s out -> db_os_name ua y out
| BO_empty m n : db_finds K (k_os K) any_case (yo_regex y) ua m -> group_ref (yo_name y) n -> captured m n ua [] ->
    at_start m n -> db_os_name ua y (bs "UNK")
| BO_constant out : constant (yo_name y) -> trimmed (yo_name y) out -> db_os_name ua y out
| BO_none : ~ constant (yo_name y) ->
    (forall m n, db_finds K (k_os K) any_case (yo_regex y) ua m -> group_ref (yo_name y) n -> absent m n) ->
    db_os_name ua y (bs "UNK").

(** Versions of an entry, when it has a list of them. *)
Definition ver_hit (ua : bytes) (v : yosver) : Prop := db_applies K (fun _ => None) any_case (yv_regex v) ua.
(** The version: for an entry with a list of versions and a pattern, that of the first that applies; else the entry's
    own. *)
Inductive db_os_version (ua : bytes) (y : yos) : bytes -> Prop :=
| BW_constant : yo_versions y = [] -> constant (yo_version y) -> db_os_version ua y (yo_version y)
| BW_empty : yo_versions y = [] -> yo_version y = [] -> db_os_version ua y []
| BW_plain : plain (yo_regex y) -> yo_versions y = [] -> ~ constant (yo_version y) -> db_os_version ua y []
| BW_plain_list : plain (yo_regex y) -> yo_versions y <> [] -> db_os_version ua y []
| BW_group m n s : db_finds K (k_os K) any_case (yo_regex y) ua m -> yo_versions y = [] -> group_ref (yo_version y) n ->
    captured m n ua s -> db_os_version ua y s
| BW_absent m n : db_finds K (k_os K) any_case (yo_regex y) ua m -> yo_versions y = [] -> group_ref (yo_version y) n ->
    absent m n -> db_os_version ua y []
| BW_no_version : yo_versions y <> [] -> none (ver_hit ua) (yo_versions y) -> db_os_version ua y []
| BW_list_constant v : ~ plain (yo_regex y) -> yo_versions y <> [] -> first (ver_hit ua) (yo_versions y) v ->
    constant (yv_version v) -> db_os_version ua y (yv_version v)
| BW_list_none v : ~ plain (yo_regex y) -> yo_versions y <> [] -> first (ver_hit ua) (yo_versions y) v ->
    plain (yv_regex v) \/ yv_version v = [] -> ~ constant (yv_version v) -> db_os_version ua y []
| BW_list_group v m n s : ~ plain (yo_regex y) -> yo_versions y <> [] -> first (ver_hit ua) (yo_versions y) v ->
    db_finds K (fun _ => None) any_case (yv_regex v) ua m -> group_ref (yv_version v) n -> captured m n ua s ->
    db_os_version ua y s
| BW_list_absent v m n : ~ plain (yo_regex y) -> yo_versions y <> [] -> first (ver_hit ua) (yo_versions y) v ->
    db_finds K (fun _ => None) any_case (yv_regex v) ua m -> group_ref (yv_version v) n -> absent m n ->
    db_os_version ua y [].
Definition os_proper (y : yos) : Prop :=
  proper_ref (yo_name y) /\ proper_ref (yo_version y) /\ Forall (fun v => proper_ref (yv_version v)) (yo_versions y).

(** ** Devices *)

(** The pattern of a brand; some fixed texts are replaced by a pattern ([staticReplDevice]). *)
Definition brand_source (rs0 rs : bytes) : Prop :=
  match k_static K rs0 with
  | Some x => (~ plain x /\ rs = x) \/ (plain x /\ rs = rs0)
  | None => rs = rs0
  end.
Definition brand_plain (rs0 : bytes) : Prop :=
  match k_static K rs0 with Some x => plain x | None => plain rs0 end.
Definition brand_finds (rs0 ua : bytes) (m : list Z) : Prop :=
  ~ brand_plain rs0 /\ exists rs, brand_source rs0 rs /\ db_finds K (k_device K) any_case rs ua m.
Definition brand_hit (ua : bytes) (x : bytes * ybrand) : Prop :=
  (brand_plain (yb_regex (snd x)) /\ occurs (yb_regex (snd x)) ua) \/ exists m, brand_finds (yb_regex (snd x)) ua m.
(** The brands of a file, in alphabetical order. *)
Definition brands (i : nat) (l : list (bytes * ybrand)) : Prop :=
  exists f, nth_error (db_device D) i = Some f /\ in_order f l.
Definition db_device_silent (mask : N) (ua : bytes) (k : N * nat * N) : Prop :=
  on mask (fst (fst k)) -> exists l, brands (snd (fst k)) l /\ none (brand_hit ua) l.
Definition db_device_is (mask : N) (ua : bytes) (bit : N) (idx : nat) (def : N) (x : bytes * ybrand) : Prop :=
  exists before after l, device_order = before ++ (bit, idx, def) :: after /\
    Forall (db_device_silent mask ua) before /\ on mask bit /\ brands idx l /\ first (brand_hit ua) l x.
Definition db_no_device (mask : N) (ua : bytes) : Prop := Forall (db_device_silent mask ua) device_order.

Definition model_hit (ua : bytes) (m : ymodel) : Prop := db_applies K (k_device K) any_case (ym_regex m) ua.
(** The type named by [own], or by [outer] when [own] is empty. *)
Definition db_type (own outer : bytes) (def t : N) : Prop :=
  own <> [] /\ type_called own def t \/ own = [] /\ type_called outer def t.
(** The type of a device: that of the model that applies, if it names one, else that of the brand. *)
Inductive db_device_type (ua : bytes) (y : ybrand) (def : N) : N -> Prop :=
| BT_model m t : yb_models y <> [] -> first (model_hit ua) (yb_models y) m -> db_type (ym_device m) (yb_device y) def t ->
    db_device_type ua y def t
| BT_default : yb_models y <> [] -> none (model_hit ua) (yb_models y) -> db_device_type ua y def def
| BT_entry t : yb_models y = [] -> type_called (yb_device y) def t -> db_device_type ua y def t.
(** The model before trimming: a template filled with the groups of the pattern that applies. *)
Inductive db_model (ua : bytes) (y : ybrand) : bytes -> Prop :=
| BM_none : yb_models y = [] -> yb_model y = [] -> db_model ua y []
| BM_single m out : yb_models y = [] -> yb_model y <> [] -> brand_finds (yb_regex y) ua m -> expands m ua (yb_model y) out ->
    db_model ua y out
| BM_single_plain : yb_models y = [] -> yb_model y <> [] -> brand_plain (yb_regex y) -> db_model ua y (yb_model y)
| BM_no_model : yb_models y <> [] -> none (model_hit ua) (yb_models y) -> db_model ua y []
| BM_list x m out : yb_models y <> [] -> first (model_hit ua) (yb_models y) x ->
    db_finds K (k_device K) any_case (ym_regex x) ua m -> expands m ua (ym_model x) out -> db_model ua y out
| BM_list_plain x : yb_models y <> [] -> first (model_hit ua) (yb_models y) x -> plain (ym_regex x) ->
    db_model ua y (ym_model x).
Definition brand_proper (x : bytes * ybrand) : Prop :=
  fst x <> [] /\ (length (yb_model (snd x)) < 256) /\ Forall (fun m => length (ym_model m) < 256) (yb_models (snd x)).

(** The type when no brand applies and the operating system is called [os]. *)
Definition db_fallback_type (mask : N) (ua os : bytes) (t : N) : Prop :=
  (on mask 1 /\ In os desktop_names /\ t = 1%N) \/
  (~ (on mask 1 /\ In os desktop_names) /\
   ((re_find (compile src_tablet) ua <> None /\ t = 8%N) \/
    (re_find (compile src_tablet) ua = None /\ re_find (compile src_mobile) ua <> None /\ t = 2%N) \/
    (re_find (compile src_tablet) ua = None /\ re_find (compile src_mobile) ua = None /\ t = 0%N))).

(** The vendors in alphabetical order, each with its patterns. *)
Definition db_fragments (l : list (bytes * regex)) : Prop :=
  exists vs, in_order (db_vendor D) vs /\
    l = flat_map (fun v => map (fun r => (fst v, compile (r ++ bs "[^a-z0-9]+"))) (snd v)) vs.
Inductive db_fallback_brand (ua : bytes) : bytes -> Prop :=
| BB_word : re_find (compile src_tablet) ua <> None \/ re_find (compile src_mobile) ua <> None -> db_fallback_brand ua (bs "UNK")
| BB_none l : re_find (compile src_tablet) ua = None -> re_find (compile src_mobile) ua = None ->
    db_fragments l -> none (fun br => re_find (snd br) ua <> None) l -> db_fallback_brand ua (bs "UNK")
| BB_last l b r out : re_find (compile src_tablet) ua = None -> re_find (compile src_mobile) ua = None ->
    db_fragments l -> last_of (fun br => re_find (snd br) ua <> None) l (b, r) -> trimmed b out -> db_fallback_brand ua out.
(** ** Header hints: the first file with the header decides. *)
Definition db_hint_is (header name : bytes) : Prop :=
  exists f1 f f2, db_hint D = f1 ++ f :: f2 /\ (forall g v, In g f1 -> ~ In (header, v) g) /\ In (header, name) f.
Definition db_header (header : bytes) : Prop := exists f v, In f (db_hint D) /\ In (header, v) f.
(** No other header of the database has the hash of this one. *)
Definition hash_apart (header : bytes) : Prop := forall other, db_header other -> fnv1 other = fnv1 header -> other = header.
End DB.

(** ** Sizes: every table of ranges stays below 4 GiB, so that no bound wraps around. *)
Definition fits_32 {A} (l : list A) : Prop := (N.of_nat (length l) < two32)%N.
Definition built_small (T : tables) : Prop :=
  fits_32 (cr_buf T) /\ fits_32 (or_buf T) /\ fits_32 (or_ov T) /\ fits_32 (dr_buf T) /\ fits_32 (dr_dm T) /\
  fits_32 (vr_buf T) /\ fits_32 (vr_re T) /\ fits_32 (hr_buf T).
(** Every generated pattern is accepted by [regexp.MustCompile]: the built program starts. *)
Definition starts (T : tables) : Prop :=
  Forall (fun r => parse_re (re_src r) <> None) (cr_re T ++ cr_evre T ++ or_re T ++ dr_re T ++ vr_re T).

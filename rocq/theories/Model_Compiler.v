(** The table compiler [uaxplc] (cmd/uaxplc): from the parsed YAML database to the generated tables.
    Simplifications: files, YAML parsing, logging and [go/format] are not modelled (the input is the parsed database,
    the output the tables the generated text denotes); a Go map is an association list in the order in which it
    happens to be ranged over; [regexp.Compile] is a test [valid] given to the functions, the maps [reRepl*] and
    [staticReplDevice] of replacement patterns are functions given to them. *)
From Verif Require Import Model_Base Model_Ctx.
From Coq Require Import Strings.Byte.

(** ** buf.go *)

(** buf.go:5-8 [buf]. *)
Record cbuf := mkBuf { b_idx : list (bytes * N); b_buf : bytes }.
Definition buf_empty : cbuf := mkBuf [] [].
(** [b.idx[s]]. *)
Fixpoint smap_get {A} (m : list (bytes * A)) (k : bytes) : option A :=
  match m with
  | [] => None
  | (k', v) :: m' => if beqs k' k then Some v else smap_get m' k
  end.
(** buf.go:10-24 [add]; [uint32(len(b.buf))] is taken modulo 2^32 by [e_encode]. *)
Definition buf_add (s : bytes) (b : cbuf) : N * cbuf :=
  match smap_get (b_idx b) s with
  | Some e => (e, b)
  | None =>
      let e := e_encode (N.of_nat (length (b_buf b))) (N.of_nat (length (b_buf b) + length s)) in
      (e, mkBuf ((s, e) :: b_idx b) (b_buf b ++ s))
  end.

(** ** regex.go *)

(** regex.go:12 [regexBytes], 18-27 [isRegex]. *)
Definition regexBytes : bytes := bs "?:.+*\|^;()[]{}$".
Definition is_regex (s : bytes) : bool :=
  existsb (fun c => match index_byte s c with Some _ => true | None => false end) regexBytes.

(** regex.go:13-15: each of the three detectors is an opener, at least one byte other than ')', and ')'.
    [MatchString]: somewhere in [s] there is the opener, followed by a byte other than ')' and, later, a ')'. *)
Fixpoint detect (op s : bytes) : bool :=
  (has_prefix s op &&
   match skipn (length op) s with
   | c :: r => negb (beq c x29) && match index_byte r x29 with Some _ => true | None => false end
   | [] => false
   end) ||
  match s with [] => false | _ :: s' => detect op s' end.

(** regex.go:38-49, 61-72, 87-98: the loop looking for the closing bracket.  [rest] is [s[i:]], [prev] is [s[i-1]];
    [esc] tells whether an escaped '(' is ignored (third loop only). *)
Fixpoint closing (esc : bool) (prev : byte) (rest : bytes) (i bo bc : nat) : option nat :=
  match rest with
  | [] => None
  | c :: r =>
      let bo := if beq c x28 && negb (esc && beq prev x5c) then S bo else bo in
      let bc := if beq c x29 && negb (beq prev x5c) then S bc else bc in
      if Nat.eqb bo bc then Some i else closing esc c r (S i) bo bc
  end.

(** [strings.Replace(s, ss, "", 1)]. *)
Definition remove_first (s ss : bytes) : bytes :=
  match bytes_index s ss with
  | Some k => firstn k s ++ skipn (k + length ss) s
  | None => s
  end.

(** regex.go:31-55, one pass of the loop body: [None] at the [break]; [s[io-1:ic+1]] is checked. *)
Definition strip_at (esc : bool) (k : nat) (s : bytes) : res bytes :=
  match skipn k s with
  | prev :: rest =>
      let ic := match closing esc prev rest (S k) 1 0 with Some i => i | None => S k end in
      match slice s (N.of_nat k) (N.of_nat (S ic)) with
      | Ok ss => Ok (remove_first s ss)
      | Panic => Panic
      end
  | [] => Panic
  end.

(** regex.go:31-55 and 80-104: [for { ... }]; [fuel] bounds the number of passes, [None] when it runs out. *)
Fixpoint strip_loop (op : bytes) (esc : bool) (fuel : nat) (s : bytes) : option (res bytes) :=
  match fuel with
  | O => None
  | S f =>
      match bytes_index s op with
      | None => Some (Ok s)
      | Some k => match strip_at esc k s with
                  | Ok s' => strip_loop op esc f s'
                  | Panic => Some Panic
                  end
      end
  end.

(** regex.go:106 [strings.ReplaceAll(s, ")||(", ")|(")]; [skip] bytes are already replaced. *)
Fixpoint squeeze (skip : nat) (s : bytes) : bytes :=
  match s with
  | [] => []
  | c :: r =>
      match skip with
      | S k => squeeze k r
      | O => if has_prefix s (bs ")||(") then bs ")|(" ++ squeeze 3 r else c :: squeeze 0 r
      end
  end.

Definition obind {A B} (o : option (res A)) (f : A -> option (res B)) : option (res B) :=
  match o with Some (Ok a) => f a | Some Panic => Some Panic | None => None end.

(** regex.go:29-108 [normalizeRegex]. *)
Definition normalize (s : bytes) : option (res bytes) :=
  obind (if detect (bs "(?<!") s then strip_loop (bs "(?<") false (S (length s)) s else Some (Ok s)) (fun s =>
  obind (if detect (bs "(?!.*") s
         then match bytes_index s (bs "(?!.*") with
              | Some k => Some (strip_at false k s)
              | None => Some Panic
              end
         else Some (Ok s)) (fun s =>
  obind (if detect (bs "(?!") s then strip_loop (bs "(?!") true (S (length s)) s else Some (Ok s)) (fun s =>
  Some (Ok (squeeze 0 s))))).

(** ** mod.go *)

(** Hexadecimal digits of [n], most significant first, at least one. *)
Definition hex_digit (d : N) : byte := nb (if (d <? 10)%N then 48 + d else 87 + d).
Fixpoint hex_digits_fuel (fuel : nat) (n : N) : bytes :=
  match fuel with
  | O => []
  | S f => if (n <? 16)%N then [hex_digit n] else hex_digits_fuel f (n / 16) ++ [hex_digit (n mod 16)]
  end.
Definition hex_digits (n : N) : bytes := hex_digits_fuel 64 n.
(** [fmt] verb [%0wx]: the minus sign of a negative number comes first and counts for the width. *)
Definition fmt_x (w : nat) (z : Z) : bytes :=
  let sign := if (z <? 0)%Z then [x2d] else [] in
  let d := hex_digits (Z.abs_N z) in
  sign ++ repeat x30 (w - length sign - length d) ++ d.
(** [int8(x)]. *)
Definition wrap_i8 (z : Z) : Z := ((z + 128) mod 256 - 128)%Z.
(** mod.go:14-36 [hex], by the type of its argument ([uint64] and [entry.Entry64] are formatted alike). *)
Definition hex_i8 (i : Z) : bytes :=
  if (i <? 0)%Z then bs "-0x" ++ fmt_x 1 (wrap_i8 (- i)) else bs "0x" ++ fmt_x 1 i.
Definition hex_i32 (i : Z) : bytes :=
  if (i <? 0)%Z then bs "-0x" ++ fmt_x 4 (wrap32 (- i)) else bs "0x" ++ fmt_x 4 i.
Definition hex_u64 (n : N) : bytes := bs "0x" ++ fmt_x 8 (Z.of_N n).
(** mod_client.go:219-225 (and the same lines of the other modules): the byte table. *)
Fixpoint emit_bytes (i : nat) (l : bytes) : bytes :=
  match l with
  | [] => []
  | b :: r => (if (0 <? i) && (i mod 16 =? 0) then [x0a] else []) ++ bs "0x" ++ fmt_x 2 (Z.of_N (bn b)) ++ bs ", "
              ++ emit_bytes (S i) r
  end.

(** ** Sorting *)

(** [sort.Slice] by a string key (mod_client.go:250-252, mod_device.go:134-136, mod_vendor.go:59-61) and
    [sort.Strings]; the keys of a map are different, so every sorting algorithm gives the same list. *)
Fixpoint insert {A} (x : bytes * A) (l : list (bytes * A)) : list (bytes * A) :=
  match l with
  | [] => [x]
  | y :: l' => if str_leb (fst x) (fst y) then x :: l else y :: insert x l'
  end.
Definition sort_keys {A} (l : list (bytes * A)) : list (bytes * A) := fold_right insert [] l.

(** ** strconv *)

(** [strconv.ParseInt(s, 10, 64)] and [strconv.Atoi(s)]: the value and whether there is an error (0 for a malformed
    number, the nearest int64 for one out of range). *)
Fixpoint digits_val (s : bytes) (acc : Z) : option Z :=
  match s with
  | [] => Some acc
  | c :: r => let d := (Z.of_N (bn c) - 48)%Z in
              if ((0 <=? d) && (d <=? 9))%Z then digits_val r (10 * acc + d)%Z else None
  end.
(** [strconv.ParseUint] stops with a range error at the digit that makes the number exceed 64 bits, whatever follows. *)
Fixpoint too_big (s : bytes) (acc : Z) : bool :=
  match s with
  | [] => false
  | c :: r => let d := (Z.of_N (bn c) - 48)%Z in
              if ((0 <=? d) && (d <=? 9))%Z then ((18446744073709551615 <? 10 * acc + d)%Z || too_big r (10 * acc + d)%Z)%bool else false
  end.
Definition parse_int (s : bytes) : Z * bool :=
  let '(neg, d) := match s with
                   | x2b :: r => (false, r)
                   | x2d :: r => (true, r)
                   | _ => (false, s)
                   end in
  match d with
  | [] => (0, true)%Z
  | _ :: _ =>
      match digits_val d 0 with
      | None => ((if too_big d 0 then (if neg then -9223372036854775808 else 9223372036854775807) else 0), true)%Z
      | Some n =>
          if neg then (if (9223372036854775808 <? n)%Z then (-9223372036854775808, true) else (- n, false))%Z
          else (if (9223372036854775807 <? n)%Z then (9223372036854775807, true) else (n, false))%Z
      end
  end.

(** ** mod_client.go *)

(** mod_client.go:28-31 [ClientEngine], 19-26 [clientTuple] (as parsed from YAML). *)
Record yengine := mkYE { ye_default : bytes; ye_versions : list (bytes * bytes) }.
Record yclient := mkYC {
  yc_regex : bytes; yc_name : bytes; yc_version : bytes; yc_engine : option yengine; yc_url : bytes; yc_type : bytes
}.

(** mod_client.go:254-258: the conditions of the generated function, in order. *)
Fixpoint ef_rules (l : list (bytes * bytes)) (b : cbuf) : list (bytes * N) * cbuf :=
  match l with
  | [] => ([], b)
  | (v, e) :: l' => let '(e1, b1) := buf_add e b in let '(r, b2) := ef_rules l' b1 in ((v, e1) :: r, b2)
  end.
(** mod_client.go:241-262 [ef]: the function the generated text denotes. *)
Definition ef (e : yengine) (def : N) (b : cbuf) : engineFn * cbuf :=
  let '(r, b1) := ef_rules (sort_keys (ye_versions e)) b in ((r, def), b1).

(** The state shared by the entries: string buffer and patterns ([bufRE]). *)
Definition add_opt (s : bytes) (b : cbuf) : N * cbuf :=
  match s with [] => (0%N, b) | _ :: _ => buf_add s b end.

(** A pattern or fixed text: mod_client.go:107-121 (and mod_os.go:91-104 etc.).  [normalizeRegex] never fails (C43). *)
Definition norm (s : bytes) : bytes := match normalize s with Some (Ok r) => r | _ => s end.
Definition add_match (valid : bytes -> bool) (repl : bytes -> option bytes) (rs : bytes) (b : cbuf) (re : list bytes)
  : Z * N * cbuf * list bytes :=
  if is_regex rs then
    let n := norm rs in
    let p := match repl n with Some x => x | None => n end in
    if valid p then (Z.of_nat (length re), 0%N, b, re ++ [p]) else ((-1)%Z, 0%N, b, re)
  else let '(e, b1) := buf_add rs b in ((-1)%Z, e, b1, re).

(** The tables of the client module; [k_eng] is the set [idxE] of engine names seen. *)
Record ktables := mkK { k_buf : cbuf; k_re : list bytes; k_ef : list engineFn; k_eng : list bytes }.

(** mod_client.go:125-132: the version: a group number or a constant. *)
Definition client_version64 (v : bytes) (b : cbuf) : Z * N * cbuf :=
  match v with
  | [] => ((-1)%Z, 0%N, b)
  | x24 :: r => (wrap_i8 (fst (parse_int r)), 0%N, b)
  | _ => let '(e, b1) := buf_add v b in ((-1)%Z, e, b1)
  end.

(** mod_client.go:92-157: one entry. *)
Definition compile_client1 (valid : bytes -> bool) (repl : bytes -> option bytes) (y : yclient) (k : ktables)
  : clientTuple * ktables :=
  let '(ri, m64, b1, re1) := add_match valid repl (yc_regex y) (k_buf k) (k_re k) in
  let '(br64, b2) := add_opt (yc_name y) b1 in
  let '(vi, v64, b3) := client_version64 (yc_version y) b2 in
  let '(en64, fi, b4, ef4, eng4) :=
    match yc_engine y with
    | None => (0%N, (-1)%Z, b3, k_ef k, k_eng k)
    | Some e =>
        let '(d64, c1) := add_opt (ye_default e) b3 in
        let g1 := match ye_default e with [] => k_eng k | _ :: _ => ye_default e :: k_eng k end in
        match ye_versions e with
        | [] => (d64, (-1)%Z, c1, k_ef k, g1)
        | _ :: _ =>
            let '(fn, c2) := ef e d64 c1 in
            (d64, Z.of_nat (length (k_ef k)), c2, k_ef k ++ [fn], map snd (ye_versions e) ++ g1)
        end
    end in
  let '(u64, b5) := add_opt (yc_url y) b4 in
  let '(t64, b6) := add_opt (yc_type y) b5 in
  (mkClient ri m64 br64 v64 vi en64 fi u64 t64, mkK b6 re1 ef4 eng4).
Fixpoint compile_entries {Y X S} (f : Y -> S -> X * S) (l : list Y) (k : S) : list X * S :=
  match l with
  | [] => ([], k)
  | y :: l' => let '(x, k1) := f y k in let '(r, k2) := compile_entries f l' k1 in (x :: r, k2)
  end.

(** mod_client.go:182-211: names of engines, sorted and without repetitions, and their version patterns. *)
Fixpoint uniq {A} (l : list (bytes * A)) : list (bytes * A) :=
  match l with
  | [] => []
  | x :: l' => match l' with
               | y :: _ => if beqs (fst x) (fst y) then uniq l' else x :: uniq l'
               | [] => [x]
               end
  end.
Definition engine_names (g : list bytes) : list bytes :=
  filter (fun e => match e with [] => false | _ :: _ => true end) (map fst (uniq (sort_keys (map (fun e => (e, tt)) g)))).
Definition engine_pattern (en : bytes) : bytes :=
  if beqs en (bs "Gecko") then bs "[ ](?:rv[: ]([0-9\.]+)).*gecko/[0-9.]+"
  else (if beqs en (bs "Blink") then bs "Chrome" else en) ++ bs "\s*[/\s]\s*(\d+(?:.\d+)+)".
Fixpoint compile_ev (l : list bytes) (i : Z) (b : cbuf) : list (N * Z) * cbuf :=
  match l with
  | [] => ([], b)
  | e :: l' => let '(e64, b1) := buf_add e b in let '(r, b2) := compile_ev l' (i + 1)%Z b1 in ((e64, i) :: r, b2)
  end.

(** mod_client.go:172: the text around each client pattern; 215: around a version pattern. *)
Definition client_re (p : bytes) : bytes :=
  bs "(?i)(?:^|[^A-Z0-9\-_]|[^A-Z0-9\-]_|sprd-|MZ-)(?:" ++ p ++ bs ")".
Definition ci (p : bytes) : bytes := bs "(?i)" ++ p.

(** The generated client tables. *)
Record client_out := mkCO {
  co_idx : list (list clientTuple); co_re : list bytes; co_ef : list engineFn; co_ev : list (N * Z); co_evre : list bytes;
  co_buf : bytes
}.
(** mod_client.go:49-239 [clientModule.Compile]; [files] are the parsed files in the order of [filepath.Glob]. *)
Definition compile_client (valid : bytes -> bool) (repl : bytes -> option bytes) (files : list (list yclient)) : client_out :=
  let '(idx, k) := compile_entries (compile_entries (compile_client1 valid repl)) files (mkK buf_empty [] [] []) in
  let names := engine_names (k_eng k) in
  let '(ev, b) := compile_ev names 0 (k_buf k) in
  mkCO idx (map client_re (k_re k)) (k_ef k) ev (map (fun e => ci (engine_pattern e)) names) (b_buf b).

(** ** mod_os.go *)

(** mod_os.go:17-27 [osTuple], [osVersion] (as parsed from YAML). *)
Record yosver := mkYV { yv_regex : bytes; yv_version : bytes }.
Record yos := mkYO { yo_name : bytes; yo_regex : bytes; yo_version : bytes; yo_versions : list yosver }.

(** mod_os.go:189-203 [parseInx]. *)
Definition parse_inx (v : bytes) (b : cbuf) : Z * N * cbuf :=
  match v with
  | [] => ((-1)%Z, 0%N, b)
  | x24 :: r => let '(i, err) := parse_int r in ((if err then 1 else wrap_i8 i)%Z, 0%N, b)
  | _ => let '(e, b1) := buf_add v b in ((-1)%Z, e, b1)
  end.

Record otables := mkO { o_buf : cbuf; o_re : list bytes; o_ov : list osVersionTuple }.

(** mod_os.go:108-132: one entry of a list of versions.  The replacement looked up in lines 121-123 is that of the
    pattern of the operating system, and is not used. *)
Definition compile_ov1 (valid : bytes -> bool) (y : yosver) (o : otables) : osVersionTuple * otables :=
  let '(ri, m64, b1, re1) := add_match valid (fun _ => None) (yv_regex y) (o_buf o) (o_re o) in
  let '(vi, v64, b2) := parse_inx (yv_version y) b1 in
  let v := mkOV ri m64 vi v64 in (v, mkO b2 re1 (o_ov o ++ [v])).
(** mod_os.go:76-141: one entry. *)
Definition compile_os1 (valid : bytes -> bool) (repl : bytes -> option bytes) (y : yos) (o : otables) : osTuple * otables :=
  let '(ni, n64, b1) := parse_inx (yo_name y) (o_buf o) in
  let '(ri, m64, b2, re2) := add_match valid repl (yo_regex y) b1 (o_re o) in
  let o2 := mkO b2 re2 (o_ov o) in
  let '(vi, v64, vs64, o3) :=
    match yo_versions y with
    | [] => let '(vi, v64, b3) := parse_inx (yo_version y) b2 in (vi, v64, 0%N, mkO b3 re2 (o_ov o))
    | _ :: _ =>
        let o3 := snd (compile_entries (compile_ov1 valid) (yo_versions y) o2) in
        ((-1)%Z, 0%N, e_encode (N.of_nat (length (o_ov o))) (N.of_nat (length (o_ov o3))), o3)
    end in
  (mkOS n64 ni ri m64 vi v64 vs64, o3).
Record os_out := mkOO { oo_os : list osTuple; oo_ov : list osVersionTuple; oo_re : list bytes; oo_buf : bytes }.
(** mod_os.go:47-187 [osModule.Compile]. *)
Definition compile_os (valid : bytes -> bool) (repl : bytes -> option bytes) (l : list yos) : os_out :=
  let '(os, o) := compile_entries (compile_os1 valid repl) l (mkO buf_empty [] []) in
  mkOO os (o_ov o) (map ci (o_re o)) (b_buf (o_buf o)).

(** ** mod_device.go *)

(** mod_device.go:21-33 [deviceBrand] (without the name), [deviceModel] (as parsed from YAML). *)
Record ymodel := mkYM { ym_regex : bytes; ym_model : bytes; ym_device : bytes }.
Record ybrand := mkYB { yb_regex : bytes; yb_device : bytes; yb_model : bytes; yb_models : list ymodel }.

Record dtables := mkD { d_buf : cbuf; d_re : list bytes; d_dm : list modelTuple }.
(** mod_device.go:179-203: one model. *)
Definition compile_model1 (valid : bytes -> bool) (repl : bytes -> option bytes) (y : ymodel) (d : dtables)
  : modelTuple * dtables :=
  let '(ri, m64, b1, re1) := add_match valid repl (ym_regex y) (d_buf d) (d_re d) in
  let '(t64, b2) := buf_add (ym_device y) b1 in
  let '(n64, b3) := buf_add (ym_model y) b2 in
  let m := mkModel t64 ri m64 n64 in (m, mkD b3 re1 (d_dm d ++ [m])).
(** mod_device.go:151-168: the pattern of a brand; a fixed text that is replaced by another fixed text
    ([staticReplDevice]) keeps its own. *)
Definition brand_match (valid : bytes -> bool) (repl static : bytes -> option bytes) (rs0 : bytes) (b : cbuf)
  (re : list bytes) : Z * N * cbuf * list bytes :=
  let rs := match static rs0 with Some x => x | None => rs0 end in
  if is_regex rs then add_match valid repl rs b re
  else let '(e, b1) := buf_add rs0 b in ((-1)%Z, e, b1, re).
(** mod_device.go:138-216: one brand. *)
Definition compile_brand1 (valid : bytes -> bool) (repl static : bytes -> option bytes) (x : bytes * ybrand) (d : dtables)
  : deviceTuple * dtables :=
  let '(name, y) := x in
  let '(br64, b1) := buf_add name (d_buf d) in
  let '(t64, b2) := buf_add (yb_device y) b1 in
  let '(ri, m64, b3, re3) := brand_match valid repl static (yb_regex y) b2 (d_re d) in
  let d3 := mkD b3 re3 (d_dm d) in
  let '(si, ms64, d4) :=
    match yb_models y with
    | _ :: _ =>
        let d4 := snd (compile_entries (compile_model1 valid repl) (yb_models y) d3) in
        ((-1)%Z, e_encode (N.of_nat (length (d_dm d))) (N.of_nat (length (d_dm d4))), d4)
    | [] =>
        match yb_model y with
        | [] => ((-1)%Z, 0%N, d3)
        | _ :: _ => let '(n64, b4) := buf_add (yb_model y) b3 in
                    (Z.of_nat (length (d_dm d)), 0%N, mkD b4 re3 (d_dm d ++ [mkModel 0 (-1) 0 n64]))
        end
    end in
  (mkDevice t64 br64 ri m64 si ms64, d4).
Record device_out := mkDO { do_idx : list (list deviceTuple); do_dm : list modelTuple; do_re : list bytes; do_buf : bytes }.
(** mod_device.go:86-265 [deviceModule.Compile]; each file is a map from brand names to brands. *)
Definition compile_device (valid : bytes -> bool) (repl static : bytes -> option bytes)
  (files : list (list (bytes * ybrand))) : device_out :=
  let '(idx, d) := compile_entries (fun f => compile_entries (compile_brand1 valid repl static) (sort_keys f)) files
                     (mkD buf_empty [] []) in
  mkDO idx (d_dm d) (map ci (d_re d)) (b_buf (d_buf d)).

(** ** mod_vendor.go *)

(** mod_vendor.go:72-91: one brand; the state is the buffer and the patterns. *)
Definition compile_vendor1 (x : bytes * list bytes) (s : cbuf * list bytes) : vendorTuple * (cbuf * list bytes) :=
  let '(b, re) := s in
  let '(b64, b1) := buf_add (fst x) b in
  let re1 := re ++ map (fun r => r ++ bs "[^a-z0-9]+") (snd x) in
  (mkVendor b64 (e_encode (N.of_nat (length re)) (N.of_nat (length re1))), (b1, re1)).
Record vendor_out := mkVO { vo_idx : list vendorTuple; vo_re : list bytes; vo_buf : bytes }.
(** mod_vendor.go:31-127 [vendorModule.Compile]. *)
Definition compile_vendor (l : list (bytes * list bytes)) : vendor_out :=
  let '(idx, (b, re)) := compile_entries compile_vendor1 (sort_keys l) (buf_empty, []) in mkVO idx re (b_buf b).

(** ** mod_hint.go *)

(** mod_hint.go:66-84: one file.  [seen] is [bufST], which is never emptied: the keys of the earlier files are sorted
    together with those of this one, and skipped because they are in [uniqK].  [fnv.Hash64String] is [fnv1]. *)
Record htables := mkH { h_buf : cbuf; h_idx : list (N * N); h_keys : list bytes; h_uniq : list bytes }.
Fixpoint hint_keys (tuples : list (bytes * bytes)) (ks : list bytes) (h : htables) : htables :=
  match ks with
  | [] => h
  | k :: ks' =>
      if existsb (beqs k) (h_uniq h) then hint_keys tuples ks' h
      else
        let '(e, b1) := buf_add (match smap_get tuples k with Some v => v | None => [] end) (h_buf h) in
        hint_keys tuples ks' (mkH b1 (h_idx h ++ [(fnv1 k, e)]) (h_keys h) (k :: h_uniq h))
  end.
Definition hint_file (tuples : list (bytes * bytes)) (h : htables) : htables :=
  let ks := map fst (sort_keys (map (fun k => (k, tt)) (h_keys h ++ map fst tuples))) in
  hint_keys tuples ks (mkH (h_buf h) (h_idx h) ks (h_uniq h)).
Record hint_out := mkHO { ho_idx : list (N * N); ho_buf : bytes }.
(** mod_hint.go:27-104 [hintModule.Compile]. *)
Definition compile_hint (files : list (list (bytes * bytes))) : hint_out :=
  let h := fold_left (fun h f => hint_file f h) files (mkH buf_empty [] [] []) in mkHO (h_idx h) (b_buf (h_buf h)).

(** Where the strings live.  [byteconv.B2S] makes a string share the bytes of a slice, so the strings returned by the getters
    are windows into the two buffers of the context (ctx.go:34) or into the constant tables.  This file models the
    arrays behind the two buffers.
    Simplifications: a nil slice is an array of length 0; the tables and string literals are never written and are not part
    of the heap; several appends to [c.buf] in one getter are several [grow] steps, in any split; garbage collection does
    not touch what is still referenced. *)
From Verif Require Import Model_Base Model_CacheEntry Model_Ctx Model_Parse.

(** Arrays by number; the length of an array is its capacity. *)
Definition heap := list bytes.
Definition arr (h : heap) (a : nat) : bytes := nth a h [].
Record sl := mkSl { sl_arr : nat; sl_len : nat }.   (* slices start at offset 0: c.src and c.buf are never re-sliced from the left *)
Definition contents (h : heap) (s : sl) : bytes := firstn (sl_len s) (arr h (sl_arr s)).

Definition set_arr (h : heap) (a : nat) (v : bytes) : heap := firstn a h ++ v :: skipn (S a) h.
Definition write (a : bytes) (off : nat) (x : bytes) : bytes := firstn off a ++ x ++ skipn (off + length x) a.

(** The built-in [append(s, x...)]: in place when the capacity suffices, otherwise in a new array of any sufficient
    capacity. *)
Inductive go_append (h : heap) (s : sl) (x : bytes) : heap -> sl -> Prop :=
| GA_in_place : sl_len s + length x <= length (arr h (sl_arr s)) ->
    go_append h s x (set_arr h (sl_arr s) (write (arr h (sl_arr s)) (sl_len s) x)) (mkSl (sl_arr s) (sl_len s + length x))
| GA_new pad : length (arr h (sl_arr s)) < sl_len s + length x ->
    go_append h s x (h ++ [contents h s ++ x ++ pad]) (mkSl (length h) (sl_len s + length x)).

(** The memory of one context. *)
Record mem := mkMem { m_heap : heap; m_src : sl; m_buf : sl }.

(** What happens to it: [c.buf = append(c.buf, x...)] (ctx.go:267-273, device_parser.go:210-217, 219-256);
    [c.buf = append(c.buf[:0], row.Data...)] (ctx.go:325); [c.reset(); c.src = append(c.src[:0], src...)]
    (ctx.go:64-68); [c.reset()] (ctx.go:288-290, called by Release through Reset). *)
Inductive mstep : mem -> mem -> Prop :=
| MS_grow h src buf x h' buf' : go_append h buf x h' buf' -> mstep (mkMem h src buf) (mkMem h' src buf').
Inductive mcached (data : bytes) : mem -> mem -> Prop :=
| MS_cached h src buf h' buf' : go_append h (mkSl (sl_arr buf) 0) data h' buf' -> mcached data (mkMem h src buf) (mkMem h' src buf').
Inductive mset_ua (ua : bytes) : mem -> mem -> Prop :=
| MS_set_ua h src buf h' src' : go_append h (mkSl (sl_arr src) 0) ua h' src' ->
    mset_ua ua (mkMem h src buf) (mkMem h' src' (mkSl (sl_arr buf) 0)).
Definition mreset (m : mem) : mem := mkMem (m_heap m) (mkSl (sl_arr (m_src m)) 0) (mkSl (sl_arr (m_buf m)) 0).

(** Appends only; or also buffers replaced from the cache. *)
Inductive grows : mem -> mem -> Prop :=
| GR_refl m : grows m m
| GR_step m1 m2 m3 : grows m1 m2 -> mstep m2 m3 -> grows m1 m3.
Inductive moves : mem -> mem -> Prop :=
| MV_refl m : moves m m
| MV_grow m1 m2 m3 : moves m1 m2 -> mstep m2 m3 -> moves m1 m3
| MV_cached data m1 m2 m3 : moves m1 m2 -> mcached data m2 m3 -> moves m1 m3.

(** A string: constant, or [n] bytes of an array. *)
Inductive str := SConst (s : bytes) | SRef (a off n : nat).
Definition sval (h : heap) (x : str) : bytes :=
  match x with SConst s => s | SRef a off n => firstn n (skipn off (arr h a)) end.

(** The string a getter has just returned, given the context it left. *)
Inductive place := PConst (s : bytes) | PSrc (off n : nat) | PBuf (off n : nat).
Definition to_str (m : mem) (p : place) : str :=
  match p with
  | PConst s => SConst s
  | PSrc off n => SRef (sl_arr (m_src m)) off n
  | PBuf off n => SRef (sl_arr (m_buf m)) off n
  end.

(** bytealg.Trim and TrimRight return a sub-slice: the number of bytes skipped at the left. *)
Definition lead (raw : bytes) (b : byte) : nat := length raw - length (trim_left raw b).
Definition low (e : N) : nat := N.to_nat (fst (e_decode e)).

Section Place.
Variable T : tables.
(** ctx.go:92-94, 103-125, 135-152, 154-166, 176-185, 197-242, 252-278. *)
Definition place_of (g : getter) (c : ctx) (s : bytes) : place :=
  match g with
  | GUserAgent => PSrc 0 (length (c_src c))
  | GBrowserVersionString =>
      if (0 <? c_clientVersion c)%N then
        if check_bit (c_bits c) flagVerConstSrc then PConst s
        else match slice64 (c_src c) (c_clientVersion c) with
             | Ok raw => PSrc (low (c_clientVersion c) + match index_byte_at raw x2f 0 with Some p => p + 1 | None => 0 end) (length s)
             | Panic => PConst s
             end
      else PConst s
  | GEngineVersionString => if (0 <? c_engineVersion c)%N then PSrc (low (c_engineVersion c)) (length s) else PConst s
  | GModel =>
      if negb (c_model c =? 0)%N then
        match slice64 (c_buf c) (c_model c) with
        | Ok raw => PBuf (low (c_model c) + lead raw x20) (length s)
        | Panic => PConst s
        end
      else PConst s
  | GOS =>
      if negb (c_osName c =? 0)%N && check_bit (c_bits c) flagOSBufSrc then
        match slice64 (c_src c) (c_osName c) with
        | Ok raw => PSrc (low (c_osName c) + lead raw x20) (length s)
        | Panic => PConst s
        end
      else PConst s
  | GOSVersionString =>
      if (0 <? c_osVersion c)%N then
        match slice64 (if check_bit (c_bits c) flagOSVerBufSrc then or_buf T else c_src c) (c_osVersion c) with
        | Ok raw =>
            match index_byte raw x5f with
            | Some _ => PBuf (length (c_buf c) - length s) (length s)
            | None => if check_bit (c_bits c) flagOSVerBufSrc then PConst s else PSrc (low (c_osVersion c)) (length s)
            end
        | Panic => PConst s
        end
      else PConst s
  | _ => PConst s   (* texts of the tables and literals *)
  end.
End Place.

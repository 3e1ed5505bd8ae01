(** Model of cache_entry.go (the byte codec; FromCtx is in Model_Ctx.v). *)
From Verif Require Import Model_Base.

(** cache_entry.go:12-33 [type CacheEntry struct].  Unsigned fields are [N], Timestamp (int64) is [Z]. *)
Record entry := mkEntry {
  e_bits : N;
  e_clientType : N; e_clientName : N; e_clientVersion : N;
  e_engineName : N; e_engineVersion : N;
  e_deviceType : N; e_brandName : N; e_modelName : N;
  e_osName : N; e_osVersion : N;
  e_data : bytes;
  e_hkey : N; e_timestamp : Z
}.

Definition entry_zero : entry := mkEntry 0 0 0 0 0 0 0 0 0 0 0 [] 0 0.

(** cache_entry.go:54-69 [minsz], 50-52 [Size]. *)
Definition minsz : nat := 8 + 1 + 8 + 8 + 8 + 8 + 2 + 8 + 8 + 8 + 8 + 8 + 8 + 4.
Definition size (r : entry) : nat := minsz + length (e_data r).

(** [binary.LittleEndian.PutUintXX] produces k bytes, least significant first. *)
Fixpoint le_bytes (k : nat) (n : N) : bytes :=
  match k with 0 => [] | S k' => nb n :: le_bytes k' (n / 256)%N end.
(** [binary.LittleEndian.UintXX]. *)
Fixpoint le_value (l : bytes) : N :=
  match l with [] => 0%N | b :: l' => (bn b + 256 * le_value l')%N end.

(** Two's complement views of int64. *)
Definition u64_of_i64 (z : Z) : N := Z.to_N (z mod 18446744073709551616)%Z.
Definition i64_of_u64 (n : N) : Z := wrap64 (Z.of_N n).

(** Overwrite [buf[off : off+length src]] (PutUintXX, element store and copy all do this). *)
Definition put (buf : bytes) (off : nat) (src : bytes) : bytes :=
  firstn off buf ++ src ++ skipn (off + length src) buf.

Inductive merr := MNil | MShortBuffer.

(** cache_entry.go:71-113 [MarshalTo]: the new contents of [buf], the count and the error. *)
Definition marshal_to (r : entry) (buf : bytes) : bytes * nat * merr :=
  if length buf <? size r then (buf, 0, MShortBuffer)
  else
    let off := 0 in
    let buf := put buf off (le_bytes 8 (e_bits r)) in let off := off + 8 in
    let buf := put buf off (le_bytes 1 (e_clientType r)) in let off := off + 1 in
    let buf := put buf off (le_bytes 8 (e_clientName r)) in let off := off + 8 in
    let buf := put buf off (le_bytes 8 (e_clientVersion r)) in let off := off + 8 in
    let buf := put buf off (le_bytes 8 (e_engineName r)) in let off := off + 8 in
    let buf := put buf off (le_bytes 8 (e_engineVersion r)) in let off := off + 8 in
    let buf := put buf off (le_bytes 2 (e_deviceType r)) in let off := off + 2 in
    let buf := put buf off (le_bytes 8 (e_brandName r)) in let off := off + 8 in
    let buf := put buf off (le_bytes 8 (e_modelName r)) in let off := off + 8 in
    let buf := put buf off (le_bytes 8 (e_osName r)) in let off := off + 8 in
    let buf := put buf off (le_bytes 8 (e_osVersion r)) in let off := off + 8 in
    let buf := put buf off (le_bytes 8 (e_hkey r)) in let off := off + 8 in
    let buf := put buf off (le_bytes 8 (u64_of_i64 (e_timestamp r))) in let off := off + 8 in
    let buf := put buf off (le_bytes 4 (N.of_nat (length (e_data r)))) in let off := off + 4 in
    let buf := put buf off (e_data r) in let off := off + length (e_data r) in
    (buf, off, MNil).

Inductive uerr := UNil | UUnexpectedEOF.

(** [data[off:off+k]] inside Unmarshal; the callers are guarded by the length checks, but the model keeps
    the bounds check so that "no panic" is a theorem. *)
Definition rd (data : bytes) (off k : nat) : res N :=
  rbind (slice data (N.of_nat off) (N.of_nat (off + k))) (fun s => Ok (le_value s)).

(** cache_entry.go:115-159 [Unmarshal].  The receiver is updated field by field; the result is the receiver
    afterwards with the returned error, or a panic.  [int(ln)] is exact on 64-bit platforms. *)
Definition unmarshal (r : entry) (data : bytes) : res (entry * uerr) :=
  if length data <? minsz then Ok (r, UUnexpectedEOF)
  else
    let off := 0 in
    rbind (rd data off 8) (fun bits => let off := off + 8 in
    rbind (rd data off 1) (fun ct => let off := off + 1 in
    rbind (rd data off 8) (fun cn => let off := off + 8 in
    rbind (rd data off 8) (fun cv => let off := off + 8 in
    rbind (rd data off 8) (fun en => let off := off + 8 in
    rbind (rd data off 8) (fun ev => let off := off + 8 in
    rbind (rd data off 2) (fun dt => let off := off + 2 in
    rbind (rd data off 8) (fun br => let off := off + 8 in
    rbind (rd data off 8) (fun md => let off := off + 8 in
    rbind (rd data off 8) (fun osn => let off := off + 8 in
    rbind (rd data off 8) (fun osv => let off := off + 8 in
    rbind (rd data off 8) (fun hk => let off := off + 8 in
    rbind (rd data off 8) (fun ts => let off := off + 8 in
    rbind (rd data off 4) (fun ln => let off := off + 4 in
    let r' := fun d => mkEntry bits ct cn cv en ev dt br md osn osv d hk (i64_of_u64 ts) in
    if (N.of_nat (length data) <? N.of_nat off + ln)%N then Ok (r' (e_data r), UUnexpectedEOF)
    else rbind (slice data (N.of_nat off) (N.of_nat off + ln)) (fun d =>
         Ok (r' d, UNil)))))))))))))))).

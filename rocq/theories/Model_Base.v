(** Common ground of the model: bytes, panics, slices, the third-party helpers.

    Third-party code (github.com/koykov/{entry,bitset,bytealg,byteconv,hash}) is not part of /repo;
    the definitions marked [dep] transcribe the documented contract of the functions /repo calls. *)
From Coq Require Export List Arith NArith ZArith Bool.
From Coq Require Strings.String.
Export String.StringSyntax.
From Coq Require Export Init.Byte.
Export ListNotations.

(** Go [[]byte] and [string]: a list of bytes.  [byte] has exactly 256 values. *)
Definition bytes := list byte.

(** String literals of the source. *)
Definition bs (s : String.string) : bytes := String.list_byte_of_string s.
Arguments bs s%string_scope.

(** byte -> number, and the conversion [byte(n)] (truncation). *)
Definition bn (b : byte) : N := Byte.to_N b.
Definition nb (n : N) : byte :=
  match Byte.of_N (n mod 256) with Some b => b | None => x00 end.

(** Byte equality (through the numeric value: a fast switch for the VM). *)
Definition beq (a b : byte) : bool := N.eqb (bn a) (bn b).

Fixpoint beqs (a b : bytes) : bool :=
  match a, b with
  | [], [] => true
  | x :: a', y :: b' => beq x y && beqs a' b'
  | _, _ => false
  end.

(** Outcome of a Go expression: a value, or a run-time panic. *)
Inductive res (A : Type) : Type := Ok (a : A) | Panic.
Arguments Ok {A} _.
Arguments Panic {A}.

Definition is_ok {A} (r : res A) : bool := match r with Ok _ => true | Panic => false end.

Definition rbind {A B} (r : res A) (f : A -> res B) : res B :=
  match r with Ok a => f a | Panic => Panic end.

(** Go slice expression [l[lo:hi]], bounds checked against the contents (see DESIGN.md, "Panics"). *)
Definition slice {A} (l : list A) (lo hi : N) : res (list A) :=
  if (lo <=? hi)%N && (hi <=? N.of_nat (length l))%N
  then Ok (firstn (N.to_nat (hi - lo)) (skipn (N.to_nat lo) l))
  else Panic.

(** Go index expression [l[i]]. *)
Definition index {A} (l : list A) (i : N) : res A :=
  match nth_error l (N.to_nat i) with Some x => Ok x | None => Panic end.

(** [bytes.IndexByte(s, c)] / [strings.Index(s, "c")] for a one-byte needle. *)
Fixpoint index_byte (s : bytes) (c : byte) : option nat :=
  match s with
  | [] => None
  | x :: s' => if beq x c then Some 0
               else match index_byte s' c with Some k => Some (S k) | None => None end
  end.

(** [dep] [bytealg.IndexByteAtLUR(s, c, at)]: position (from the start of [s]) of the first [c] at or after [at]. *)
Definition index_byte_at (s : bytes) (c : byte) (at_ : nat) : option nat :=
  match index_byte (skipn at_ s) c with Some k => Some (at_ + k) | None => None end.

Fixpoint has_prefix (s pre : bytes) : bool :=
  match pre, s with
  | [], _ => true
  | p :: pre', x :: s' => beq x p && has_prefix s' pre'
  | _ :: _, [] => false
  end.

(** [bytes.Index(s, sub)]. *)
Fixpoint bytes_index (s sub : bytes) : option nat :=
  if has_prefix s sub then Some 0
  else match s with
       | [] => None
       | _ :: s' => match bytes_index s' sub with Some k => Some (S k) | None => None end
       end.

(** [bytes.Index(s, sub) != -1]. *)
Definition contains_b (s sub : bytes) : bool :=
  match bytes_index s sub with Some _ => true | None => false end.

(** [dep] [bytealg.Trim/TrimRight(s, cut)] for a one-byte cut set. *)
Fixpoint trim_left (s : bytes) (c : byte) : bytes :=
  match s with
  | [] => []
  | x :: s' => if beq x c then trim_left s' c else s
  end.
Fixpoint trim_right (s : bytes) (c : byte) : bytes :=
  match s with
  | [] => []
  | x :: s' => match trim_right s' c with
               | [] => if beq x c then [] else [x]
               | y :: t => x :: y :: t
               end
  end.
Definition trim (s : bytes) (c : byte) : bytes := trim_right (trim_left s c) c.

(** [dep] [entry.Entry64]: a uint64 holding two uint32, low bound in the high half
    (layout confirmed by the shipped tables, e.g. vendor_repo.go:11 [0x400000008] = bytes 4..8 = "Asus"). *)
Definition two32 : N := 4294967296%N.
Definition two64 : N := 18446744073709551616%N.
Definition e_encode (lo hi : N) : N := ((lo mod two32) * two32 + hi mod two32)%N.
Definition e_decode (e : N) : N * N := (e / two32, e mod two32)%N.

(** [dep] [bitset.Bitset]: a uint64 used as 64 flags. *)
Definition check_bit (b : N) (i : N) : bool := N.testbit b i.
Definition set_bit (b : N) (i : N) : N := N.setbit b i.

(** [dep] [fnv.Hash64String]: 64-bit FNV-1 (multiply, then xor). *)
Definition fnv_prime : N := 1099511628211%N.
Definition fnv_basis : N := 14695981039346656037%N.
Definition fnv_step (h : N) (c : byte) : N := N.lxor ((h * fnv_prime) mod two64) (bn c).
Definition fnv1 (s : bytes) : N := fold_left fnv_step s fnv_basis.

(** [uint32(x)] of a Go int, and [int32(x)]. *)
Definition u32 (z : Z) : N := Z.to_N (z mod 4294967296)%Z.
Definition wrap32 (z : Z) : Z := ((z + 2147483648) mod 4294967296 - 2147483648)%Z.
(** int64 wrap-around. *)
Definition wrap64 (z : Z) : Z :=
  ((z + 9223372036854775808) mod 18446744073709551616 - 9223372036854775808)%Z.

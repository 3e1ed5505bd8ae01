(** Model of version.go. *)
From Verif Require Import Model_Base.

(** version.go:10-18 [type Version struct].  Components are Go int32 values. *)
Record version := mkVersion {
  v_major : Z; v_minor : Z; v_patch : Z; v_revision : Z;
  v_suffix : bytes;
  v_p : bool  (* parsed mark *)
}.

(** version.go:99-102 [Reset]; also the zero value of the struct. *)
Definition version_zero : version := mkVersion 0 0 0 0 [] false.
Definition version_reset (_ : version) : version := version_zero.

(** Decimal digits, shared by Atoi and AppendInt. *)
Definition is_digit (b : byte) : bool := (48 <=? bn b)%N && (bn b <=? 57)%N.
Definition digit_val (b : byte) : Z := Z.of_N (bn b - 48).
Fixpoint digits_value (acc : Z) (s : bytes) : option Z :=
  match s with
  | [] => Some acc
  | c :: s' => if is_digit c then digits_value (acc * 10 + digit_val c)%Z s' else None
  end.

(** [strconv.Atoi] on a 64-bit platform: optional sign, at least one digit, int64 range. *)
Definition atoi (s : bytes) : option Z :=
  let '(neg, ds) :=
    match s with
    | c :: s' => if beq c x2d (* - *) then (true, s')
                 else if beq c x2b (* + *) then (false, s') else (false, s)
    | [] => (false, s)
    end in
  match ds with
  | [] => None
  | _ => match digits_value 0 ds with
         | None => None
         | Some n =>
             let z := (if neg then - n else n)%Z in
             if ((-9223372036854775808 <=? z) && (z <=? 9223372036854775807))%Z then Some z else None
         end
  end.

(** version.go:36-45, the [switch i]. *)
Definition set_component (i : nat) (d : Z) (v : version) : version :=
  match i with
  | 0 => mkVersion d (v_minor v) (v_patch v) (v_revision v) (v_suffix v) (v_p v)
  | 1 => mkVersion (v_major v) d (v_patch v) (v_revision v) (v_suffix v) (v_p v)
  | 2 => mkVersion (v_major v) (v_minor v) d (v_revision v) (v_suffix v) (v_p v)
  | 3 => mkVersion (v_major v) (v_minor v) (v_patch v) d (v_suffix v) (v_p v)
  | _ => v
  end.

Definition set_suffix (s : bytes) (v : version) : version :=
  mkVersion (v_major v) (v_minor v) (v_patch v) (v_revision v) s (v_p v).
Definition set_parsed (v : version) : version :=
  mkVersion (v_major v) (v_minor v) (v_patch v) (v_revision v) (v_suffix v) true.

(** version.go:25-52, the loop [for i := 0; i < 4; i++]: [is] is the list of remaining values of [i].
    The second component is the remaining [s], or [None] when [Atoi] failed (the function returns err). *)
Fixpoint parse_loop (is : list nat) (v : version) (s : bytes) : version * option bytes :=
  match is with
  | [] => (v, Some s)
  | i :: is' =>
      let idx := index_byte s x2e (* . *) in
      if (match idx with Some _ => true | None => false end) || (0 <? length s) then
        let idx := match idx with Some k => k | None => length s end in
        match atoi (firstn idx s) with
        | None => (v, None)
        | Some d =>
            let v := set_component i (wrap32 d) v in
            let s := if idx <? length s then skipn (idx + 1) s else [] in
            parse_loop is' v s
        end
      else parse_loop is' v s
  end.

(** [strings.IndexAny(s, " -")]. *)
Fixpoint index_space_hyphen (s : bytes) : option nat :=
  match s with
  | [] => None
  | c :: s' => if beq c x20 || beq c x2d then Some 0
               else match index_space_hyphen s' with Some k => Some (S k) | None => None end
  end.

(** version.go:20-62 [Parse].  [true] is a nil error. *)
Definition parse (v : version) (s : bytes) : version * bool :=
  if v_p v then (v, true)
  else if 0 <? length s then
    match parse_loop [0; 1; 2; 3] v s with
    | (v, None) => (v, false)
    | (v, Some s) =>
        let v := if 0 <? length s then
                   match index_space_hyphen s with
                   | Some idx => set_suffix (skipn (idx + 1) s) v
                   | None => v
                   end
                 else v in
        (set_parsed v, true)
    end
  else (set_parsed v, true).

(** [strconv.AppendInt(dst, n, 10)]. *)
Definition digit (n : N) : byte := nb (48 + n).
Fixpoint ndigits (fuel : nat) (n : N) : bytes :=
  match fuel with
  | 0 => []
  | S f => if (n <? 10)%N then [digit n] else ndigits f (n / 10)%N ++ [digit (n mod 10)%N]
  end.
Definition itoa (z : Z) : bytes :=
  let n := Z.to_N (Z.abs z) in
  (if (z <? 0)%Z then [x2d] else []) ++ ndigits (S (N.size_nat n)) n.

(** version.go:64-93 [Write]. *)
Definition version_write (v : version) (dst : bytes) : bytes :=
  let ok := false in
  let '(dst, ok) := if (0 <? v_major v)%Z then (dst ++ itoa (v_major v), true) else (dst, ok) in
  let '(dst, ok) := if (0 <? v_minor v)%Z || ok then (dst ++ [x2e] ++ itoa (v_minor v), true) else (dst, ok) in
  let '(dst, ok) := if (0 <? v_patch v)%Z || ok then (dst ++ [x2e] ++ itoa (v_patch v), true) else (dst, ok) in
  let '(dst, ok) := if (0 <? v_revision v)%Z || ok then (dst ++ [x2e] ++ itoa (v_revision v), true) else (dst, ok) in
  let dst := if 0 <? length (v_suffix v) then dst ++ [x20] ++ v_suffix v else dst in
  if length dst =? 0 then dst ++ [x30] else dst.

(** version.go:95-97 [String]. *)
Definition version_string (v : version) : bytes := version_write v [].

(** version.go:104-110 [getMajor]. *)
Definition get_major (ver : bytes) : bytes :=
  match index_byte ver x2e with
  | None => []
  | Some p => firstn p ver
  end.

(** The command line of [uaxpl]: the flags of cmd/uaxpl/main.go:39-54 as Go's package flag reads them (string, integer and
    boolean flags, ExitOnError), in front of the program of [Model_Main.v].
    Simplifications: logging and the usage text are left out; numbers are computed without bound and compared with the
    range in the end (strconv stops at once; either way the value is rejected). *)
From Verif Require Import Model_Base Model_CacheEntry Model_Ctx Model_Parse Model_Single Model_Cli Model_Main Model_Uaxplc.
From Coq Require Import Strings.Byte.

Inductive kind := KText | KNumber | KSwitch.
Inductive value := VText (v : bytes) | VNumber (z : Z) | VSwitch (b : bool).

(** strconv.ParseBool. *)
Definition parse_bool (s : bytes) : option bool :=
  if existsb (beqs s) [bs "1"; bs "t"; bs "T"; bs "true"; bs "TRUE"; bs "True"] then Some true
  else if existsb (beqs s) [bs "0"; bs "f"; bs "F"; bs "false"; bs "FALSE"; bs "False"] then Some false
  else None.

(** strconv.ParseUint: the value of a digit or letter. *)
Definition digit_of (c : byte) : option N :=
  let n := bn c in
  if ((48 <=? n) && (n <=? 57))%N then Some (n - 48)%N
  else if ((97 <=? n) && (n <=? 122))%N then Some (n - 87)%N
  else if ((65 <=? n) && (n <=? 90))%N then Some (n - 55)%N
  else None.
(** ... its loop over the digits; the flag tells whether there was an underscore. *)
Fixpoint digits_loop (base acc : N) (us : bool) (s : bytes) : option (N * bool) :=
  match s with
  | [] => Some (acc, us)
  | c :: r =>
      if beq c x5f then digits_loop base acc true r
      else match digit_of c with
           | Some d => if (d <? base)%N then digits_loop base (acc * base + d) us r else None
           | None => None
           end
  end.
(** ... the base: the letter behind a leading zero; a leading zero alone means octal. *)
Definition base_of (s : bytes) : N * bytes :=
  match s with
  | x30 :: c :: d :: r =>
      if beq c x62 || beq c x42 then (2%N, d :: r)
      else if beq c x6f || beq c x4f then (8%N, d :: r)
      else if beq c x78 || beq c x58 then (16%N, d :: r)
      else (8%N, c :: d :: r)
  | x30 :: r => (8%N, r)
  | _ => (10%N, s)
  end.
(** strconv.underscoreOK: [prev] is 0 at the beginning, 1 behind a digit or a prefix, 2 behind an underscore, 3 behind
    something else. *)
Fixpoint underscores (hex : bool) (prev : nat) (s : bytes) : bool :=
  match s with
  | [] => negb (Nat.eqb prev 2)
  | c :: r =>
      let n := bn c in
      if ((48 <=? n) && (n <=? 57))%N || (hex && (((97 <=? n) && (n <=? 102)) || ((65 <=? n) && (n <=? 70)))%N) then underscores hex 1 r
      else if beq c x5f then if Nat.eqb prev 1 then underscores hex 2 r else false
      else if Nat.eqb prev 2 then false else underscores hex 3 r
  end.
Definition underscore_ok (s : bytes) : bool :=
  match s with
  | x30 :: c :: r =>
      if beq c x62 || beq c x42 || beq c x6f || beq c x4f then underscores false 1 r
      else if beq c x78 || beq c x58 then underscores true 1 r
      else underscores false 0 s
  | _ => underscores false 0 s
  end.
(** strconv.ParseUint(s, 0, 64), without the upper bound. *)
Definition parse_uint0 (s : bytes) : option N :=
  match s with
  | [] => None
  | _ :: _ =>
      let '(base, body) := base_of s in
      match digits_loop base 0 false body with
      | Some (n, us) => if us && negb (underscore_ok s) then None else Some n
      | None => None
      end
  end.
(** strconv.ParseInt(s, 0, 64), as in flag.intValue.Set. *)
Definition parse_int0 (s : bytes) : option Z :=
  let '(neg, t) := match s with x2b :: t => (false, t) | x2d :: t => (true, t) | _ => (false, s) end in
  match parse_uint0 t with
  | Some n => if neg then if (n <=? 9223372036854775808)%N then Some (- Z.of_N n)%Z else None
              else if (n <? 9223372036854775808)%N then Some (Z.of_N n) else None
  | None => None
  end.
Definition read_value (k : kind) (s : bytes) : option value :=
  match k with
  | KText => Some (VText s)
  | KNumber => match parse_int0 s with Some z => Some (VNumber z) | None => None end
  | KSwitch => match parse_bool s with Some b => Some (VSwitch b) | None => None end
  end.

(** main.go:39-47. *)
Definition uaxpl_flags : list (bytes * kind) :=
  [(bs "ua", KText); (bs "file", KText); (bs "url", KText); (bs "out", KText); (bs "threads", KNumber); (bs "format", KText); (bs "verbose", KSwitch)].
Fixpoint kind_of (known : list (bytes * kind)) (n : bytes) : option kind :=
  match known with [] => None | (n', k) :: known' => if beqs n n' then Some k else kind_of known' n end.

Inductive cmdline :=
| CParsed (sets : list (bytes * value))     (* in the order of the command line *)
| CRejected                                 (* exit code 2 *)
| CHelped.                                  (* -h, -help: exit code 0 *)
Definition and_set (n : bytes) (v : option value) (p : cmdline) : cmdline :=
  match v with
  | None => CRejected
  | Some v => match p with CParsed l => CParsed ((n, v) :: l) | _ => p end
  end.
(** flag.FlagSet.parseOne, again and again. *)
Fixpoint parse_command (known : list (bytes * kind)) (args : list bytes) : cmdline :=
  match args with
  | [] => CParsed []
  | a :: rest =>
      match read_arg a with
      | NotFlag | Terminator => CParsed []
      | BadFlag => CRejected
      | Flag n v =>
          match kind_of known n with
          | None => if beqs n (bs "help") || beqs n (bs "h") then CHelped else CRejected
          | Some KSwitch => and_set n (match v with Some v => read_value KSwitch v | None => Some (VSwitch true) end) (parse_command known rest)
          | Some k =>
              match v with
              | Some v => and_set n (read_value k v) (parse_command known rest)
              | None => match rest with
                        | [] => CRejected
                        | v :: rest' => and_set n (read_value k v) (parse_command known rest')
                        end
              end
          end
      end
  end.

(** The variables of main.go:39-47 after flag.Parse: the last value set, or the default.  [format] and [verbose] are not
    among the options: the first is never read, the second decides on logging only. *)
Definition text_var (n def : bytes) (sets : list (bytes * value)) : bytes :=
  fold_left (fun a s => if beqs (fst s) n then match snd s with VText v => v | _ => a end else a) sets def.
Definition number_var (n : bytes) (def : Z) (sets : list (bytes * value)) : Z :=
  fold_left (fun a s => if beqs (fst s) n then match snd s with VNumber z => z | _ => a end else a) sets def.
Definition options_of (sets : list (bytes * value)) : options :=
  mkOptions (text_var (bs "ua") [] sets) (text_var (bs "file") [] sets) (text_var (bs "url") [] sets)
    (text_var (bs "out") (bs "out.diff.txt") sets) (number_var (bs "threads") 1 sets).

(** How the process ends. *)
Inductive ending := Ended (v : verdict) | UsageShown | HelpShown.
Section Command.
Variable T : tables.
Variable lower : bytes -> bytes.
Variable ans : row -> option (list bytes) -> Prop.
Variable json : bytes -> option (list row).
Variable net : bytes -> option bytes.
Variable wr : bool.
(** main.go:49-88 with the arguments of the command line; [opens p]: whether the file [p] can be opened for writing. *)
Inductive command (args : list bytes) (opens : bytes -> bool) (fs : files) : files -> ending -> Prop :=
| CM_rejected : parse_command uaxpl_flags args = CRejected -> command args opens fs fs UsageShown
| CM_helped : parse_command uaxpl_flags args = CHelped -> command args opens fs fs HelpShown
| CM_run sets fs' v : parse_command uaxpl_flags args = CParsed sets ->
    uaxpl T lower ans json net wr (options_of sets) (opens (op_out (options_of sets))) fs fs' v -> command args opens fs fs' (Ended v).
End Command.

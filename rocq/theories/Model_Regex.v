(** [dep] Go's package regexp, for the syntax used by the shipped patterns: parsing (regexp/syntax, Perl flags) and
    [FindSubmatchIndex] with leftmost-first semantics.

    Supported: literals, [.], [^], [$], classes with ranges, negation and the escapes d, w, s, groups, (?:...), a
    leading (?i), alternation, the quantifiers * + ? {n} {n,} {n,m} and their lazy forms.  A pattern outside this
    subset parses to [None]; every shipped pattern parses (checked in Proof_Parses.v).
    The matcher backtracks; Go's automata return the same submatches for patterns in which no starred
    subexpression matches the empty string ([star_ok] below, also checked for every shipped pattern). *)
From Verif Require Import Model_Base Model_Ctx.

(** ** UTF-8 decoding: unicode/utf8 [DecodeRune].  An invalid byte is the rune U+FFFD of width 1. *)
Definition rune_error : N := 65533.

Definition in_rng (lo hi x : N) : bool := (lo <=? x)%N && (x <=? hi)%N.

(** Bounds of the second byte, by first byte. *)
Definition second_rng (b : N) : N * N :=
  if (b =? 224)%N then (160, 191)%N        (* E0: A0..BF *)
  else if (b =? 237)%N then (128, 159)%N   (* ED: 80..9F *)
  else if (b =? 240)%N then (144, 191)%N   (* F0: 90..BF *)
  else if (b =? 244)%N then (128, 143)%N   (* F4: 80..8F *)
  else (128, 191)%N.

Definition cont (x : N) : bool := in_rng 128 191 x.

(** First rune of [s] and its width. *)
Definition decode_rune (s : bytes) : N * nat :=
  match s with
  | [] => (rune_error, 0)
  | b0 :: s1 =>
      let x0 := bn b0 in
      if (x0 <? 128)%N then (x0, 1)
      else if in_rng 194 244 x0 then
        match s1 with
        | [] => (rune_error, 1)
        | b1 :: s2 =>
            let x1 := bn b1 in
            let '(lo, hi) := second_rng x0 in
            if negb (in_rng lo hi x1) then (rune_error, 1)
            else if (x0 <? 224)%N then (((x0 - 192) * 64 + (x1 - 128))%N, 2)
            else
              match s2 with
              | [] => (rune_error, 1)
              | b2 :: s3 =>
                  let x2 := bn b2 in
                  if negb (cont x2) then (rune_error, 1)
                  else if (x0 <? 240)%N then ((((x0 - 224) * 64 + (x1 - 128)) * 64 + (x2 - 128))%N, 3)
                  else
                    match s3 with
                    | [] => (rune_error, 1)
                    | b3 :: _ =>
                        let x3 := bn b3 in
                        if negb (cont x3) then (rune_error, 1)
                        else (((((x0 - 240) * 64 + (x1 - 128)) * 64 + (x2 - 128)) * 64 + (x3 - 128))%N, 4)
                    end
              end
        end
      else (rune_error, 1)
  end.

(** The runes of [s] with their widths. *)
Fixpoint runes_fuel (fuel : nat) (s : bytes) : list (N * nat) :=
  match fuel, s with
  | S fuel', _ :: _ => let '(r, w) := decode_rune s in (r, w) :: runes_fuel fuel' (skipn w s)
  | _, _ => []
  end.
Definition runes (s : bytes) : list (N * nat) := runes_fuel (length s) s.

(** ** Abstract syntax *)
Inductive re :=
| Eps
| Cls (neg : bool) (rs : list (N * N))   (* one rune in (or not in) the ranges *)
| Bol                                    (* ^ : beginning of the text *)
| Eol                                    (* $ : end of the text *)
| Cat (a b : re)
| Alt (a b : re)
| Star (greedy : bool) (a : re)
| Grp (n : nat) (a : re).

(** ** Parsing *)

(** unicode.SimpleFold orbits, for the letters that occur in the patterns: Latin (with the long s and the Kelvin
    sign), Cyrillic (with the historic variants) and Roman numerals. *)
Definition orbit (r : N) : list N :=
  if in_rng 65 90 r || in_rng 97 122 r || (r =? 383)%N || (r =? 8490)%N then
    let l := if (r =? 383)%N then 115%N else if (r =? 8490)%N then 107%N else if (r <? 97)%N then (r + 32)%N else r in
    (l :: (l - 32)%N :: (if (l =? 115)%N then [383%N] else if (l =? 107)%N then [8490%N] else []))
  else if in_rng 1040 1103 r then
    let l := if (r <? 1072)%N then (r + 32)%N else r in
    (l :: (l - 32)%N ::
     (if (l =? 1074)%N then [7296%N] else if (l =? 1076)%N then [7297%N] else if (l =? 1086)%N then [7298%N]
      else if (l =? 1089)%N then [7299%N] else if (l =? 1090)%N then [7300%N; 7301%N] else if (l =? 1098)%N then [7302%N]
      else []))
  else if in_rng 8544 8559 r then [r; (r + 16)%N]
  else if in_rng 8560 8575 r then [r; (r - 16)%N]
  else [r].

(** Ranges of a literal. *)
Definition lit_rs (fold : bool) (r : N) : list (N * N) :=
  if fold then map (fun x => (x, x)) (orbit r) else [(r, r)].

(** Intersection of two ranges, shifted: the other case of the letters of [lo, hi] lying in [a, b]. *)
Definition shift_rng (lo hi a b : N) (f : N -> N) : list (N * N) :=
  let x := N.max lo a in let y := N.min hi b in
  if (x <=? y)%N then [(f x, f y)] else [].

(** appendFoldedRange, for ranges of ASCII characters. *)
Definition range_rs (fold : bool) (lo hi : N) : list (N * N) :=
  if fold then
    (lo, hi) :: shift_rng lo hi 65 90 (fun x => (x + 32)%N) ++ shift_rng lo hi 97 122 (fun x => (x - 32)%N) ++
    (if in_rng lo hi 83 || in_rng lo hi 115 then [(383, 383)%N] else []) ++
    (if in_rng lo hi 75 || in_rng lo hi 107 then [(8490, 8490)%N] else [])
  else [(lo, hi)].

(** Perl classes: d, w, s. *)
Definition perl_class (fold : bool) (c : N) : option (list (N * N)) :=
  if (c =? 100)%N then Some [(48, 57)%N]
  else if (c =? 119)%N then Some ([(48, 57)%N] ++ range_rs fold 65 90 ++ [(95, 95)%N] ++ range_rs fold 97 122)
  else if (c =? 115)%N then Some [(9, 10)%N; (12, 13)%N; (32, 32)%N]
  else None.

(** An escaped punctuation character stands for itself. *)
Definition is_punct (c : N) : bool :=
  (c <? 128)%N && negb (in_rng 48 57 c || in_rng 65 90 c || in_rng 97 122 c) && (32 <? c)%N.

(** One character of a class. *)
Definition class_char (s : list N) : option (N * list N) :=
  match s with
  | [] => None
  | c :: s' =>
      if (c =? 92)%N then
        match s' with
        | e :: s'' => if is_punct e then Some (e, s'') else None
        | [] => None
        end
      else Some (c, s')
  end.

(** The inside of a class, up to the closing bracket. *)
Fixpoint class_items (fuel : nat) (fold first : bool) (s : list N) (acc : list (N * N)) : option (list (N * N) * list N) :=
  match fuel with
  | 0 => None
  | S fuel' =>
      match s with
      | [] => None
      | c :: s' =>
          if (c =? 93)%N && negb first then Some (acc, s')
          else
            match (if (c =? 92)%N then match s' with e :: _ => perl_class fold e | [] => None end else None) with
            | Some rs => class_items fuel' fold false (tl s') (acc ++ rs)
            | None =>
                match class_char s with
                | None => None
                | Some (lo, t) =>
                    match t with
                    | d :: x :: _ =>
                        if (d =? 45)%N && negb (x =? 93)%N then
                          match class_char (tl t) with
                          | Some (hi, t') =>
                              if (hi <? lo)%N then None else class_items fuel' fold false t' (acc ++ range_rs fold lo hi)
                          | None => None
                          end
                        else class_items fuel' fold false t (acc ++ lit_rs fold lo)
                    | _ => class_items fuel' fold false t (acc ++ lit_rs fold lo)
                    end
                end
            end
      end
  end.

Definition parse_class (fold : bool) (s : list N) : option (re * list N) :=
  let '(neg, s1) := match s with c :: s' => if (c =? 94)%N then (true, s') else (false, s) | [] => (false, s) end in
  match class_items (S (length s1)) fold true s1 [] with
  | Some (rs, rest) => Some (Cls neg rs, rest)
  | None => None
  end.

(** A decimal number. *)
Fixpoint parse_num (s : list N) (acc : option nat) : option nat * list N :=
  match s with
  | c :: s' =>
      if in_rng 48 57 c then
        parse_num s' (Some (match acc with Some n => n * 10 | None => 0 end + N.to_nat (c - 48)))
      else (acc, s)
  | [] => (acc, s)
  end.

(** [Some (min, max, rest)]; [max = None] means unbounded. *)
Definition parse_quant (s : list N) : option (nat * option nat * list N) :=
  match s with
  | [] => None
  | c :: s' =>
      if (c =? 42)%N then Some (0, None, s')
      else if (c =? 43)%N then Some (1, None, s')
      else if (c =? 63)%N then Some (0, Some 1, s')
      else if (c =? 123)%N then
        match parse_num s' None with
        | (Some n, d :: t) =>
            if (d =? 125)%N then Some (n, Some n, t)
            else if (d =? 44)%N then
              match parse_num t None with
              | (Some m, e :: t') => if (e =? 125)%N && (n <=? m) then Some (n, Some m, t') else None
              | (None, e :: t') => if (e =? 125)%N then Some (n, None, t') else None
              | _ => None
              end
            else None
        | _ => None
        end
      else None
  end.

(** regexp/syntax simplify.go: repetitions as concatenations and optional parts. *)
Fixpoint rep_n (n : nat) (a : re) : re :=
  match n with 0 => Eps | 1 => a | S n' => Cat a (rep_n n' a) end.
Definition opt (greedy : bool) (a : re) : re := if greedy then Alt a Eps else Alt Eps a.
Fixpoint rep_opt (n : nat) (greedy : bool) (a : re) : re :=
  match n with 0 => Eps | 1 => opt greedy a | S n' => opt greedy (Cat a (rep_opt n' greedy a)) end.
Definition repeat_re (mn : nat) (mx : option nat) (greedy : bool) (a : re) : re :=
  match mx with
  | None => match mn with 0 => Star greedy a | _ => Cat (rep_n mn a) (Star greedy a) end
  | Some m => match mn, m - mn with
              | 0, k => rep_opt k greedy a
              | _, 0 => rep_n mn a
              | _, k => Cat (rep_n mn a) (rep_opt k greedy a)
              end
  end.

Definition cat (a b : re) : re := match a with Eps => b | _ => Cat a b end.

(** [alt]: branches separated by '|', [seq]: atoms with quantifiers; [n] is the number of groups opened so far.
    Both stop at ')' or at the end. *)
Fixpoint parse_alt (fuel : nat) (fold : bool) (n : nat) (s : list N) {struct fuel} : option (re * nat * list N) :=
  match fuel with
  | 0 => None
  | S fuel' =>
      match parse_seq fuel' fold n s Eps with
      | Some (a, n1, c :: s1) =>
          if (c =? 124)%N then
            match parse_alt fuel' fold n1 s1 with
            | Some (b, n2, s2) => Some (Alt a b, n2, s2)
            | None => None
            end
          else Some (a, n1, c :: s1)
      | r => r
      end
  end
with parse_seq (fuel : nat) (fold : bool) (n : nat) (s : list N) (acc : re) {struct fuel} : option (re * nat * list N) :=
  match fuel with
  | 0 => None
  | S fuel' =>
      match s with
      | [] => Some (acc, n, [])
      | c :: s' =>
          if (c =? 124)%N || (c =? 41)%N then Some (acc, n, s)
          else
            let atom :=
              if (c =? 40)%N then
                match s' with
                | q :: d :: s2 =>
                    if (q =? 63)%N then
                      if (d =? 58)%N then
                        match parse_alt fuel' fold n s2 with
                        | Some (a, n1, e :: s3) => if (e =? 41)%N then Some (a, n1, s3) else None
                        | _ => None
                        end
                      else None
                    else
                      match parse_alt fuel' fold (S n) s' with
                      | Some (a, n1, e :: s3) => if (e =? 41)%N then Some (Grp (S n) a, n1, s3) else None
                      | _ => None
                      end
                | _ =>
                    match parse_alt fuel' fold (S n) s' with
                    | Some (a, n1, e :: s3) => if (e =? 41)%N then Some (Grp (S n) a, n1, s3) else None
                    | _ => None
                    end
                end
              else if (c =? 91)%N then
                match parse_class fold s' with Some (a, s1) => Some (a, n, s1) | None => None end
              else if (c =? 92)%N then
                match s' with
                | e :: s1 =>
                    match perl_class fold e with
                    | Some rs => Some (Cls false rs, n, s1)
                    | None => if is_punct e then Some (Cls false (lit_rs fold e), n, s1) else None
                    end
                | [] => None
                end
              else if (c =? 46)%N then Some (Cls true [(10, 10)%N], n, s')
              else if (c =? 94)%N then Some (Bol, n, s')
              else if (c =? 36)%N then Some (Eol, n, s')
              else if (c =? 42)%N || (c =? 43)%N || (c =? 63)%N || (c =? 123)%N then None
              else Some (Cls false (lit_rs fold c), n, s') in
            match atom with
            | None => None
            | Some (a, n1, s1) =>
                match parse_quant s1 with
                | Some (mn, mx, s2) =>
                    let '(greedy, s3) :=
                      match s2 with d :: s3 => if (d =? 63)%N then (false, s3) else (true, s2) | [] => (true, s2) end in
                    (* a second quantifier is not supported *)
                    match parse_quant s3 with
                    | Some _ => None
                    | None => parse_seq fuel' fold n1 s3 (cat acc (repeat_re mn mx greedy a))
                    end
                | None => parse_seq fuel' fold n1 s1 (cat acc a)
                end
            end
      end
  end.

(** A pattern: the expression and the number of its groups. *)
Definition parse_re (src : bytes) : option (re * nat) :=
  let rs := map fst (runes src) in
  let '(fold, body) :=
    match rs with
    | a :: b :: c :: d :: r =>
        if (a =? 40)%N && (b =? 63)%N && (c =? 105)%N && (d =? 41)%N then (true, r) else (false, rs)
    | _ => (false, rs)
    end in
  match parse_alt (2 * length body + 2) fold 0 body with
  | Some (a, n, []) => Some (a, n)
  | _ => None
  end.

(** ** Matching *)

Definition cls_mem (neg : bool) (rs : list (N * N)) (r : N) : bool :=
  xorb neg (existsb (fun x => in_rng (fst x) (snd x) r) rs).

(** Captures: start and end of each group, as found so far. *)
Definition caps := list (nat * (Z * Z)).

Definition orelse {A} (a : option A) (b : unit -> option A) : option A :=
  match a with Some _ => a | None => b tt end.

(** The continuation of a match: rest of the text, position, captures. *)
Definition cont_t : Type := list (N * nat) -> Z -> caps -> option caps.

(** Repetition of [m] (greedy or lazy) followed by [k]; an iteration that consumes nothing is refused.  [n] bounds
    the number of iterations (one more than the length of the text is enough). *)
Fixpoint star_loop (m : list (N * nat) -> Z -> caps -> cont_t -> option caps) (greedy : bool) (k : cont_t) (n : nat)
    (s : list (N * nat)) (p : Z) (c : caps) : option caps :=
  match n with
  | 0 => k s p c
  | S n' =>
      let more (_ : unit) :=
        m s p c (fun s' p' c' => if length s' <? length s then star_loop m greedy k n' s' p' c' else None) in
      if greedy then orelse (more tt) (fun _ => k s p c) else orelse (k s p c) more
  end.

(** [mt r s p c k]: match [r] at position [p], the rest of the text being [s], then continue with [k].  Alternatives
    are tried in order. *)
Fixpoint mt (r : re) (s : list (N * nat)) (p : Z) (c : caps) (k : cont_t) {struct r}
  : option caps :=
  match r with
  | Eps => k s p c
  | Cls neg rs =>
      match s with
      | (x, w) :: s' => if cls_mem neg rs x then k s' (p + Z.of_nat w)%Z c else None
      | [] => None
      end
  | Bol => if (p =? 0)%Z then k s p c else None
  | Eol => match s with [] => k s p c | _ => None end
  | Cat a b => mt a s p c (fun s' p' c' => mt b s' p' c' k)
  | Alt a b => orelse (mt a s p c k) (fun _ => mt b s p c k)
  | Star greedy a =>
      star_loop (mt a) greedy k (S (length s)) s p c
  | Grp n a => mt a s p c (fun s' p' c' => k s' p' ((n, (p, p')) :: c'))
  end.

Fixpoint cap_get (c : caps) (n : nat) : Z * Z :=
  match c with
  | [] => (-1, -1)%Z
  | (m, x) :: c' => if m =? n then x else cap_get c' n
  end.

(** The result of FindSubmatchIndex. *)
Definition flat_caps (ng : nat) (c : caps) : list Z :=
  flat_map (fun n => [fst (cap_get c n); snd (cap_get c n)]) (seq 0 (S ng)).

(** Leftmost: try every starting position in order. *)
Fixpoint find_from (r : re) (s : list (N * nat)) (p : Z) : option caps :=
  orelse (mt r s p [] (fun _ p' c' => Some ((0, (p, p')) :: c')))
         (fun _ => match s with
                   | [] => None
                   | (_, w) :: s' => find_from r s' (p + Z.of_nat w)%Z
                   end).

Definition find_re (a : re) (ng : nat) (s : bytes) : option (list Z) :=
  match find_from a (runes s) 0 with
  | Some c => Some (flat_caps ng c)
  | None => None
  end.

(** [regexp.MustCompile(src)]. *)
Definition compile (src : bytes) : regex :=
  let p := parse_re src in
  mkRegex src (fun s => match p with Some (a, ng) => find_re a ng s | None => None end).

(** ** Checks *)

(** Can match the empty string. *)
Fixpoint nullable (r : re) : bool :=
  match r with
  | Eps | Bol | Eol => true
  | Cls _ _ => false
  | Cat a b => nullable a && nullable b
  | Alt a b => nullable a || nullable b
  | Star _ _ => true
  | Grp _ a => nullable a
  end.
Fixpoint star_ok (r : re) : bool :=
  match r with
  | Star _ a => negb (nullable a) && star_ok a
  | Cat a b | Alt a b => star_ok a && star_ok b
  | Grp _ a => star_ok a
  | _ => true
  end.

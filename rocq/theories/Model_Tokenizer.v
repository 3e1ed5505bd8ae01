(** Model of tokenizer.go. *)
From Verif Require Import Model_Base.

(** tokenizer.go:56-75 [init]: the delimiter bytes, in source order. *)
Definition delims : list N :=
  map bn ([x20; x09; x0a; x0d] ++ bs "/();,.[]{}:=+*").

(** tokenizer.go:54 [var tableDelim [math.MaxUint8]bool]: 255 (not 256) entries, filled by [init]. *)
Definition tableDelim : list bool :=
  map (fun i => existsb (N.eqb (N.of_nat i)) delims) (seq 0 255).

(** tokenizer.go:50-52 [isDelimiter]: array index, panics outside 0..254. *)
Definition isDelimiter (c : byte) : res bool := index tableDelim (bn c).

(** tokenizer.go:20-22 and 28-30: [for t.pos < len(ua) && isDelimiter(ua[t.pos]) == want { t.pos++ }].
    Works on the rest of the input; returns the position reached and whether [isDelimiter] panicked there. *)
Fixpoint scan (want : bool) (pos : nat) (rest : bytes) : nat * res unit :=
  match rest with
  | [] => (pos, Ok tt)
  | c :: rest' =>
      match isDelimiter c with
      | Panic => (pos, Panic)
      | Ok d => if Bool.eqb d want then scan want (S pos) rest' else (pos, Ok tt)
      end
  end.

(** What [Next] returns: a token with eof=false, or (nil, true). *)
Inductive token := Tok (t : bytes) | EOF.

(** tokenizer.go:15-34 [Next]; the receiver is the position. *)
Definition next (pos : nat) (ua : bytes) : nat * res token :=
  if length ua <=? pos then (pos, Ok EOF)
  else
    match scan true pos (skipn pos ua) with
    | (p, Panic) => (p, Panic)
    | (p, Ok tt) =>
        if length ua <=? p then (p, Ok EOF)
        else
          match scan false p (skipn p ua) with
          | (q, Panic) => (q, Panic)
          | (q, Ok tt) => (q, Ok (Tok (firstn (q - p) (skipn p ua))))
          end
    end.

(** tokenizer.go:37-43 [NextString]: a nil token becomes the empty string. *)
Definition next_string (pos : nat) (ua : bytes) : nat * res (bytes * bool) :=
  match next pos ua with
  | (p, Panic) => (p, Panic)
  | (p, Ok (Tok t)) => (p, Ok (t, false))
  | (p, Ok EOF) => (p, Ok ([], true))
  end.

(** tokenizer.go:46-48 [Reset]. *)
Definition tok_reset (_ : nat) : nat := 0.

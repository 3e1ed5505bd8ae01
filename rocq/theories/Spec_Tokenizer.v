(** Tokens of a user agent, independently of tokenizer.go. *)
From Verif Require Import Model_Base Model_Tokenizer.

(** The delimiter bytes. *)
Definition Delim (c : byte) : Prop := In c ([x20; x09; x0a; x0d] ++ bs "/();,.[]{}:=+*").

Definition Word (w : bytes) : Prop := w <> [] /\ forall c, In c w -> ~ Delim c.

(** [Runs s ts]: [ts] are the maximal runs of non-delimiters of [s], in order. *)
Inductive Runs : bytes -> list bytes -> Prop :=
| Runs_nil : Runs [] []
| Runs_delim : forall c s ts, Delim c -> Runs s ts -> Runs (c :: s) ts
| Runs_last : forall w, Word w -> Runs w [w]
| Runs_word : forall w c s ts, Word w -> Delim c -> Runs s ts -> Runs (w ++ c :: s) (w :: ts).

(** Results of [n] consecutive calls of Next on the same input, starting at position [pos]. *)
Fixpoint calls (n : nat) (pos : nat) (ua : bytes) : list (res token) :=
  match n with
  | 0 => []
  | S n' => let '(p, r) := next pos ua in r :: calls n' p ua
  end.

(** The same for NextString. *)
Fixpoint calls_string (n : nat) (pos : nat) (ua : bytes) : list (res (bytes * bool)) :=
  match n with
  | 0 => []
  | S n' => let '(p, r) := next_string pos ua in r :: calls_string n' p ua
  end.

(** Position after [n] calls. *)
Fixpoint pos_after (n : nat) (pos : nat) (ua : bytes) : nat :=
  match n with
  | 0 => pos
  | S n' => pos_after n' (fst (next pos ua)) ua
  end.

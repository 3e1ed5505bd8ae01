(** Removing look-arounds from a pattern. *)
From Verif Require Import Model_Base Spec_Compiler.
From Coq Require Import Strings.Byte.

(** Text in which brackets pair up.  A bracket behind a backslash is not a bracket; when [opens] is false, the escaped
    opening bracket is not allowed for (regex.go:38-49 and 61-72 count it like any other); neither is the escaped
    backslash. *)
Inductive bracketed (opens : bool) : bytes -> Prop :=
| B_end : bracketed opens []
| B_plain c b : c <> x28 -> c <> x29 -> c <> x5c -> bracketed opens b -> bracketed opens (c :: b)
| B_escaped c b : c <> x5c -> (c = x28 -> opens = true) -> bracketed opens b -> bracketed opens (x5c :: c :: b)
| B_pair a b : bracketed opens a -> bracketed opens b -> bracketed opens (x28 :: a ++ x29 :: b).

(** [r] is [s] without its look-arounds: the first of them is taken out with all that is between its brackets, until
    the [mark] is not there any more.  [op] opens a look-around; it starts with [mark]. *)
Inductive cut_all (opens : bool) (mark op : bytes) : bytes -> bytes -> Prop :=
| C_none r : ~ within mark r -> cut_all opens mark op r r
| C_first p body q r : ~ within mark p -> body <> [] -> bracketed opens body -> cut_all opens mark op (p ++ q) r ->
    cut_all opens mark op (p ++ op ++ body ++ x29 :: q) r.
(** The same for at most one. *)
Inductive cut_one (op : bytes) : bytes -> bytes -> Prop :=
| O_none r : ~ seen_by op r -> cut_one op r r
| O_first p body q : ~ within op p -> body <> [] -> bracketed false body -> cut_one op (p ++ op ++ body ++ x29 :: q) (p ++ q).

(** The same as [bracketed], with every character allowed behind a backslash, as in the syntax of patterns. *)
Inductive bracketed_any : bytes -> Prop :=
| A_end : bracketed_any []
| A_plain c b : c <> x28 -> c <> x29 -> c <> x5c -> bracketed_any b -> bracketed_any (c :: b)
| A_escaped c b : bracketed_any b -> bracketed_any (x5c :: c :: b)
| A_pair a b : bracketed_any a -> bracketed_any b -> bracketed_any (x28 :: a ++ x29 :: b).

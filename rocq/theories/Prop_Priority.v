(** Property C104: which of the possible matches a pattern finds, and what its groups capture. *)
From Verif Require Import Model_Base Model_Ctx Model_Regex Model_Shipped Spec_Regex Spec_Syntax Spec_Priority Proof_Syntax Proof_SyntaxShipped Proof_Priority.

(** The match found is the one preferred by the pattern as it is written, with what its groups captured. *)
Theorem C104_match : forall src fold a s m, encodes src (written fold a) -> ok_alts fold a -> go_alts a ->
  re_find (compile src) s = Some m <-> finds_first fold a (runes s) m.
Proof. exact finds_order. Qed.
Print Assumptions C104_match.

(** So for every pattern of the shipped tables. *)
Theorem C104_shipped : forall r, In r (patterns_of shipped) -> exists fold a,
  encodes (re_src r) (written fold a) /\ ok_alts fold a /\ go_alts a /\ forall s m, re_find r s = Some m <-> finds_first fold a (runes s) m.
Proof. exact shipped_order. Qed.
Print Assumptions C104_shipped.

(** (a|ab)(c|bcd) followed by any number of d in "abcd" takes "a" and "bcd" although "ab", "c" and "d" would do. *)
Definition abcd : alts := One (
  Then (AGroup true (Or (Then (AChar 97) Once false Empty) (One (Then (AChar 97) Once false (Then (AChar 98) Once false Empty))))) Once false (
  Then (AGroup true (Or (Then (AChar 99) Once false Empty) (One (Then (AChar 98) Once false (Then (AChar 99) Once false (Then (AChar 100) Once false Empty)))))) Once false (
  Then (AGroup true (One (Then (AChar 100) ZeroMore false Empty))) Once false Empty)))%N.
Example C104_case : encodes (bs "(a|ab)(c|bcd)(d*)") (written false abcd) /\ ok_alts false abcd /\ go_alts abcd /\
  finds_first false abcd (runes (bs "xabcd")) [1; 5; 1; 2; 2; 5; 5; 5]%Z.
Proof.
  assert (E : encodes (bs "(a|ab)(c|bcd)(d*)") (written false abcd)) by (split; [repeat (constructor; [left; reflexivity|]); constructor|reflexivity]).
  destruct (proj1 (syntax_b_ok false) abcd eq_refl) as [O G]. split; [exact E|]. split; [exact O|]. split; [exact G|].
  exact (proj1 (finds_order _ false abcd (bs "xabcd") _ E O G) eq_refl).
Qed.

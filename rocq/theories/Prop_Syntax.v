(** Property C77. *)
From Verif Require Import Model_Base Model_Ctx Model_Regex Model_Shipped Spec_Regex Spec_Syntax Proof_Syntax Proof_SyntaxShipped.

(** C77: a pattern written in the syntax of Spec_Syntax, in UTF-8, finds a match exactly when it occurs in the text. *)
Theorem C77_meaning : forall src fold a s, encodes src (written fold a) -> ok_alts fold a -> go_alts a ->
  re_find (compile src) s <> None <-> occurs fold a (runes s).
Proof. exact finds_meaning. Qed.
Print Assumptions C77_meaning.

(** It reports two positions for the match and for each group that captures. *)
Theorem C77_groups : forall src fold a s m, encodes src (written fold a) -> ok_alts fold a -> go_alts a ->
  re_find (compile src) s = Some m -> length m = 2 * (1 + n_alts a).
Proof. exact finds_groups. Qed.
Print Assumptions C77_groups.

(** Every pattern of the shipped tables is written so. *)
Theorem C77_shipped : forall r, In r (patterns_of shipped) -> exists fold a,
  encodes (re_src r) (written fold a) /\ ok_alts fold a /\ go_alts a /\ forall s, re_find r s <> None <-> occurs fold a (runes s).
Proof. exact shipped_meaning. Qed.
Print Assumptions C77_shipped.

(** (?i)Foo[ _-]?(\d{1,3}|x+?)$ is such a pattern; it does not occur in "Foo-12x". *)
Definition foo : alts := One (
  Then (AChar 70) Once false (Then (AChar 111) Once false (Then (AChar 111) Once false (
  Then (ASet false [IChar (Bare 32); IChar (Bare 95); IChar (Bare 45)]) ZeroOne false (
  Then (AGroup true (Or (Then (APerl 100) (Between [1] [3]) false Empty) (One (Then (AChar 120) OneMore true Empty)))) Once false (
  Then AEnd Once false Empty))))))%N.
Example C77_case : encodes (bs "(?i)Foo[ _-]?(\d{1,3}|x+?)$") (written true foo) /\ ok_alts true foo /\ go_alts foo /\
  re_find (compile (bs "(?i)Foo[ _-]?(\d{1,3}|x+?)$")) (bs "a foo-012") = Some [2; 9; 6; 9]%Z /\
  re_find (compile (bs "(?i)Foo[ _-]?(\d{1,3}|x+?)$")) (bs "Foo-12x") = None.
Proof.
  split; [split; [repeat (constructor; [left; reflexivity|]); constructor|reflexivity]|].
  destruct (proj1 (syntax_b_ok true) foo eq_refl) as [O G]. split; [exact O|]. split; [exact G|]. split; reflexivity.
Qed.

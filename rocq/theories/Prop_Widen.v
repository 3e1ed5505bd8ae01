(** Property C78. *)
From Verif Require Import Model_Base Model_Ctx Model_Regex Model_Compiler Spec_Regex Spec_Syntax Spec_Widen Proof_Syntax Proof_Widen Proof_WidenCase.

(** C78: normalising a pattern leaves out its negative look-arounds and nothing else, and what matched before still matches,
    unless an empty choice between brackets remains. *)
Theorem C78_widens : forall fold a src, encodes src (written fold a) -> ok_alts fold a -> tidy_alts a -> plain_rest fold a -> no_empty_choice fold a ->
  exists src', normalize src = Some (Ok src') /\ encodes src' (written fold (drop_alts a)) /\
  forall s, occurs fold a (runes s) -> re_find (compile src') s <> None.
Proof. exact normalize_widens. Qed.
Print Assumptions C78_widens.

(** With no capturing group inside a look-around the groups are those of the pattern. *)
Theorem C78_groups : forall fold a src src' s m, encodes src (written fold a) -> ok_alts fold a -> tidy_alts a -> plain_rest fold a -> no_empty_choice fold a -> quiet_alts a ->
  normalize src = Some (Ok src') -> re_find (compile src') s = Some m -> length m = 2 * (1 + n_alts a).
Proof. exact normalize_groups. Qed.
Print Assumptions C78_groups.

(** Refuted: (a)|(?!b)|(c) matches every text; normalised it is (a)|(c). *)
Theorem C78_widens_refuted : exists a src src' s, encodes src (written false a) /\ ok_alts false a /\ tidy_alts a /\ plain_rest false a /\
  normalize src = Some (Ok src') /\ occurs false a (runes s) /\ re_find (compile src') s = None.
Proof. exact widens_refuted. Qed.
Print Assumptions C78_widens_refuted.

(** Refuted: in (?!(x))y(\d+) the digits are group 2; normalised they are group 1 and there is no group 2. *)
Theorem C78_groups_refuted : exists a src src' s m, encodes src (written false a) /\ ok_alts false a /\ tidy_alts a /\ plain_rest false a /\ no_empty_choice false a /\
  n_alts a = 2 /\ normalize src = Some (Ok src') /\ occurs false a (runes s) /\ re_find (compile src') s = Some m /\ length m = 4.
Proof. exact groups_refuted. Qed.
Print Assumptions C78_groups_refuted.

(** Refuted: the normalised pattern may match where the pattern does not: Foo(?!Bar) and "FooBar". *)
Theorem C78_narrows_refuted : exists a src src' s, encodes src (written false a) /\ ok_alts false a /\ tidy_alts a /\ plain_rest false a /\ no_empty_choice false a /\
  quiet_alts a /\ normalize src = Some (Ok src') /\ ~ occurs false a (runes s) /\ re_find (compile src') s <> None.
Proof. exact narrows_refuted. Qed.
Print Assumptions C78_narrows_refuted.

(** (?i)(?<!x-)(Foo(?!.*Bar|Ba[zr])(?!Q)\d+|z) meets the conditions. *)
Example C78_case : encodes (bs "(?i)(?<!x-)(Foo(?!.*Bar|Ba[zr])(?!Q)\d+|z)") (written true looks) /\ ok_alts true looks /\ tidy_alts looks /\ plain_rest true looks /\
  no_empty_choice true looks /\ quiet_alts looks /\
  normalize (bs "(?i)(?<!x-)(Foo(?!.*Bar|Ba[zr])(?!Q)\d+|z)") = Some (Ok (bs "(?i)(Foo\d+|z)")) /\ occurs true looks (runes (bs "foo1")).
Proof. exact looks_case. Qed.

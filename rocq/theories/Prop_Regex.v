(** Property C58. *)
From Verif Require Import Model_Base Model_Ctx Model_Regex Spec_Regex Proof_Pattern.

(** C58: a pattern finds a match exactly when some part of the text is in its language. *)
Theorem C58_language : forall src a ng s, parse_re src = Some (a, ng) ->
  re_find (compile src) s <> None <-> exists u v w, runes s = u ++ v ++ w /\ lang a u v w.
Proof. exact compile_lang. Qed.
Print Assumptions C58_language.

(** It reports the groups of the leftmost match which Perl prefers. *)
Theorem C58_leftmost_first : forall src a ng s m, parse_re src = Some (a, ng) ->
  re_find (compile src) s = Some m <-> exists p t, best a (runes s) p t /\ m = groups ng p t.
Proof. exact compile_best. Qed.
Print Assumptions C58_leftmost_first.

(** There is only one such match. *)
Theorem C58_unique : forall a s p t p' t', best a s p t -> best a s p' t' -> p = p' /\ t = t'.
Proof. exact best_unique. Qed.
Print Assumptions C58_unique.

(** The runes of a text encoded in UTF-8 are what was encoded. *)
Theorem C58_utf8 : forall rs e, Forall scalar rs -> map bn e = flat_map utf8 rs -> runes e = map (fun r => (r, length (utf8 r))) rs.
Proof. exact runes_utf8. Qed.
Print Assumptions C58_utf8.

(** A pattern of plain characters is found in a text, be it valid UTF-8 or not, exactly when its bytes occur there. *)
Theorem C58_plain : forall p s, p <> [] -> Forall plain p -> re_find (compile p) s <> None <-> exists a b, s = a ++ p ++ b.
Proof. exact plain_find. Qed.
Print Assumptions C58_plain.

(** The hypotheses are met, and alternatives, lazy and greedy stars behave differently. *)
Example C58_case : parse_re (bs "(a|ab)(c*)") <> None /\ re_find (compile (bs "(a|ab)(c*)")) (bs "xabcc") = Some [1; 2; 1; 2; 2; 2]%Z /\
  re_find (compile (bs "(ab|a)(c*)")) (bs "xabcc") = Some [1; 5; 1; 3; 3; 5]%Z /\
  re_find (compile (bs "(ab|a)(c*?)")) (bs "xabcc") = Some [1; 3; 1; 3; 3; 3]%Z.
Proof. repeat split; try reflexivity. discriminate. Qed.
Example C58_utf8_case : Forall scalar [65; 1078; 8364; 128512]%N /\
  map bn [x41; xd0; xb6; xe2; x82; xac; xf0; x9f; x98; x80]%byte = flat_map utf8 [65; 1078; 8364; 128512]%N.
Proof.
  split; [|reflexivity].
  constructor; [left; reflexivity|]. constructor; [left; reflexivity|]. constructor; [left; reflexivity|].
  constructor; [right; split; [discriminate|reflexivity]|]. constructor.
Qed.
Example C58_plain_case : Forall plain (bs "NuttX/10") /\ re_find (compile (bs "NuttX/10")) (xff :: bs "NuttX/10.1") = Some [1; 9]%Z.
Proof. split; [|reflexivity]. repeat (constructor; [split; [reflexivity|cbn; intros H; repeat destruct H as [H|H]; try discriminate H; exact H]|]). constructor. Qed.

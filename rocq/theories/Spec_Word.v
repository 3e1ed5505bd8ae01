(** Where client patterns and vendor patterns may match. *)
From Verif Require Import Model_Base Model_Regex Spec_Regex.

(** Letters (with the long s and the Kelvin sign, which are letters s and k up to case), digits and the hyphen. *)
Definition word_char (x : N) : Prop :=
  (65 <= x <= 90 \/ 97 <= x <= 122 \/ 48 <= x <= 57 \/ x = 45 \/ x = 383 \/ x = 8490)%N.
Definition underscore : N := 95.
(** The characters of [v] are those of [l], each with its variants. *)
Definition reads (v : text) (l : list (list N)) : Prop := Forall2 (fun x vs => In (fst x) vs) v l.
Definition sprd : list (list N) := [[115; 83; 383]; [112; 80]; [114; 82]; [100; 68]; [45]]%N.
Definition mz : list (list N) := [[109; 77]; [122; 90]; [45]]%N.
(** A word starts after [u]: at the beginning of the text, after a character which is neither a word character nor an
    underscore, after an underscore that follows a character which is no word character, or after "sprd-" or "MZ-". *)
Inductive at_start (u : text) : Prop :=
| A_begin : u = [] -> at_start u
| A_other v x w : u = v ++ [(x, w)] -> ~ word_char x -> x <> underscore -> at_start u
| A_under v x w w' : u = v ++ [(x, w); (underscore, w')] -> ~ word_char x -> at_start u
| A_sprd v s : u = v ++ s -> reads s sprd -> at_start u
| A_mz v s : u = v ++ s -> reads s mz -> at_start u.

(** Small letters and digits. *)
Definition small_char (x : N) : Prop := (97 <= x <= 122 \/ 48 <= x <= 57)%N.

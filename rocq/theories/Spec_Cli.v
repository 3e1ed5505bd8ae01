(** What batch mode promises. *)
From Verif Require Import Model_Base Model_Cli.
From Coq Require Import Permutation.

Section Cli.
Variable lower : bytes -> bytes.

(** The answer [got] is not what the row wants: something is wanted, and it differs, upper and lower case aside. *)
Definition wrong (want got : bytes) : Prop := want <> [] /\ lower got <> lower want.

(** The lines about a row, one for each wrong answer, in order. *)
Inductive lines : list (bytes * bytes * bytes) -> bytes -> Prop :=
| LN_nil : lines [] []
| LN_ok l w g rest out : ~ wrong w g -> lines rest out -> lines ((l, w, g) :: rest) out
| LN_wrong l w g rest out : wrong w g -> lines rest out ->
    lines ((l, w, g) :: rest) (bs "* " ++ l ++ bs " mismatch: need '" ++ w ++ bs "' got '" ++ g ++ bs "'" ++ [x0a] ++ out).
Definition topics : list bytes :=
  [bs "client type"; bs "browser"; bs "browser version"; bs "engine"; bs "engine version";
   bs "device type"; bs "brand"; bs "model"; bs "OS"; bs "OS version"].
Definition compared (r : row) (got : list bytes) : list (bytes * bytes * bytes) := combine (combine topics (r_want r)) got.

(** What is written about a row: nothing when every answer is right, otherwise the user agent, the lines and an empty
    line. *)
Definition block (r : row) (got : list bytes) (out : bytes) : Prop :=
  exists ls, lines (compared r got) ls /\
    (ls = [] /\ out = [] \/ ls <> [] /\ out = r_ua r ++ [x0a] ++ ls ++ [x0a]).
End Cli.

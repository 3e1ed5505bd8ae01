(** Property C90: the command line of uaxpl. *)
From Verif Require Import Model_Base Model_CacheEntry Model_Ctx Model_Parse Model_Single Model_Cli Model_Main Model_Uaxplc Model_Command Spec_Uaxplc Spec_Command Proof_Command.

(** Command lines that spell settings of the seven flags run with the last value of each, or its default. *)
Theorem C90_run : forall T lower ans json net wr args l o opens fs fs' e, spells flags args l -> options_are l o ->
  command T lower ans json net wr args opens fs fs' e <-> exists v, e = Ended v /\ uaxpl T lower ans json net wr o (opens (op_out o)) fs fs' v.
Proof. exact command_runs. Qed.
Print Assumptions C90_run.
Example C90_run_case : exists args l o, spells flags args l /\ options_are l o /\ op_file o = bs "in.json" /\ op_out o = bs "a=b" /\ op_threads o = 16%Z.
Proof. exact (ex_intro _ _ (ex_intro _ _ (ex_intro _ _ (conj usual_spells (conj usual_options (conj eq_refl (conj eq_refl eq_refl))))))). Qed.

(** What a command line spells is settled, ... *)
Theorem C90_one_reading : forall args l l' o o', spells flags args l -> spells flags args l' -> options_are l o -> options_are l' o' -> l = l' /\ o = o'.
Proof. exact one_reading. Qed.
Print Assumptions C90_one_reading.

(** ... and any other is refused before a file is touched. *)
Theorem C90_refused : forall T lower ans json net wr args, (exists l, spells flags args l) \/
  ((exists opens fs fs' e, command T lower ans json net wr args opens fs fs' e) /\
   forall opens fs fs' e, command T lower ans json net wr args opens fs fs' e -> fs' = fs /\ (e = UsageShown \/ e = HelpShown)).
Proof. exact refused. Qed.
Print Assumptions C90_refused.
Example C90_refused_case : forall l, ~ spells flags [bs "-threads"; bs "two"; bs "-file"; bs "in.json"] l.
Proof. exact misspelt. Qed.

(** The flags -format and -verbose make no difference to files and exit code. *)
Theorem C90_silent : forall T lower ans json net wr args args' l l' opens fs fs' e, spells flags args l -> spells flags args' l' -> filter matters l = filter matters l' ->
  command T lower ans json net wr args opens fs fs' e <-> command T lower ans json net wr args' opens fs fs' e.
Proof. exact command_silent. Qed.
Print Assumptions C90_silent.

(** The number of threads may be written as any integer of Go; a leading zero means octal. *)
Example C90_number_case : number (bs "010") 8 /\ number (bs "-0b1_1") (-3) /\ forall z, ~ number (bs "1__0") z /\ ~ number (bs "08") z /\ ~ number (bs "9223372036854775808") z.
Proof. exact octal_number. Qed.

(** A value for -verbose in an argument of its own ends the flags: what follows is ignored, and nothing is done. *)
Theorem C90_verbose_value : forall T lower ans json net wr v rest opens fs fs' e, (~ exists s, v = bs "-" ++ s) ->
  command T lower ans json net wr (bs "-verbose" :: v :: rest) opens fs fs' e -> fs' = fs /\ e = Ended Failed.
Proof. exact verbose_ends. Qed.
Print Assumptions C90_verbose_value.

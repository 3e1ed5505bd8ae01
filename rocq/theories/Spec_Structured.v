(** The structured version getters against the text getters. *)
From Verif Require Import Model_Base Model_Version Model_Ctx Model_Parse Spec_Version Spec_Getters.

(** A structured version getter and the text getter it reads. *)
Definition version_pair (gv gs : getter) : Prop :=
  (gv = GBrowserVersion /\ gs = GBrowserVersionString) \/ (gv = GEngineVersion /\ gs = GEngineVersionString) \/
  (gv = GOSVersion /\ gs = GOSVersionString).

(** A number written the usual way: digits, no sign, no superfluous zero in front. *)
Definition Usual (d : bytes) (z : Z) : Prop := Decimal d z /\ (d = bs "0" \/ forall d', d <> x30 :: d').

(** [v] holds the numbers of the text [s]: its leading dot-separated components up to the first one that is no
    integer; zeros elsewhere.  The suffix is the text after the first space or hyphen behind the fourth dot. *)
Definition denotes (s : bytes) (v : version) : Prop :=
  forall cs rest, Peel 4 s cs rest ->
  (forall zs, Forall2 IsInt cs zs -> FieldsFrom version_zero zs v /\ SuffixFrom [] rest (v_suffix v)) /\
  (forall pre c post zs, cs = pre ++ c :: post -> Forall2 IsInt pre zs -> (forall z, ~ IsInt c z) ->
     FieldsFrom version_zero zs v /\ v_suffix v = []).

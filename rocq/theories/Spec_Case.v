(** User agents that differ only in the case of ASCII letters. *)
From Verif Require Import Model_Base Model_Version Model_Ctx Model_Parse.

Definition upper (b : byte) : N := if ((97 <=? bn b) && (bn b <=? 122))%N then (bn b - 32)%N else bn b.
Definition same_letter (a b : byte) : Prop := upper a = upper b.
Definition same_letters (s t : bytes) : Prop := Forall2 same_letter s t.

(** The texts of the entries that are not patterns. *)
Definition client_text (T : tables) (t : bytes) : Prop :=
  exists y, In y (concat (cr_idx T)) /\ (ct_matchRI y < 0)%Z /\ slice64 (cr_buf T) (ct_match64 y) = Ok t.
Definition os_text (T : tables) (t : bytes) : Prop :=
  (exists y, In y (or_os T) /\ (ot_matchRI y < 0)%Z /\ slice64 (or_buf T) (ot_match64 y) = Ok t) \/
  (exists y, In y (or_ov T) /\ (ov_matchRI y < 0)%Z /\ slice64 (or_buf T) (ov_match64 y) = Ok t).
Definition device_text (T : tables) (t : bytes) : Prop :=
  (exists y, In y (concat (dr_idx T)) /\ (dt_matchRI y < 0)%Z /\ slice64 (dr_buf T) (dt_match64 y) = Ok t) \/
  (exists y, In y (dr_dm T) /\ (mt_matchRI y < 0)%Z /\ slice64 (dr_buf T) (mt_match64 y) = Ok t).

(** Results that are the same up to the case of letters: versions have the same numbers. *)
Definition same_version (v w : version) : Prop :=
  v_major v = v_major w /\ v_minor v = v_minor w /\ v_patch v = v_patch w /\ v_revision v = v_revision w /\
  same_letters (v_suffix v) (v_suffix w).
Definition same_value (a b : res value) : Prop :=
  match a, b with
  | Ok (VN n), Ok (VN m) => n = m
  | Ok (VB s), Ok (VB t) => same_letters s t
  | Ok (VV v), Ok (VV w) => same_version v w
  | Panic, Panic => True
  | _, _ => False
  end.

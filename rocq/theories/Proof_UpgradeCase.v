(** Records of an earlier program: cases. *)
From Verif Require Import Model_Base Model_CacheEntry Model_Ctx Model_Parse Model_Compiler Model_Built Model_Cache
  Spec_Getters Spec_Honest Spec_Upgrade Proof_Base Proof_Honest.

Definition sayb (r : res value) (s : option bytes) : bool :=
  match r, s with Ok (VB x), Some y => beqs x y | Panic, None => true | _, _ => false end.
Lemma sayb_ok r s : sayb r s = true -> r = match s with Some y => Ok (VB y) | None => Panic end.
Proof. destruct r as [[| |]|], s; try discriminate; [|reflexivity]. cbn. intros H. apply beqs_eq in H as ->. reflexivity. Qed.
Definition row_left (T : tables) (ua : bytes) (gs : list getter) : option entry :=
  match run_wire (script T ClientTypeAll DeviceTypeAll (ASetUA ua :: map AGet gs) (recycle ClientTypeAll DeviceTypeAll new_ctx)) [] with
  | Some (_, stored) => option_map (fun e => with_stamp e 0 0) (last_row stored ua)
  | None => None
  end.
Definition old_row_check (T T' : tables) (ua : bytes) (g : getter) (before after : bytes) (s : option bytes) : bool :=
  match row_left T ua [g] with
  | Some row => (if holds row g then true else false) &&
      sayb (alone T ClientTypeAll DeviceTypeAll 0 ua g) (Some before) && sayb (alone T' ClientTypeAll DeviceTypeAll 0 ua g) (Some after) &&
      sayb (served T' row (fresh_ctx ClientTypeAll DeviceTypeAll 0 ua) g) s
  | None => false
  end.
Lemma row_left_by T ua gs row : row_left T ua gs = Some row -> left_by T ClientTypeAll DeviceTypeAll ua row.
Proof.
  unfold row_left. destruct (run_wire _ []) as [[rs stored]|] eqn:E; [|discriminate]. destruct (last_row stored ua) as [e|] eqn:L; [|discriminate]. apply last_row_in in L.
  cbn [option_map]. intros H. assert (row = with_stamp e 0 0) as -> by congruence. clear H. eexists [_], stored, [Ret rs]. split; [exact (wire_run _ [] rs stored [] [] E)|]. exact (A_row stored ua e 0 0 L).
Qed.
Definition old_row (T T' : tables) (ua : bytes) (g : getter) (before after : bytes) (s : res value) : Prop :=
  exists row, left_by T ClientTypeAll DeviceTypeAll ua row /\ holds row g = true /\
    alone T ClientTypeAll DeviceTypeAll 0 ua g = Ok (VB before) /\ alone T' ClientTypeAll DeviceTypeAll 0 ua g = Ok (VB after) /\
    served T' row (fresh_ctx ClientTypeAll DeviceTypeAll 0 ua) g = s.
Lemma old_row_case T T' ua g before after s : old_row_check T T' ua g before after s = true ->
  old_row T T' ua g before after (match s with Some y => Ok (VB y) | None => Panic end).
Proof.
  unfold old_row_check. destruct (row_left T ua [g]) as [row|] eqn:E; [|discriminate]. apply row_left_by in E. intros H.
  apply andb_prop in H as [H C]. apply andb_prop in H as [H B]. apply andb_prop in H as [H A]. apply sayb_ok in A, B, C.
  exists row. destruct (holds row g) eqn:Hh; [|discriminate]. auto.
Qed.

(** Property C81. *)
From Verif Require Import Model_Base Model_CacheEntry Model_Ctx Model_Parse Model_Built Data_Tiny
  Spec_Getters Spec_Honest Spec_Upgrade Spec_Damage Proof_Damage.

(** C81: given any record at all by the cache, a getter panics exactly if the position it reads is not 0 and does not
    lie inside the buffer it belongs to (for GetModel see C79). *)
Theorem C81_exact : forall T row mC mD ua g buf e, holds row g = true -> place T row ua g = Some (buf, e) ->
  (served T row (fresh_ctx mC mD 0 ua) g = Panic <-> e <> 0%N /\ ~ inside buf e).
Proof. exact exact_panic. Qed.
Print Assumptions C81_exact.

(** Getters that read no position never panic. *)
Theorem C81_fixed : forall T row mC mD ua g, holds row g = true -> place T row ua g = None -> g <> GModel ->
  served T row (fresh_ctx mC mD 0 ua) g <> Panic.
Proof. exact no_place. Qed.
Print Assumptions C81_fixed.

(** Whatever the record says, the text shown is a part of that buffer: of the tables or of the user agent. *)
Theorem C81_shown : forall T row mC mD ua g buf e s, holds row g = true -> place T row ua g = Some (buf, e) ->
  served T row (fresh_ctx mC mD 0 ua) g = Ok (VB s) ->
  s = [] \/ s = bs "UNK" \/ part s buf \/ exists t, part t buf /\ s = dotted t.
Proof. exact shown. Qed.
Print Assumptions C81_shown.

(** A serialised record with one byte changed is read without an error, and makes GetOS panic. *)
Theorem C81_crash_refuted : exists T ua row buf n buf' row',
  left_by T ClientTypeAll DeviceTypeAll ua row /\ marshal_to row (repeat x00 (size row)) = (buf, n, MNil) /\ one_off buf buf' /\
  unmarshal entry_zero buf' = Ok (row', UNil) /\ e_data row' = ua /\ holds row' GOS = true /\
  alone T ClientTypeAll DeviceTypeAll 0 ua GOS = Ok (VB (bs "Windows")) /\
  served T row' (fresh_ctx ClientTypeAll DeviceTypeAll 0 ua) GOS = Panic.
Proof.
  exists (built tiny_compiler tiny), (bs "Windows NT 10").
  exact (flip_case (built tiny_compiler tiny) (bs "Windows NT 10") GOS 59 x40 (bs "Windows") None ltac:(vm_compute; reflexivity)).
Qed.
Print Assumptions C81_crash_refuted.

(** Or makes it show another text. *)
Theorem C81_wrong_refuted : exists T ua row buf n buf' row',
  left_by T ClientTypeAll DeviceTypeAll ua row /\ marshal_to row (repeat x00 (size row)) = (buf, n, MNil) /\ one_off buf buf' /\
  unmarshal entry_zero buf' = Ok (row', UNil) /\ e_data row' = ua /\ holds row' GOS = true /\
  alone T ClientTypeAll DeviceTypeAll 0 ua GOS = Ok (VB (bs "Windows")) /\
  served T row' (fresh_ctx ClientTypeAll DeviceTypeAll 0 ua) GOS = Ok (VB (bs "Win")).
Proof.
  exists (built tiny_compiler tiny), (bs "Windows NT 10").
  exact (flip_case (built tiny_compiler tiny) (bs "Windows NT 10") GOS 59 x03 (bs "Windows") (Some (bs "Win")) ltac:(vm_compute; reflexivity)).
Qed.
Print Assumptions C81_wrong_refuted.

(** The hypotheses of the first three theorems are met by those records (and by 0 in every field but the first). *)
Definition empty_row : entry := mkEntry 14 0 0 0 0 0 0 0 0 0 0 [] 0 0.
Example C81_case : forall g, holds empty_row g = true /\ (g = GOS -> place (built tiny_compiler tiny) empty_row (bs "x") g = Some (or_buf (built tiny_compiler tiny), 0%N)).
Proof. intros g. split; [destruct g; reflexivity|]. intros ->. reflexivity. Qed.

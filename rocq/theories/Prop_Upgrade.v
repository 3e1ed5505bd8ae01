(** Property C80. *)
From Verif Require Import Model_Base Model_CacheEntry Model_Ctx Model_Parse Model_Compiler Model_Built Data_Tiny
  Spec_Getters Spec_Honest Spec_Upgrade Proof_Upgrade Proof_UpgradeCase.

(** C80: a record left in a cache by an earlier program, read by a program whose texts begin with those of the earlier
    one, gives what the earlier program would have answered (all getters but GetModel). *)
Theorem C80_continued : forall T T' mC mD ua row h g v,
  left_by T mC mD ua row -> detects T mC mD ua -> continues h T T' -> holds row g = true -> g <> GModel ->
  alone T mC mD h ua g = Ok v -> served T' row (fresh_ctx mC mD h ua) g = Ok v.
Proof. exact upgrade. Qed.
Print Assumptions C80_continued.

(** GetModel reads the record only. *)
Theorem C80_model : forall T T' mC mD ua row h, holds row GModel = true ->
  served T' row (fresh_ctx mC mD h ua) GModel = served T row (fresh_ctx mC mD h ua) GModel.
Proof. exact upgrade_model. Qed.
Print Assumptions C80_model.

(** Adding operating systems at the end of the list is such a change. *)
Theorem C80_appended : forall K D more h, continues h (built K D) (built K (with_os (db_os D ++ more) D)).
Proof. exact appended_os. Qed.
Print Assumptions C80_appended.

(** Adding one at the beginning is not: both programs know the operating system as Windows, but the record left by the
    first one makes the second one say Android. *)
Definition android : yos := mkYO (bs "Android") (bs "Android") [] [].
Theorem C80_other_refuted : exists K D y ua row,
  left_by (built K D) ClientTypeAll DeviceTypeAll ua row /\ holds row GOS = true /\
  alone (built K D) ClientTypeAll DeviceTypeAll 0 ua GOS = Ok (VB (bs "Windows")) /\
  alone (built K (with_os (y :: db_os D) D)) ClientTypeAll DeviceTypeAll 0 ua GOS = Ok (VB (bs "Windows")) /\
  served (built K (with_os (y :: db_os D) D)) row (fresh_ctx ClientTypeAll DeviceTypeAll 0 ua) GOS = Ok (VB (bs "Android")).
Proof.
  exists tiny_compiler, tiny, android, (bs "Windows NT 10").
  exact (old_row_case (built tiny_compiler tiny) (built tiny_compiler (with_os (android :: db_os tiny) tiny)) (bs "Windows NT 10") GOS (bs "Windows") (bs "Windows")
    (Some (bs "Android")) ltac:(vm_compute; reflexivity)).
Qed.
Print Assumptions C80_other_refuted.

(** Nor is renaming one: the record makes GetOS panic. *)
Definition win : yos := mkYO (bs "Win") (bs "Win") [] [].
Theorem C80_panic_refuted : exists K D l ua row,
  left_by (built K D) ClientTypeAll DeviceTypeAll ua row /\ holds row GOS = true /\
  alone (built K D) ClientTypeAll DeviceTypeAll 0 ua GOS = Ok (VB (bs "Windows")) /\
  alone (built K (with_os l D)) ClientTypeAll DeviceTypeAll 0 ua GOS = Ok (VB (bs "Win")) /\
  served (built K (with_os l D)) row (fresh_ctx ClientTypeAll DeviceTypeAll 0 ua) GOS = Panic.
Proof.
  exists tiny_compiler, tiny, [win], (bs "Windows NT 10").
  exact (old_row_case (built tiny_compiler tiny) (built tiny_compiler (with_os [win] tiny)) (bs "Windows NT 10") GOS (bs "Windows") (bs "Win")
    None ltac:(vm_compute; reflexivity)).
Qed.
Print Assumptions C80_panic_refuted.

(** The first theorem applies: here the later program alone gives another answer. *)
Example C80_case : exists row,
  left_by (built tiny_compiler tiny) ClientTypeAll DeviceTypeAll (bs "Fedora") row /\ holds row GOS = true /\
  alone (built tiny_compiler tiny) ClientTypeAll DeviceTypeAll 0 (bs "Fedora") GOS = Ok (VB (bs "UNK")) /\
  alone (built tiny_compiler (with_os (db_os tiny ++ [mkYO (bs "Fedora") (bs "Fedora") [] []]) tiny)) ClientTypeAll DeviceTypeAll 0 (bs "Fedora") GOS = Ok (VB (bs "Fedora")) /\
  served (built tiny_compiler (with_os (db_os tiny ++ [mkYO (bs "Fedora") (bs "Fedora") [] []]) tiny)) row (fresh_ctx ClientTypeAll DeviceTypeAll 0 (bs "Fedora")) GOS = Ok (VB (bs "UNK")).
Proof.
  exact (old_row_case (built tiny_compiler tiny) (built tiny_compiler (with_os (db_os tiny ++ [mkYO (bs "Fedora") (bs "Fedora") [] []]) tiny)) (bs "Fedora") GOS (bs "UNK") (bs "Fedora")
    (Some (bs "UNK")) ltac:(vm_compute; reflexivity)).
Qed.

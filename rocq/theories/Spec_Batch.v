(** What batch mode promises about the rows of a file, in terms of the answers the library gives for a user agent alone. *)
From Verif Require Import Model_Base Model_Version Model_Ctx Model_Parse Model_Cli Model_Batch Spec_Getters Spec_Single.

(** The ten questions about a row. *)
Definition asked_of_row : list getter :=
  [GClientType; GBrowser; GBrowserVersionString; GEngine; GEngineVersionString; GDeviceType; GBrand; GModel; GOS; GOSVersionString].
(** The texts [got] are the answers of [ask]. *)
Definition answered (ask : getter -> res value) (got : list bytes) : Prop :=
  Forall2 (fun g t => exists v, ask g = Ok v /\ text_of g v t) asked_of_row got.
(** All but the model are. *)
Definition answered_but_model (ask : getter -> res value) (got : list bytes) : Prop :=
  Forall2 (fun g t => g <> GModel -> exists v, ask g = Ok v /\ text_of g v t) asked_of_row got.
(** The library alone, as batch mode uses it: no filters, no header. *)
Definition library (T : tables) (ua : bytes) : getter -> res value := alone T ClientTypeAll DeviceTypeAll 0 ua.
(** The rows are about different user agents, and the cache can tell them apart. *)
Definition all_different (rows : list row) : Prop := NoDup (map (fun r => fnv1 (r_ua r)) rows).
(** After the ten getters on a context of its own the scratch buffer holds less than 4 GiB. *)
Definition small_row (T : tables) (ua : bytes) : Prop :=
  let '(_, c, _, _) := run_getters T asked_of_row (fresh_ctx ClientTypeAll DeviceTypeAll 0 ua) None [] in
  (N.of_nat (length (c_buf c)) < 4294967296)%N.

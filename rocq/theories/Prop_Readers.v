(** Property C86: one context read by several goroutines. *)
From Verif Require Import Model_Base Model_CacheEntry Model_Version Model_Ctx Model_Parse Model_Compiler Model_Built Model_Readers Data_Tiny
  Spec_Getters Spec_Again Spec_Readers Proof_Readers Proof_Settled.
Open Scope nat_scope.

(** The getters access by access do what the getters do, whatever the cache answers. *)
Theorem C86_same_getters : forall T g c c' r, ends (reading T g) c c' r <-> leaf (run_getter T g c) (c', r).
Proof. exact reading_agrees. Qed.
Print Assumptions C86_same_getters.

(** After every getter has been called once or more, in any order, with no panic and with versions Version.Parse accepts
    (and nothing cached by others), the context is settled. *)
Theorem C86_settled : forall T gs c, incl every_getter gs -> Forall went_well (snd (cold_calls T gs c)) ->
  settled_ctx (fst (cold_calls T gs c)).
Proof. exact settles. Qed.
Print Assumptions C86_settled.

(** Any number of goroutines may call the getters of a settled context at once, GetOSVersionString only if its text has no
    underscore: no data race, the context stays as it is, and everyone gets the answers they would get alone. *)
Theorem C86_readers : forall T c calls tr c' gos, settled_ctx c ->
  (forall gs, In gs calls -> In GOSVersionString gs -> plain_version T c) ->
  together T (all_start c calls) tr (c', gos) -> c' = c /\ ~ clash tr /\ Forall2 (answered_by T c) calls gos.
Proof. exact readers. Qed.
Print Assumptions C86_readers.

Definition shared_ua : bytes := bs "Foo/29.0 Beta Tab X1 Debian 9_1 WebKit/5.36 Chrome/70.2".
Example C86_case : settled_ctx (asked_all (built tiny_compiler tiny) shared_ua).
Proof. apply (settles (built tiny_compiler tiny) every_getter); [apply incl_refl|]. apply well_ok. vm_compute. reflexivity. Qed.

(** GetOSVersionString appends to the shared buffer: two goroutines asking a settled context for the OS version, which is
    9.1, race, and one of them gets 9.19.1. *)
Theorem C86_os_version_refuted : exists T ua c, c = fst (cold_calls T every_getter (new_ctx_with_src ua)) /\
  Forall went_well (snd (cold_calls T every_getter (new_ctx_with_src ua))) /\
  answer T c GOSVersionString = Ok (VB (bs "9.1")) /\
  exists tr c' gos, together T (all_start c [[GOSVersionString]; [GOSVersionString]]) tr (c', gos) /\ clash tr /\
    texts (concat (map g_got gos)) = [bs "9.19.1"; bs "9.1"].
Proof.
  exists (built tiny_compiler tiny), shared_ua, (asked_all (built tiny_compiler tiny) shared_ua). split; [reflexivity|].
  exact (os_version_case (built tiny_compiler tiny) shared_ua (repeat 0 7 ++ repeat 1 30 ++ repeat 0 30) (bs "9.1") (bs "9.19.1")
    ltac:(vm_compute; reflexivity) ltac:(vm_compute; reflexivity) ltac:(vm_compute; reflexivity)).
Qed.
Print Assumptions C86_os_version_refuted.

(** Detection alone is not enough: the first calls of GetBrowserVersion race. *)
Theorem C86_version_refuted : exists T ua gs, gs = [GClientType; GDeviceType; GOS; GBrowserVersionString] /\
  Forall went_well (snd (cold_calls T gs (new_ctx_with_src ua))) /\
  exists tr s, together T (all_start (fst (cold_calls T gs (new_ctx_with_src ua))) [[GBrowserVersion]; [GBrowserVersion]]) tr s /\ clash tr.
Proof.
  exists (built tiny_compiler tiny), shared_ua, [GClientType; GDeviceType; GOS; GBrowserVersionString]. split; [reflexivity|].
  exact (version_case (built tiny_compiler tiny) shared_ua [GClientType; GDeviceType; GOS; GBrowserVersionString] (repeat 0 20 ++ repeat 1 20)
    ltac:(vm_compute; reflexivity)).
Qed.
Print Assumptions C86_version_refuted.

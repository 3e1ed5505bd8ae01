(** C68: how often a context asks the cache. *)
From Verif Require Import Model_Base Model_CacheEntry Model_Ctx Model_Parse Model_Cache Model_Built Data_Tiny Spec_Getters Spec_Traffic
  Proof_Traffic Prop_Database.

(** After SetUserAgent, however many getters are called in whatever order, a context with a cache of its own looks up
    at most three times and stores at most three times, always under the user agent. *)
Theorem C68_three : forall T mC mD ua l o c rs tr o',
  Forall stays l ->
  serves o (script T mC mD (ASetUA ua :: l) c) tr rs o' ->
  looks tr <= 3 /\ stores tr <= 3 /\ Forall (fun x => key_of x = ua) tr.
Proof. exact three. Qed.
Print Assumptions C68_three.

(** Whatever the cache answers (also nothing, or rows of other user agents), one getter looks up and stores at most
    once, the device getters at most twice, under the user agent. *)
Theorem C68_getter : forall T c g tr x,
  talks (run_getter T g c) tr x ->
  looks tr <= detections g /\ stores tr <= detections g /\ Forall (fun y => key_of y = get_user_agent c) tr.
Proof. exact budget. Qed.
Print Assumptions C68_getter.

(** After a getter, another one about the same thing does not use the cache. *)
Theorem C68_again : forall T c g g' tr c' r tr' x,
  structured g = false -> group_of g = group_of g' ->
  talks (run_getter T g c) tr (c', r) -> talks (run_getter T g' c') tr' x -> tr' = [].
Proof. exact again. Qed.
Print Assumptions C68_again.

(** With a cache used by another context for the same user agent, the first bound is false: the row the other context
    stores knows fewer kinds than this context, and reading it makes this context forget. *)
Theorem C68_shared_refuted : exists plan,
  length plan = 5 /\
  3 < looks (of_first (turns (built tiny_compiler tiny) plan
        (set_user_agent sample_ua new_ctx) (set_user_agent sample_ua new_ctx) None)).
Proof. exact (shared_case (built tiny_compiler tiny) sample_ua ltac:(vm_compute; reflexivity)). Qed.
Print Assumptions C68_shared_refuted.

(** Four getters, three looks and three stores: the bounds are reached. *)
Example C68_case :
  let T := built tiny_compiler tiny in
  let l := [AGet GClientType; AGet GOS; AGet GDeviceType; AGet GBrand] in
  Forall stays l /\
  exists rs tr o', serves None (script T ClientTypeAll DeviceTypeAll (ASetUA sample_ua :: l) new_ctx) tr rs o' /\ looks tr = 3 /\ stores tr = 3.
Proof. exact (three_case (built tiny_compiler tiny) sample_ua ltac:(vm_compute; reflexivity)). Qed.

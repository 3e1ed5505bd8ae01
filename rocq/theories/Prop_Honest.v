(** Property C60. *)
From Verif Require Import Model_Base Model_CacheEntry Model_Ctx Model_Parse Model_Cache Model_Shipped Spec_Getters Spec_Honest Proof_Honest.

(** C60: with any cache that answers only with rows stored before under the same user agent (evicting, lagging,
    serialising, replaced at any moment), every getter but GetModel returns what it returns without a cache, in every
    interleaving of any number of goroutines. *)
Theorem C60_any_cache : forall T mC mD scripts w, honest_run (begin T mC mD scripts) w ->
  forall i l rs, nth_error scripts i = Some l -> nth_error (snd w) i = Some (Ret rs) ->
  Forall2 (fun x r => detects T mC mD (fst (fst x)) -> snd x <> GModel -> as_alone T mC mD x r) (calls l [] 0) rs.
Proof. exact honest. Qed.
Print Assumptions C60_any_cache.

(** Two contexts one after the other, the second served from a serialised row (one row is stored, two results). *)
Definition twice : list act := [ASetUA (bs "NuttX/10.1"); AGet GOSVersionString; ARecycle; ASetUA (bs "NuttX/10.1"); AGet GOSVersionString].
Example C60_case : exists stored rs,
  honest_run (begin shipped ClientTypeAll DeviceTypeAll [twice]) (stored, [Ret rs]) /\ length stored = 1 /\ rs <> [] /\ (forall r, In r rs -> r = Ok (VB (bs "10.1"))).
Proof. exact (wire_case shipped twice (bs "10.1") 1 ltac:(vm_compute; reflexivity)). Qed.

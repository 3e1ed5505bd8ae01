(** Property C18: user agents with the same hash. *)
From Verif Require Import Model_Base Model_CacheEntry Model_Version Model_Ctx Model_Parse Model_Cache Model_Shipped
  Spec_Getters Spec_Collide Proof_Collide.

(** C18 is false: two user agents with the same hash share a row of the cache, so a context reports the operating
    system of the other user agent. *)
Theorem C18_collision_refuted : exists u1 u2 s1 s2,
  u1 <> u2 /\ s1 <> s2 /\
  alone shipped 63 1023 0 u1 GOS = Ok (VB s1) /\ alone shipped 63 1023 0 u2 GOS = Ok (VB s2) /\
  exists cf r,
    conc_run (start shipped 63 1023 [[ASetUA u1; AGet GOS; ARecycle; ASetUA u2; AGet GOS]]) cf /\
    cf_threads cf = [Ret [r; Ok (VB s1)]].
Proof. exact shipped_collide. Qed.
Print Assumptions C18_collision_refuted.

(** What holds: goroutines whose user agents differ from each other in at most four adjacent bytes only never see
    each other's rows. *)
Theorem C18_near_isolated : forall T mC mD scripts cf,
  conc_run (start T mC mD scripts) cf ->
  (forall a b, In a (concat (map (fun l => asked l []) scripts)) ->
               In b (concat (map (fun l => asked l []) scripts)) -> near a b) ->
  forall i l rs, nth_error scripts i = Some l -> nth_error (cf_threads cf) i = Some (Ret rs) ->
  Forall2 (fun x r => detects T mC mD (fst (fst x)) -> snd x <> GModel -> as_alone T mC mD x r) (calls l [] 0) rs.
Proof. exact near_isolated. Qed.
Print Assumptions C18_near_isolated.

(** A common suffix neither creates nor removes a collision; every collision yields infinitely many. *)
Theorem C18_common_suffix : forall s uas, collision_free (map (fun a => a ++ s) uas) <-> collision_free uas.
Proof. exact suffix_free. Qed.
Print Assumptions C18_common_suffix.

(** [versions]: two goroutines asking about "Chrome/101.0" and "Chrome/99.00". *)
Example C18_case :
  (forall a b, In a (concat (map (fun l => asked l []) versions)) ->
               In b (concat (map (fun l => asked l []) versions)) -> near a b) /\
  bs "Chrome/101.0" <> bs "Chrome/99.00" /\ ~ collision_free [bs "NuttX/10.1"; other_row].
Proof. exact versions_near. Qed.

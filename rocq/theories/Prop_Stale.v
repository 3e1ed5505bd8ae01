(** Property C79. *)
From Verif Require Import Model_Base Model_CacheEntry Model_Ctx Model_Parse Model_Memory Model_Stale Model_Shipped Spec_Getters Spec_Select Spec_Memory Spec_Honest Spec_Stale
  Proof_Stale Proof_StaleShipped.

(** C79: what GetModel shows is the named part of the working buffer continued by what is left in its array; when the part lies
    within the buffer nothing of the rest is shown. *)
Theorem C79_model : forall T uas c m, life T uas c m ->
  (c_model c = 0%N -> model_in m c = Ok []) /\
  (c_model c <> 0%N -> model_in m c = match slice64 (c_buf c ++ left_over m) (c_model c) with Ok raw => Ok (trim raw x20) | Panic => Panic end) /\
  (forall s, snd (read_model c) = Ok s -> model_in m c = Ok s).
Proof. exact reads. Qed.
Print Assumptions C79_model.

(** Nothing is left to be seen when the context analyses the user agent itself. *)
Theorem C79_cold : forall T uas c m c1 s m', life T uas c m -> run_cold (run_getter T GModel c) = (c1, Ok (VB s)) -> grows m m' -> represents m' c1 ->
  model_in m' c1 = Ok s.
Proof. exact cold_model. Qed.
Print Assumptions C79_cold.

(** Refuted: a context from the pool, asked for the model of a user agent that is in the cache, shows a part of the user agent
    it was used for before. *)
Theorem C79_leak_refuted : exists ua1 ua2 shown rest c m, life shipped [ua2; ua1] c m /\ c_src c = ua2 /\ ua1 = ua2 ++ shown ++ rest /\ length shown = 9 /\
  model_in m c = Ok (ua2 ++ shown).
Proof. exact (leak_case shipped (bs "EK-GC120") (bs ";token=47") (bs "11;") 9 ltac:(vm_cast_no_check (eq_refl true))). Qed.
Print Assumptions C79_leak_refuted.

(** The other getters read inside the buffers, with any honest cache. *)
Theorem C79_others : forall mC mD scripts w, honest_run (begin shipped mC mD scripts) w ->
  forall i l rs, nth_error scripts i = Some l -> nth_error (snd w) i = Some (Ret rs) ->
  Forall2 (fun x r => short (fst (fst x)) -> detects shipped mC mD (fst (fst x)) -> snd x <> GModel -> r <> Panic) (calls l [] 0) rs.
Proof. exact others_fine. Qed.
Print Assumptions C79_others.

Example C79_case : exists c m, life shipped [bs "ab"] c m /\ c_src c = bs "ab".
Proof.
  exists (set_user_agent (bs "ab") new_ctx), (mkMem [[]; []; bs "ab"] (mkSl 2 2) (mkSl 1 0)). split; [|reflexivity].
  exact (L_user_agent shipped [] new_ctx _ (bs "ab") _ (L_new shipped) (MS_set_ua (bs "ab") [[]; []] (mkSl 0 0) (mkSl 1 0) [[]; []; bs "ab"] (mkSl 2 2)
    (GA_new [[]; []] (mkSl 0 0) (bs "ab") [] (le_n_S 0 1 (Nat.le_0_l 1))))).
Qed.

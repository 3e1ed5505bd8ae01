(** The life of one context and its memory. *)
From Verif Require Import Model_Base Model_CacheEntry Model_Ctx Model_Parse Model_Memory Spec_Getters Spec_Memory.

(** [row] is what some context stores for [ua]. *)
Definition stored_for (T : tables) (ua : bytes) (row : entry) : Prop :=
  exists mC mD h g x ev, run_priv (run_getter T g (fresh_ctx mC mD h ua)) None [] = (x, Some row, ev).

(** [life T uas c m]: a context may be in state [c] with memory [m] after it was given the user agents [uas] (the last one
    first).  Getters find nothing in the cache and append to the buffer, or find a record another context stored for
    the same user agent and fill the buffer with its data.  Release, and Acquire of the same context, reset it. *)
Inductive life (T : tables) : list bytes -> ctx -> mem -> Prop :=
| L_new : life T [] new_ctx (mkMem [[]; []] (mkSl 0 0) (mkSl 1 0))
| L_user_agent uas c m ua m' : life T uas c m -> mset_ua ua m m' -> life T (ua :: uas) (set_user_agent ua c) m'
| L_header uas c m h : life T uas c m -> life T uas (set_requested_with h c) m
| L_filters uas c m mC mD : life T uas c m -> life T uas (filter_device_type mD (filter_client_type mC c)) m
| L_recycle uas c m : life T uas c m -> life T uas (ctx_reset c) (mreset m)
| L_cold uas c m g m' : life T uas c m -> grows m m' -> represents m' (fst (run_cold (run_getter T g c))) ->
    life T uas (fst (run_cold (run_getter T g c))) m'
| L_hit uas c m g key k row c' r m' : life T uas c m -> run_getter T g c = CGet key k -> stored_for T key row ->
    k (Some row) = Ret (c', r) -> c_buf c' = e_data row -> mcached (e_data row) m m' -> life T uas c' m'.

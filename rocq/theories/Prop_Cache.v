(** Properties C13-C17: the built-in cache. *)
From Verif Require Import Model_Base Model_CacheEntry Model_Cache Spec_Cache Proof_Cache Proof_Base.

Definition ent (n : N) : entry := mkEntry n 0 0 0 0 0 0 0 0 0 0 [] 0 0.

(** C13: Get returns what the last Set stored, in every history without re-used rows. *)
Theorem C13_get_returns_last_set :
  (forall pre k e now h now' st, fresh_history pre -> Kept (fnv1 k) now h ->
     crun cs_empty (pre ++ OSet k e now :: h) = Ok st ->
     exists p, snd (cache_get st k now') = Some p /\ same_contents (cs_heap (fst (cache_get st k now')) p) e) /\
  (forall pre k e now h, fresh_history pre -> Kept (fnv1 k) now h ->
     exists st, crun cs_empty (pre ++ OSet k e now :: h) = Ok st) /\
  (forall h st k now, fresh_history h -> never_set (fnv1 k) h -> crun cs_empty h = Ok st ->
     snd (cache_get st k now) = None).
Proof.
  exact (conj (fun pre k e now h now' st F K R => get_after_set pre k e now h now' st _ F K R eq_refl)
        (conj run_after_set never_set_not_found)).
Qed.
Print Assumptions C13_get_returns_last_set.

Definition c13_history : list cop :=
  [OSet (bs "b") (ent 2) 7%Z; OGet (bs "a") 3600000000005%Z; OClean 3600000000100%Z; OClean 7200000000000%Z].
Example C13_case : Kept (fnv1 (bs "a")) 5%Z c13_history.
Proof.
  unfold c13_history. apply Kept_set; [vm_compute; congruence|].
  apply Kept_get_same; [reflexivity|].
  apply Kept_clean; [vm_compute; congruence|].
  apply Kept_clean; [vm_compute; congruence|]. apply Kept_nil.
Qed.

(** C14: a cleaning pass removes only rows idle for more than the TTL and changes nothing else. *)
Theorem C14_clean_evicts_only_idle : forall h st now hk, fresh_history h -> crun cs_empty h = Ok st ->
  match lookup st hk with
  | Some e => lookup (cache_clean st now) hk = Some e \/
              (lookup (cache_clean st now) hk = None /\ idle_too_long now (e_timestamp e))
  | None => lookup (cache_clean st now) hk = None
  end.
Proof. intros h st now hk F R. exact (proj1 (proj2 (clean_spec st now (run_reach h st R F))) hk). Qed.
Print Assumptions C14_clean_evicts_only_idle.

Definition two_rows : list cop := [OSet (bs "a") (ent 1) 0%Z; OSet (bs "b") (ent 2) 0%Z].

Example C14_case : exists st, crun cs_empty (two_rows ++ [OGet (bs "b") 10%Z]) = Ok st /\
  lookup (cache_clean st 3600000000005%Z) (fnv1 (bs "a")) = None /\
  lookup (cache_clean st 3600000000005%Z) (fnv1 (bs "b")) <> None.
Proof. apply exists_ok. vm_compute. split; congruence. Qed.

(** C15 is false: one pass can leave an idle row behind ... *)
Theorem C15_clean_complete_refuted : exists h st now hk e, fresh_history h /\ crun cs_empty h = Ok st /\
  lookup (cache_clean st now) hk = Some e /\ idle_too_long now (e_timestamp e).
Proof.
  assert (H : exists st, crun cs_empty two_rows = Ok st /\
    lookup (cache_clean st 3600000000001%Z) (fnv1 (bs "b")) = Some (with_stamp (ent 2) (fnv1 (bs "b")) 0)).
  { apply exists_ok. vm_compute. reflexivity. }
  destruct H as (st & R & L).
  exists two_rows, st, 3600000000001%Z, (fnv1 (bs "b")), (with_stamp (ent 2) (fnv1 (bs "b")) 0).
  split; [repeat constructor|]. split; [exact R|]. split; [exact L|]. vm_compute. reflexivity.
Qed.
Print Assumptions C15_clean_complete_refuted.

(** ... but each pass removes at least half of the idle rows, so a logarithmic number of passes removes all. *)
Theorem C15_clean_halves : forall h st now, fresh_history h -> crun cs_empty h = Ok st ->
  2 * n_expired (cache_clean st now) now <= n_expired st now /\
  forall n, n_expired st now < 2 ^ n -> n_expired (cleans n st now) now = 0.
Proof.
  intros h st now F R. exact (conj (clean_halves h st now F R) (fun n => cleans_all n st now (run_reach h st R F))).
Qed.
Print Assumptions C15_clean_halves.

Example C15_case : exists st, crun cs_empty two_rows = Ok st /\ n_expired st 3600000000001%Z = 2 /\
  n_expired (cleans 1 st 3600000000001%Z) 3600000000001%Z = 1 /\ n_expired (cleans 2 st 3600000000001%Z) 3600000000001%Z = 0.
Proof. apply exists_ok. vm_compute. repeat split. Qed.

(** C16: no panic, and the rows are in bijection with the keys present. *)
Theorem C16_no_panic_one_row_per_key : forall h, fresh_history h ->
  exists st, crun cs_empty h = Ok st /\
    NoDup (map (fun p => e_hkey (cs_heap st p)) (cs_buf st)) /\
    (forall hk, In hk (map (fun p => e_hkey (cs_heap st p)) (cs_buf st)) <-> lookup st hk <> None) /\
    (forall hk e, lookup st hk = Some e -> e_hkey e = hk).
Proof. exact fresh_run_rows. Qed.
Print Assumptions C16_no_panic_one_row_per_key.

Example C16_case : exists st, crun cs_empty (two_rows ++ [OSet (bs "a") (ent 3) 1%Z]) = Ok st /\ length (cs_buf st) = 2.
Proof. apply exists_ok. vm_compute. reflexivity. Qed.

(** C17 is false: a row stored under two keys corrupts the index and a later Set panics. *)
Theorem C17_shared_row_refuted : exists h, crun cs_empty h = Panic /\
  (exists p, forall o, In o h -> match o with OSetPtr _ q _ => q = p | _ => True end) /\
  exists st, crun cs_empty (map (fun o => match o with OSetPtr k p now => OSet k (ent 1) now | _ => o end) h) = Ok st.
Proof.
  exists [OSet (bs "a") (ent 1) 0%Z; OSetPtr (bs "b") 0 0%Z; OClean 3600000000001%Z; OClean 3600000000001%Z;
          OSet (bs "a") (ent 2) 3600000000002%Z].
  split; [vm_compute; reflexivity|]. split.
  - exists 0. intros o H. cbn in H. repeat destruct H as [<-|H]; try exact I; [reflexivity|destruct H].
  - match goal with |- exists st, ?r = Ok st =>
      assert (H : exists st, r = Ok st /\ True) by (apply exists_ok; vm_compute; exact I) end.
    destruct H as (st & E & _). exists st. exact E.
Qed.
Print Assumptions C17_shared_row_refuted.

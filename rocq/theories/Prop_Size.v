(** Property C83: how many rows the built-in cache holds. *)
From Verif Require Import Model_Base Model_CacheEntry Model_Cache Spec_Cache Spec_Size Proof_Size Proof_Base.
From Coq Require Import Lia ZifyBool.

(** At no moment are there more than 122 times as many rows as calls in the busiest half minute: a prefix of a history
    that meets the hypotheses meets them too. *)
Theorem C83_size : forall n start h st, (0 <= start)%Z -> fresh_history h -> regular start start h -> at_most n h ->
  crun cs_empty h = Ok st -> length (cs_buf st) <= 122 * n.
Proof. exact bounded. Qed.
Print Assumptions C83_size.

Definition minute_apart : list cop :=
  [OSet (bs "a") entry_zero 5%Z; OClean 30000000000%Z; OClean 60000000000%Z; OSet (bs "b") entry_zero 60000000000%Z;
   OGet (bs "b") 60000000007%Z].
Example C83_size_case : fresh_history minute_apart /\ regular 0 0 minute_apart /\ at_most 2 minute_apart /\
  exists st, crun cs_empty minute_apart = Ok st /\ length (cs_buf st) = 2.
Proof.
  split; [repeat constructor|]. split; [|split].
  - unfold minute_apart.
    apply Regular_use; [reflexivity|cbn; lia|cbn; unfold half_minute; lia|cbn; lia|].
    apply Regular_pass; [cbn; lia|cbn; unfold half_minute; lia|cbn; lia|].
    apply Regular_pass; [cbn; lia|cbn; unfold half_minute; lia|cbn; lia|].
    apply Regular_use; [reflexivity|cbn; lia|cbn; unfold half_minute; lia|cbn; lia|].
    apply Regular_use; [reflexivity|cbn; lia|cbn; unfold half_minute; lia|cbn; lia|].
    apply Regular_end.
  - intros a. unfold uses, minute_apart, half_minute. cbn [filter is_use moment andb].
    destruct (a <=? 5)%Z eqn:E1; [|cbn [andb]].
    + replace (60000000000 <=? a + 30 * 1000 * 1000 * 1000)%Z with false by lia.
      replace (60000000007 <=? a + 30 * 1000 * 1000 * 1000)%Z with false by lia.
      rewrite !andb_false_r. destruct (true && _); cbn; lia.
    + destruct (_ && _), (_ && _); cbn; lia.
  - apply exists_ok. vm_compute. reflexivity.
Qed.

(** When the calls end, the cache is empty after as many passes, an hour later, as its size has binary digits. *)
Theorem C83_drains : forall h ts st, fresh_history h -> crun cs_empty h = Ok st ->
  (forall t o, In t ts -> In o h -> is_use o = true -> idle_too_long t (moment o)) ->
  length (cs_buf st) < 2 ^ length ts ->
  exists st', crun cs_empty (h ++ map OClean ts) = Ok st' /\ cs_buf st' = [].
Proof. exact drained. Qed.
Print Assumptions C83_drains.

Example C83_drains_case : exists st, crun cs_empty minute_apart = Ok st /\ length (cs_buf st) < 2 ^ 2 /\
  forall t o, In t [3670000000000%Z; 3700000000000%Z] -> In o minute_apart -> is_use o = true ->
  idle_too_long t (moment o).
Proof.
  apply exists_ok. split; [vm_compute; repeat constructor|].
  intros t o [<-|[<-|[]]] [<-|[<-|[<-|[<-|[<-|[]]]]]] U; try discriminate U; vm_compute; reflexivity.
Qed.

(** The traffic is the only bound: within the hour every hash that was set has its row. *)
Theorem C83_keeps_all : forall h st, fresh_history h -> within_the_hour h -> crun cs_empty h = Ok st ->
  length (cs_buf st) = length (nodup N.eq_dec (set_hashes h)).
Proof. exact kept_all. Qed.
Print Assumptions C83_keeps_all.

Example C83_keeps_all_case : within_the_hour minute_apart /\
  length (nodup N.eq_dec (set_hashes minute_apart)) = 2.
Proof.
  split; [|vm_compute; reflexivity].
  intros h1 t h2 o E Ho U X. unfold idle_too_long, hour in X.
  unfold minute_apart in E.
  destruct h1 as [|o1 [|o2 [|o3 [|o4 [|o5 h1]]]]]; cbn in E; try discriminate E; try (destruct Ho; fail).
  - injection E as <- <- _. destruct Ho as [<-|[]]. vm_compute in X. discriminate X.
  - injection E as <- <- <- _. destruct Ho as [<-|[<-|[]]]; [vm_compute in X; discriminate X|discriminate U].
  - injection E as _ _ _ _ _ E. destruct h1; discriminate E.
Qed.

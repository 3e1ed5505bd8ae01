(** Property C17, what is true of it: rows stored several times under their own key. *)
From Verif Require Import Model_Base Model_CacheEntry Model_Cache Spec_Cache Spec_OneKey Proof_OneKey.

(** C17: as long as a row is stored again only under its own key, sharing it is as safe as storing copies: there is no
    panic, and every key finds the same row, stamp included, as in the history with copies. *)
Theorem C17_one_key : forall h, one_key [] h -> exists st st',
  crun cs_empty h = Ok st /\ fresh_history (copies [] h) /\ crun cs_empty (copies [] h) = Ok st' /\
  forall hk, lookup st hk = lookup st' hk.
Proof. exact shared_safe. Qed.
Print Assumptions C17_one_key.
(** A row removed after an hour and stored again, while another row of its key is in between. *)
Definition stored_again : list cop :=
  let e n := mkEntry n 0 0 0 0 0 0 0 0 0 0 [] 0 0 in
  [OSet (bs "a") (e 1%N) 0; OSet (bs "b") (e 2%N) 5; OSetPtr (bs "a") 0%nat 7; OClean 3600000000006; OGet (bs "a") 3600000000008; OSet (bs "a") (e 3%N) 3600000000009;
   OSetPtr (bs "a") 0%nat 3600000000010; OSetPtr (bs "b") 1%nat 3600000000011]%Z.
Example C17_one_key_case : one_key [] stored_again /\ exists st, crun cs_empty stored_again = Ok st /\
  option_map e_bits (lookup st (fnv1 (bs "a"))) = Some 1%N /\ option_map e_bits (lookup st (fnv1 (bs "b"))) = Some 2%N.
Proof.
  split; [cbn; repeat split; eexists; eexists; split; reflexivity|].
  match goal with |- exists st, ?r = Ok st /\ _ => destruct r as [st|] eqn:E; [|vm_compute in E; discriminate E] end.
  exists st. split; [reflexivity|]. revert E. vm_compute. intros H. injection H as <-. split; reflexivity.
Qed.

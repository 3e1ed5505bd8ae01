(** Small databases that panic. *)
From Verif Require Import Model_Base Model_CacheEntry Model_Version Model_Ctx Model_Regex Model_Parse Model_Compiler Model_Shipped Model_Built
  Data_Tiny Data_TinyBroken
  Spec_Version Spec_Getters Spec_Select Spec_Panic Spec_Compiler Spec_Database Spec_DbPanic
  Proof_Base Proof_Select Proof_Device Proof_DbDevice Proof_DbTiny Proof_DbPanic.
From Coq Require Import Permutation Lia ZifyBool ZifyNat ZifyN.
Open Scope nat_scope.

Lemma plain_bracket : In x5b (bs "?:.+*\|^;()[]{}$").
Proof. vm_compute. tauto. Qed.
Lemma broken_clients : client_files tiny_broken /\ Forall (Forall client_proper) (db_client tiny_broken) /\ built_small (built tiny_compiler tiny_broken).
Proof.
  split; [split; [reflexivity|repeat (constructor; [discriminate|]); constructor]|]. split; [|repeat split; vm_compute; reflexivity].
  repeat (constructor; [repeat (constructor; [apply client_properb_ok; [reflexivity|vm_compute; auto]|]); constructor|]). constructor.
Qed.
Lemma nameless_systems : Forall os_proper (db_os tiny_nameless) /\ built_small (built tiny_compiler tiny_nameless).
Proof.
  split; [|repeat split; vm_compute; reflexivity].
  repeat (constructor; [split; [apply proper_refb_ok; reflexivity|split; [apply proper_refb_ok; reflexivity|]]; cbn [yo_versions];
    repeat (constructor; [apply proper_refb_ok; reflexivity|]); constructor|]). constructor.
Qed.
Lemma dollar_panics : exists K D mC mD h ua, device_files D /\ Forall (Forall brand_proper) (db_device D) /\ db_os D <> [] /\
  Forall os_proper (db_os D) /\ built_small (built K D) /\ short ua /\ ~ db_no_device K D mD ua /\
  alone (built K D) mC mD h ua GModel = Panic.
Proof.
  exists tiny_compiler, tiny_dollar, 63%N, 1023%N, 0%N, (bs "EOS").
  assert (BP : Forall (Forall brand_proper) (db_device tiny_dollar)).
  { repeat (constructor; [repeat (constructor; [split; [discriminate|split; [cbn; lia|repeat (constructor; [cbn; lia|]); constructor]]|]); constructor|]). constructor. }
  split; [split; [reflexivity|repeat (constructor; [discriminate|]); constructor]|]. split; [exact BP|].
  split; [discriminate|]. split; [exact tiny_systems|]. split; [repeat split; vm_compute; reflexivity|]. split; [reflexivity|]. split; [|vm_compute; reflexivity].
  intros N. apply Forall_inv in N. destruct (N ltac:(discriminate)) as (l & (f & Nf & Pl & _) & No). cbn in Nf. injection Nf as <-.
  eapply No; [eapply Permutation_in; [exact Pl|left; reflexivity]|].
  assert (Np : ~ plain (bs "EO[S]")).
  { intros H. apply (H x5b); [right; right; left; reflexivity|]. apply plain_bracket. }
  right. exists [0; 3]%Z. split; [exact Np|]. exists (bs "EO[S]"). split; [reflexivity|].
  exists (compile (any_case (bs "EO[S]"))). split; [|vm_compute; reflexivity].
  split; [exact Np|]. exists (bs "EO[S]"). repeat split.
Qed.

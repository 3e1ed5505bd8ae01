(** The shipped database: witnesses for the devices. *)
From Verif Require Import Model_Base Model_Blob Model_Ctx Model_Regex Model_Shipped Spec_Select Spec_Dead Data_Witness
  Proof_Select Proof_Dead Proof_Shadow Proof_Index Proof_Entries.
Open Scope nat_scope.

Definition device_agents : list (list blob) :=
  [device_agents0; device_agents1; device_agents2; device_agents3; device_agents4; device_agents5; device_agents6; device_agents7].
Lemma device_ws : each_alive (alive_index _ dt_matchRI dt_match64 (numbered (dr_re shipped)) (numbered (dr_buf shipped)) (mkIndex Leaf [])) (dr_idx shipped) device_agents = true.
Proof. vm_cast_no_check (eq_refl true). Qed.

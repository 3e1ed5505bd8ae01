(** Property C72: filters that are narrowed, and filters put together. *)
From Verif Require Import Model_Base Model_CacheEntry Model_Ctx Model_Parse Model_Built Data_Tiny Spec_Getters Spec_Select Spec_Narrow
  Proof_Choice Proof_Reports Proof_Narrow.

(** C72, client: a narrower filter that still has the type reported (or any narrower filter, when nothing was reported)
    gives the same answer to every question. *)
Theorem C72_client : forall T mC mC' mD h ua t,
  within mC' mC -> alone T mC mD h ua GClientType = Ok (VN t) -> t = 0%N \/ on mC' t ->
  forall g, alone T mC' mD h ua g = alone T mC mD h ua g.
Proof. exact narrow_client. Qed.
Print Assumptions C72_client.
(** ... so filters put together answer like one of them. *)
Theorem C72_client_union : forall T mD h ua ms, ms <> [] -> alone T (together ms) mD h ua GClientType <> Panic ->
  exists m, In m ms /\ forall g, alone T (together ms) mD h ua g = alone T m mD h ua g.
Proof. exact narrow_many. Qed.
Print Assumptions C72_client_union.

Definition narrow_ua : bytes := bs "Foo/29.0 Beta Tab X1 Debian 9_1 WebKit/5.36 Chrome/70.2".
Example C72_client_case : within 3 63 /\ alone (built tiny_compiler tiny) 63 1023 0 narrow_ua GClientType = Ok (VN 1) /\ on 3 1 /\
  together [3; 8]%N = 11%N /\ alone (built tiny_compiler tiny) (together [3; 8]%N) 1023 0 narrow_ua GClientType <> Panic.
Proof.
  split; [|split; [vm_compute; reflexivity|split; [discriminate|split; [reflexivity|vm_compute; discriminate]]]].
  intros t H O. cbn in H. repeat (destruct H as [<-|H]; [vm_compute; discriminate|]). destruct H.
Qed.

(** C72, device: false when read by the type reported ... *)
Theorem C72_device_refuted : exists T mC m m' ua t,
  within_devices m' m /\ alone T mC m 0 ua GDeviceType = Ok (VN t) /\ t <> 0%N /\ on m' t /\ on m t /\
  alone T mC m' 0 ua GDeviceType = Ok (VN 0).
Proof.
  exists (built tiny_compiler tiny), 63%N, 1023%N, 8%N, narrow_ua, 8%N.
  split; [intros t H O; cbn in H; repeat (destruct H as [<-|H]; [vm_compute; discriminate|]); destruct H|].
  repeat split; try (vm_compute; reflexivity); vm_compute; discriminate.
Qed.
Print Assumptions C72_device_refuted.
(** ... because the bits of tablets and phablets (and every bit beyond the ten) decide nothing at all. *)
Theorem C72_device_bits : forall T mC m m' h ua, (forall t, In t device_bits -> (on m' t <-> on m t)) ->
  forall g, alone T mC m' h ua g = alone T mC m h ua g.
Proof. exact same_bits. Qed.
Print Assumptions C72_device_bits.
(** True when read by the class of the entry found ... *)
Theorem C72_device : forall T mC m m' h ua b idx def x,
  within_devices m' m -> alone T mC m h ua GDeviceType <> Panic -> device_is T m ua b idx def x -> on m' b ->
  forall g, alone T mC m' h ua g = alone T mC m h ua g.
Proof. exact narrow_class. Qed.
Print Assumptions C72_device.
(** ... or without an entry, if the notebooks stay in. *)
Theorem C72_no_device : forall T mC m m' h ua,
  within_devices m' m -> alone T mC m h ua GDeviceType <> Panic -> no_device T m ua -> (on m 1 -> on m' 1) ->
  forall g, alone T mC m' h ua g = alone T mC m h ua g.
Proof. exact narrow_nothing. Qed.
Print Assumptions C72_no_device.
Theorem C72_device_union : forall T mC h ua ms, ms <> [] -> alone T mC (together ms) h ua GDeviceType <> Panic ->
  exists m, In m ms /\ forall g, alone T mC (together ms) h ua g = alone T mC m h ua g.
Proof. exact narrow_device_many. Qed.
Print Assumptions C72_device_union.
Example C72_device_case : within_devices 3 1023 /\ on 3 2 /\
  (exists x, device_is (built tiny_compiler tiny) 1023 narrow_ua 2 3 2 x) /\
  no_device (built tiny_compiler tiny) 1023 (bs "Ubuntu") /\
  alone (built tiny_compiler tiny) 63 1023 0 narrow_ua GDeviceType = Ok (VN 8) /\
  alone (built tiny_compiler tiny) 63 2 0 narrow_ua GDeviceType = Ok (VN 8) /\
  alone (built tiny_compiler tiny) 63 3 0 narrow_ua GModel = Ok (VB (bs "Tab X1")) /\
  alone (built tiny_compiler tiny) 63 12 0 narrow_ua GModel = Ok (VB []) /\
  alone (built tiny_compiler tiny) 63 1023 0 (bs "Ubuntu") GDeviceType = Ok (VN 1).
Proof.
  split; [intros t H O; cbn in H; repeat (destruct H as [<-|H]; [vm_compute; discriminate|]); destruct H|].
  split; [vm_compute; discriminate|].
  split; [apply (class_case (built tiny_compiler tiny) 1023 narrow_ua (firstn 6 device_order) 2 3 2 [(1%N, 4%nat, 1%N)]);
          [reflexivity|vm_compute; reflexivity|vm_compute; reflexivity|vm_compute; discriminate]|].
  split; [apply (quiet_all (built tiny_compiler tiny) 1023 (bs "Ubuntu") device_order); vm_compute; reflexivity|].
  repeat split; vm_compute; reflexivity.
Qed.

(** Property C74: which databases an answer depends on. *)
From Verif Require Import Model_Base Model_Ctx Model_Parse Model_Compiler Model_Built Data_Tiny Spec_Getters Proof_Choice Spec_Depends Proof_Depends.

(** C74, client: programs whose client and hint databases agree give the same answers about the client. *)
Theorem C74_client : forall K D D' mC mD h ua g, same_clients D D' -> client_question g ->
  alone (built K D) mC mD h ua g = alone (built K D') mC mD h ua g.
Proof. exact client_depends. Qed.
Print Assumptions C74_client.
(** C74, operating system. *)
Theorem C74_os : forall K D D' mC mD h ua g, same_os D D' -> os_question g ->
  alone (built K D) mC mD h ua g = alone (built K D') mC mD h ua g.
Proof. exact os_depends. Qed.
Print Assumptions C74_os.
(** C74, device: needs the operating systems too ... *)
Theorem C74_device : forall K D D' mC mD h ua g, same_devices D D' -> same_os D D' -> device_question g ->
  alone (built K D) mC mD h ua g = alone (built K D') mC mD h ua g.
Proof. exact device_depends. Qed.
Print Assumptions C74_device.
(** ... but not for brand and model, unless detection panics in one of the two programs. *)
Theorem C74_brand_model : forall K D D' mC mD h ua g, same_devices D D' -> In g [GBrand; GModel] ->
  alone (built K D) mC mD h ua GDeviceType <> Panic -> alone (built K D') mC mD h ua GDeviceType <> Panic ->
  alone (built K D) mC mD h ua g = alone (built K D') mC mD h ua g.
Proof. exact maker_depends. Qed.
Print Assumptions C74_brand_model.

(** The small database with another operating system, and with nothing but that and the devices. *)
Definition other_os : list yos := [mkYO (bs "Haiku") (bs "Haiku/") [] []].
Definition another_os : database := mkDatabase (db_client tiny) other_os (db_device tiny) (db_vendor tiny) (db_hint tiny).
Definition devices_only : database := mkDatabase [[]; []; []; []; []; []; []] other_os (db_device tiny) (db_vendor tiny) [[]; []].
Definition depends_ua : bytes := bs "Foo/29.0 Beta Tab X1 Debian 9_1 WebKit/5.36 Chrome/70.2".
(** C74, device type: false without the operating systems. *)
Theorem C74_type_refuted : exists K D D' ua t, same_clients D D' /\ same_devices D D' /\
  alone (built K D) 63 1023 0 ua GDeviceType = Ok (VN t) /\ t <> 0%N /\ alone (built K D') 63 1023 0 ua GDeviceType = Ok (VN 0).
Proof.
  exists tiny_compiler, tiny, another_os, (bs "Windows NT 10"), 1%N.
  split; [split; reflexivity|]. split; [split; reflexivity|].
  split; [vm_compute; reflexivity|]. split; [discriminate|vm_compute; reflexivity].
Qed.
Print Assumptions C74_type_refuted.

Example C74_client_case : same_clients tiny another_os /\ tiny <> another_os /\
  alone (built tiny_compiler another_os) 63 1023 0 depends_ua GBrowser = Ok (VB (bs "Foo")).
Proof. split; [split; reflexivity|]. split; [discriminate|vm_compute; reflexivity]. Qed.
Example C74_brand_model_case : same_devices tiny devices_only /\ tiny <> devices_only /\
  alone (built tiny_compiler tiny) 63 1023 0 depends_ua GDeviceType <> Panic /\
  alone (built tiny_compiler devices_only) 63 1023 0 depends_ua GDeviceType <> Panic /\
  alone (built tiny_compiler devices_only) 63 1023 0 depends_ua GModel = Ok (VB (bs "Tab X1")).
Proof. split; [split; reflexivity|]. split; [discriminate|]. split; [vm_compute; discriminate|]. split; [vm_compute; discriminate|vm_compute; reflexivity]. Qed.

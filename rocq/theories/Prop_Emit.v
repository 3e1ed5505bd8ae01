(** C70: the Go source that uaxplc generates declares the tables it compiled. *)
From Verif Require Import Model_Base Model_Ctx Model_Compiler Model_Built Model_Emit Data_Tiny Spec_Database Spec_Go Spec_Emit
  Proof_Emit Proof_Written.

(** Whatever the tables, each of the five texts, read as Go, declares exactly them. *)
Theorem C70_client : forall args names o, Forall one_line args -> Forall one_line names -> length names = length (co_idx o) -> client_out_fits o ->
  declares go_client (emit_client args names o) o.
Proof. exact client_declares. Qed.
Print Assumptions C70_client.
Theorem C70_os : forall args o, Forall one_line args -> os_out_fits o -> declares go_os (emit_os args o) o.
Proof. exact os_declares. Qed.
Print Assumptions C70_os.
Theorem C70_device : forall args names o, Forall one_line args -> Forall one_line names -> length names = length (do_idx o) -> device_out_fits o ->
  declares go_device (emit_device args names o) o.
Proof. exact device_declares. Qed.
Print Assumptions C70_device.
Theorem C70_vendor : forall args o, Forall one_line args -> vendor_out_fits o -> declares go_vendor (emit_vendor args o) o.
Proof. exact vendor_declares. Qed.
Print Assumptions C70_vendor.
Theorem C70_hint : forall args files o, Forall one_line args -> Forall (fun f => one_line (fst f)) files ->
  list_sum (map snd files) = length (ho_idx o) -> hint_out_fits o -> declares go_hint (emit_hint args files o) o.
Proof. exact hint_declares. Qed.
Print Assumptions C70_hint.

(** From the database: the five files are the source of the tables [built K D] of which the other theorems speak. *)
Theorem C70_database : forall K D args cn dn hf, writable K D -> Forall one_line args ->
  Forall one_line cn -> length cn = length (db_client D) -> Forall one_line dn -> length dn = length (db_device D) ->
  Forall (fun f => one_line (fst f)) hf -> list_sum (map snd hf) = length (ho_idx (compile_hint (db_hint D))) ->
  source_of (built K D)
    (emit_client args cn (compile_client (k_valid K) (k_client K) (db_client D)))
    (emit_os args (compile_os (k_valid K) (k_os K) (db_os D)))
    (emit_device args dn (compile_device (k_valid K) (k_device K) (k_static K) (db_device D)))
    (emit_vendor args (compile_vendor (db_vendor D)))
    (emit_hint args hf (compile_hint (db_hint D))).
Proof. exact writable_declares. Qed.
Print Assumptions C70_database.

(** Without the conditions it is false.  The reference "$128" becomes the index -128, whose text is "-0x-80". *)
Theorem C70_reference_refuted : exists v, forall o, ~ declares go_client (lone_text (bs "Foo") v None) o.
Proof. exact reference_refuted. Qed.
Print Assumptions C70_reference_refuted.
(** A pattern with a back-quote ends its own literal. *)
Theorem C70_backquote_refuted : exists rs, forall o, ~ declares go_client (lone_text rs [] None) o.
Proof. exact backquote_refuted. Qed.
Print Assumptions C70_backquote_refuted.
(** It can go on as Go: one pattern was compiled, two are declared. *)
Theorem C70_injection_refuted : exists rs o, declares go_client (lone_text rs [] None) o /\ length (co_re (lone rs [] None)) = 1 /\ length (co_re o) = 2.
Proof. exact injection_refuted. Qed.
Print Assumptions C70_injection_refuted.
(** A carriage return is dropped from a pattern. *)
Theorem C70_return_refuted : exists rs rs' o, In x0d rs /\ ~ In x0d rs' /\ declares go_client (lone_text rs [] None) o /\
  co_re (lone rs [] None) = [client_re rs] /\ co_re o = [client_re rs'] /\ co_re o <> co_re (lone rs [] None).
Proof. exact return_refuted. Qed.
Print Assumptions C70_return_refuted.
(** A threshold with a quote ends its own literal. *)
Theorem C70_threshold_refuted : exists k, forall o, ~ declares go_client (lone_text (bs "(Foo)") (bs "$1") (Some (mkYE (bs "WebKit") [(k, bs "Blink")]))) o.
Proof. exact threshold_refuted. Qed.
Print Assumptions C70_threshold_refuted.
(** Two keys of hints with the same hash are the same constant key twice in a map, which Go rejects. *)
Theorem C70_hash_refuted : exists k k', k <> k' /\
  forall o, ~ declares go_hint (emit_hint [] [(bs "apps.yml", 2)] (compile_hint [[(k, bs "A"); (k', bs "B")]])) o.
Proof. exact hash_refuted. Qed.
Print Assumptions C70_hash_refuted.

(** A database with entries of every kind is writable, and its tables are not empty. *)
Example C70_case : writable tiny_compiler tiny /\ length (ho_idx (compile_hint (db_hint tiny))) = 2 /\
  length (cr_ev (built tiny_compiler tiny)) = 3 /\ length (cr_ef (built tiny_compiler tiny)) = 1 /\ length (or_ov (built tiny_compiler tiny)) = 2 /\
  length (dr_dm (built tiny_compiler tiny)) = 4 /\ length (vr_re (built tiny_compiler tiny)) = 3.
Proof. split; [exact tiny_writable|]. vm_compute. repeat split. Qed.
(** A line of the text. *)
Example C70_text : emit_os_tuple (mkOS 12 (-1) 3 0 (-1) 4294967300 17) =
  bs "osTuple{name64:0x0000000c,nameSI:-0x1,matchRI:0x0003,match64:0x00000000,versionSI:-0x1,version64:0x100000004,versions64:0x00000011},".
Proof. vm_compute. reflexivity. Qed.

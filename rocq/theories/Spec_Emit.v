(** Databases whose generated files can be read back: what patterns, names of engines and thresholds may contain, and
    how large the tables may be. *)
From Verif Require Import Model_Base Model_Ctx Model_Regex Model_Shipped Model_Compiler Model_Built Spec_Database Spec_Go.

Definition engine_writable (e : yengine) : Prop :=
  raw_text (ye_default e) /\ Forall (fun ve => plain_text (fst ve) /\ raw_text (snd ve)) (ye_versions e).
Definition client_writable (y : yclient) : Prop :=
  raw_text (yc_regex y) /\ proper_ref (yc_version y) /\ forall e, yc_engine y = Some e -> engine_writable e.
Definition os_writable (y : yos) : Prop :=
  raw_text (yo_regex y) /\ proper_ref (yo_name y) /\ proper_ref (yo_version y) /\
  Forall (fun v => raw_text (yv_regex v) /\ proper_ref (yv_version v)) (yo_versions y).
Definition brand_writable (x : bytes * ybrand) : Prop :=
  raw_text (yb_regex (snd x)) /\ Forall (fun m => raw_text (ym_regex m)) (yb_models (snd x)).
(** A table whose indexes are [int32]. *)
Definition indexed {A} (l : list A) : Prop := (Z.of_nat (length l) <= 2147483647)%Z.

Record writable (K : compiler) (D : database) : Prop := mkWritable {
  w_maps : forall p q, k_client K p = Some q \/ k_os K p = Some q \/ k_device K p = Some q \/ k_static K p = Some q -> raw_text q;
  w_client : Forall (Forall client_writable) (db_client D);
  w_os : Forall os_writable (db_os D);
  w_device : Forall (Forall brand_writable) (db_device D);
  w_vendor : Forall (fun x => Forall raw_text (snd x)) (db_vendor D);
  (* no two keys of hints have the same hash *)
  w_hint : forall k k', In k (map fst (concat (db_hint D))) -> In k' (map fst (concat (db_hint D))) -> fnv1 k = fnv1 k' -> k = k';
  w_size : fits_32 (cr_buf (built K D)) /\ indexed (cr_re (built K D)) /\ indexed (cr_ef (built K D)) /\ indexed (cr_ev (built K D)) /\
           indexed (or_re (built K D)) /\ indexed (dr_re (built K D)) /\ indexed (dr_dm (built K D))
}.

(** The tables a program built from five such files has. *)
Definition program (c : client_out) (o : os_out) (d : device_out) (v : vendor_out) (h : hint_out) : tables :=
  mkTables (co_idx c) (map compile (co_re c)) (co_ef c) (co_ev c) (map compile (co_evre c)) (co_buf c)
           (oo_os o) (oo_ov o) (map compile (oo_re o)) (oo_buf o)
           (do_idx d) (do_dm d) (map compile (do_re d)) (do_buf d)
           (vo_idx v) (map compile (vo_re v)) (vo_buf v)
           (ho_idx h) (ho_buf h)
           (compile src_tablet) (compile src_mobile) (compile src_blink).
(** The five texts are Go source declaring the tables [T]. *)
Definition source_of (T : tables) (cs os ds vs hs : bytes) : Prop :=
  exists c o d v h, declares go_client cs c /\ declares go_os os o /\ declares go_device ds d /\ declares go_vendor vs v /\ declares go_hint hs h /\
    program c o d v h = T.

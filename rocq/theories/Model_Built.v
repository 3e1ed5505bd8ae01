(** The tables of a program built from a database: the compiler [uaxplc] run on the parsed database, and the generated
    files compiled into the package ([regexp.MustCompile] of every pattern). *)
From Verif Require Import Model_Base Model_Ctx Model_Regex Model_Compiler Model_Shipped.

(** What the compiler is given besides the database: [regexp.Compile] succeeding, and the replacement maps
    [reReplClient] (mod_client.go:35-40), [reReplOS] (mod_os.go:31-38), [reReplDevice] and [staticReplDevice]
    (mod_device.go:37-77). *)
Record compiler := mkCompiler {
  k_valid : bytes -> bool; k_client : bytes -> option bytes; k_os : bytes -> option bytes;
  k_device : bytes -> option bytes; k_static : bytes -> option bytes
}.
(** The parsed database; a Go map is an association list in any order. *)
Record database := mkDatabase {
  db_client : list (list yclient); db_os : list yos; db_device : list (list (bytes * ybrand));
  db_vendor : list (bytes * list bytes); db_hint : list (list (bytes * bytes))
}.

Definition built (K : compiler) (D : database) : tables :=
  let c := compile_client (k_valid K) (k_client K) (db_client D) in
  let o := compile_os (k_valid K) (k_os K) (db_os D) in
  let d := compile_device (k_valid K) (k_device K) (k_static K) (db_device D) in
  let v := compile_vendor (db_vendor D) in
  let h := compile_hint (db_hint D) in
  mkTables (co_idx c) (map compile (co_re c)) (co_ef c) (co_ev c) (map compile (co_evre c)) (co_buf c)
           (oo_os o) (oo_ov o) (map compile (oo_re o)) (oo_buf o)
           (do_idx d) (do_dm d) (map compile (do_re d)) (do_buf d)
           (vo_idx v) (map compile (vo_re v)) (vo_buf v)
           (ho_idx h) (ho_buf h)
           (compile src_tablet) (compile src_mobile) (compile src_blink).

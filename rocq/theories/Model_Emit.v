(** The text [uaxplc] hands to [go/format] (cmd/uaxplc): from the compiled tables to the generated Go files.
    Simplifications: the tables are those of [Model_Compiler.v], in which the text around each pattern is part of it;
    [format.Source] (which only changes white space) and the writing of the file are not modelled; the names of files
    and the arguments of the program, which appear in comments, are given. *)
From Verif Require Import Model_Base Model_Version Model_Ctx Model_Compiler.

Definition nl : bytes := [x0a].
Definition quote : bytes := [x22].
Definition tick : bytes := [x60].

(** main.go:63-69: the head of every file; [args] is [os.Args[1:]]. *)
Definition emit_head (args : list bytes) : bytes :=
  bs "// Code generated by " ++ quote ++ bs "uaxplc" ++ flat_map (fun a => x20 :: a) args ++ quote ++ bs ". DO NOT EDIT." ++ nl ++ nl ++
  bs "package uaxpl" ++ nl ++ nl.
(** mod_client.go:70-71 etc. *)
Definition emit_imports (l : list bytes) : bytes :=
  bs "import (" ++ nl ++ flat_map (fun p => quote ++ p ++ quote ++ nl) l ++ bs ")" ++ nl ++ nl ++ bs "var (" ++ nl.
(** mod_client.go:170-174 etc.: the patterns. *)
Definition emit_patterns (var : bytes) (l : list bytes) : bytes :=
  var ++ bs " = []*regexp.Regexp{" ++ nl ++
  flat_map (fun p => bs "regexp.MustCompile(" ++ tick ++ p ++ tick ++ bs ")," ++ nl) l ++ bs "}" ++ nl.
(** mod_client.go:219-228 etc.: the buffer and the end of the file. *)
Definition emit_buf (var : bytes) (b : bytes) : bytes :=
  var ++ bs " = []byte{" ++ nl ++ emit_bytes 0 b ++ nl ++ bs "}" ++ nl ++ bs ")" ++ nl.
(** mod_client.go:160-166, mod_device.go:219-225: the entries of one file, below its name. *)
Definition emit_files {A} (entry : A -> bytes) (names : list bytes) (l : list (list A)) : bytes :=
  flat_map (fun nf => bs "// " ++ fst nf ++ nl ++ bs "{" ++ nl ++ flat_map (fun t => entry t ++ nl) (snd nf) ++ bs "}," ++ nl)
    (combine names l).

(** mod_client.go:154-155. *)
Definition emit_client_tuple (t : clientTuple) : bytes :=
  bs "clientTuple{matchRI:" ++ hex_i32 (ct_matchRI t) ++ bs ",match64:" ++ hex_u64 (ct_match64 t) ++
  bs ",browser64:" ++ hex_u64 (ct_browser64 t) ++ bs ",version64:" ++ hex_u64 (ct_version64 t) ++
  bs ",browserVI:" ++ hex_i8 (ct_browserVI t) ++ bs ",engine64:" ++ hex_u64 (ct_engine64 t) ++
  bs ",engineFI:" ++ hex_i32 (ct_engineFI t) ++ bs ",url64:" ++ hex_u64 (ct_url64 t) ++
  bs ",type64:" ++ hex_u64 (ct_type64 t) ++ bs "},".
(** mod_client.go:253-261 [ef]. *)
Definition emit_ef (f : engineFn) : bytes :=
  bs "func(s string) entry.Entry64 {" ++ nl ++
  flat_map (fun ve => bs "if s>=" ++ quote ++ fst ve ++ quote ++ bs "{return " ++ hex_u64 (snd ve) ++ bs "}" ++ nl) (fst f) ++
  bs "return " ++ hex_u64 (snd f) ++ nl ++ bs "}".
(** mod_client.go:70-230. *)
Definition emit_client (args names : list bytes) (o : client_out) : bytes :=
  emit_head args ++ emit_imports [bs "github.com/koykov/entry"; bs "regexp"] ++
  bs "__cr_idx = [" ++ itoa (Z.of_nat (length (co_idx o))) ++ bs "][]clientTuple{" ++ nl ++
  emit_files emit_client_tuple names (co_idx o) ++ bs "}" ++ nl ++
  emit_patterns (bs "__cr_re") (co_re o) ++
  bs "__cr_ef = []engineFn{" ++ nl ++ flat_map (fun f => emit_ef f ++ bs "," ++ nl) (co_ef o) ++ bs "}" ++ nl ++
  bs "__cr_ev = map[entry.Entry64]int32{" ++ nl ++
  flat_map (fun kv => hex_u64 (fst kv) ++ bs ":" ++ hex_i32 (snd kv) ++ bs "," ++ nl) (co_ev o) ++ bs "}" ++ nl ++
  emit_patterns (bs "__cr_evre") (co_evre o) ++
  emit_buf (bs "__cr_buf") (co_buf o).

(** mod_os.go:129-130, 138-139. *)
Definition emit_ov_tuple (t : osVersionTuple) : bytes :=
  bs "osVersionTuple{matchRI:" ++ hex_i32 (ov_matchRI t) ++ bs ",match64:" ++ hex_u64 (ov_match64 t) ++
  bs ",versionSI:" ++ hex_i8 (ov_versionSI t) ++ bs ",version64:" ++ hex_u64 (ov_version64 t) ++ bs "},".
Definition emit_os_tuple (t : osTuple) : bytes :=
  bs "osTuple{name64:" ++ hex_u64 (ot_name64 t) ++ bs ",nameSI:" ++ hex_i8 (ot_nameSI t) ++
  bs ",matchRI:" ++ hex_i32 (ot_matchRI t) ++ bs ",match64:" ++ hex_u64 (ot_match64 t) ++
  bs ",versionSI:" ++ hex_i8 (ot_versionSI t) ++ bs ",version64:" ++ hex_u64 (ot_version64 t) ++
  bs ",versions64:" ++ hex_u64 (ot_versions64 t) ++ bs "},".
(** mod_os.go:142-176. *)
Definition emit_os (args : list bytes) (o : os_out) : bytes :=
  emit_head args ++ emit_imports [bs "regexp"] ++
  bs "__or_os = []osTuple{" ++ nl ++ flat_map (fun t => emit_os_tuple t ++ nl) (oo_os o) ++ bs "}" ++ nl ++
  bs "__or_ov = []osVersionTuple{" ++ nl ++ flat_map (fun t => emit_ov_tuple t ++ nl) (oo_ov o) ++ bs "}" ++ nl ++
  emit_patterns (bs "__or_re") (oo_re o) ++ emit_buf (bs "__or_buf") (oo_buf o).

(** mod_device.go:200-201, 207-208, 214-215. *)
Definition emit_model_tuple (t : modelTuple) : bytes :=
  bs "modelTuple{type64:" ++ hex_u64 (mt_type64 t) ++ bs ",matchRI:" ++ hex_i32 (mt_matchRI t) ++
  bs ",match64:" ++ hex_u64 (mt_match64 t) ++ bs ",model64:" ++ hex_u64 (mt_model64 t) ++ bs "}".
Definition emit_device_tuple (t : deviceTuple) : bytes :=
  bs "deviceTuple{type64:" ++ hex_u64 (dt_type64 t) ++ bs ",brand64:" ++ hex_u64 (dt_brand64 t) ++
  bs ",matchRI:" ++ hex_i32 (dt_matchRI t) ++ bs ",match64:" ++ hex_u64 (dt_match64 t) ++
  bs ",modelSI:" ++ hex_i32 (dt_modelSI t) ++ bs ",models64:" ++ hex_u64 (dt_models64 t) ++ bs "},".
(** mod_device.go:107-254. *)
Definition emit_device (args names : list bytes) (o : device_out) : bytes :=
  emit_head args ++ emit_imports [bs "regexp"] ++
  bs "__dr_idx = [" ++ itoa (Z.of_nat (length (do_idx o))) ++ bs "][]deviceTuple{" ++ nl ++
  emit_files emit_device_tuple names (do_idx o) ++ bs "}" ++ nl ++
  bs "__dr_dm = []modelTuple{" ++ nl ++ flat_map (fun t => emit_model_tuple t ++ bs "," ++ nl) (do_dm o) ++ bs "}" ++ nl ++
  emit_patterns (bs "__dr_re") (do_re o) ++ emit_buf (bs "__dr_buf") (do_buf o).

(** mod_vendor.go:88-116. *)
Definition emit_vendor_tuple (t : vendorTuple) : bytes :=
  bs "vendorTuple{brand64:" ++ hex_u64 (vt_brand64 t) ++ bs ",range64:" ++ hex_u64 (vt_range64 t) ++ bs "}".
Definition emit_vendor (args : list bytes) (o : vendor_out) : bytes :=
  emit_head args ++ emit_imports [bs "regexp"] ++
  bs "__vr_idx = []vendorTuple{" ++ nl ++ flat_map (fun t => emit_vendor_tuple t ++ bs "," ++ nl) (vo_idx o) ++ bs "}" ++ nl ++
  emit_patterns (bs "__vr_re") (vo_re o) ++ emit_buf (bs "__vr_buf") (vo_buf o).

(** mod_hint.go:49-93; each file is its name and how many of the pairs come from it. *)
Fixpoint emit_pairs (files : list (bytes * nat)) (l : list (N * N)) : bytes :=
  match files with
  | [] => []
  | (name, n) :: files' =>
      bs "// " ++ name ++ nl ++ flat_map (fun kv => hex_u64 (fst kv) ++ bs ":" ++ hex_u64 (snd kv) ++ bs "," ++ nl) (firstn n l) ++
      emit_pairs files' (skipn n l)
  end.
Definition emit_hint (args : list bytes) (files : list (bytes * nat)) (o : hint_out) : bytes :=
  emit_head args ++ emit_imports [bs "github.com/koykov/entry"] ++
  bs "__hr_idx = map[uint64]entry.Entry64{" ++ nl ++ emit_pairs files (ho_idx o) ++ bs "}" ++ nl ++
  emit_buf (bs "__hr_buf") (ho_buf o).

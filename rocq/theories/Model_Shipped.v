(** The tables shipped in /repo, as one value. *)
From Verif Require Import Model_Base Model_Blob Model_Ctx Model_Regex
  Data_Client Data_OS Data_Device Data_Model Data_DeviceRe0 Data_DeviceRe1.

Definition compile_all (l : list blob) : list regex := map (fun b => compile (unblob b)) l.

(** device_parser.go:41-42, engine_parser.go:11. *)
Definition src_tablet : bytes := bs "(?i)Tablet".
Definition src_mobile : bytes := bs "(?i)Mobile".
Definition src_blink : bytes := bs "(?i)Chrome/.+ Safari/537.36".

(** client_repo.go, os_repo.go, device_repo.go, vendor_repo.go, hint_repo.go. *)
Definition shipped : tables :=
  mkTables d_cr_idx (compile_all d_cr_re) d_cr_ef d_cr_ev (compile_all d_cr_evre) d_cr_buf
           d_or_os d_or_ov (compile_all d_or_re) d_or_buf
           d_dr_idx d_dr_dm (compile_all (d_dr_re0 ++ d_dr_re1)) d_dr_buf
           d_vr_idx (compile_all d_vr_re) d_vr_buf
           d_hr_idx d_hr_buf
           (compile src_tablet) (compile src_mobile) (compile src_blink).

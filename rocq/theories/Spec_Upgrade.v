(** Records that were stored by a program built from an earlier database (in a cache that outlives the program), and are
    read by one built from a later database. *)
From Verif Require Import Model_Base Model_CacheEntry Model_Ctx Model_Parse Model_Compiler Model_Built Spec_Getters Spec_Honest.

(** The outcome of a getter when the cache answers every look-up with [row]. *)
Fixpoint offered {A} (o : option entry) (p : prog A) : A :=
  match p with
  | Ret a => a
  | CGet _ k => offered o (k o)
  | CSet _ _ k => offered o k
  end.
Definition served (T : tables) (row : entry) (c : ctx) (g : getter) : res value := snd (offered (Some row) (run_getter T g c)).

(** The record holds what the getter reads. *)
Definition holds (row : entry) (g : getter) : bool :=
  match g with
  | GClientType | GBrowser | GBrowserVersion | GBrowserVersionString | GEngine | GEngineVersion | GEngineVersionString => check_bit (e_bits row) flagClientDetect
  | GDeviceType | GBrand | GModel => check_bit (e_bits row) flagDeviceDetect
  | GOS | GOSVersion | GOSVersionString => check_bit (e_bits row) flagOSDetect
  | GUserAgent => true
  end.

(** A cache may answer with [row] for [ua] after any number of goroutines of the program with tables [T] have used it. *)
Definition left_by (T : tables) (mC mD : N) (ua : bytes) (row : entry) : Prop :=
  exists scripts stored ts, honest_run (begin T mC mD scripts) (stored, ts) /\ answers stored ua (Some row).

(** The texts of the later tables begin with those of the earlier ones; apps are looked up alike, if there is a header. *)
Definition continues (h : N) (T T' : tables) : Prop :=
  (exists r, cr_buf T' = cr_buf T ++ r) /\ (exists r, or_buf T' = or_buf T ++ r) /\
  (exists r, dr_buf T' = dr_buf T ++ r) /\ (exists r, vr_buf T' = vr_buf T ++ r) /\
  (h = 0%N \/ (hr_idx T' = hr_idx T /\ hr_buf T' = hr_buf T)).

(** Databases with other operating systems. *)
Definition with_os (l : list yos) (D : database) : database := mkDatabase (db_client D) l (db_device D) (db_vendor D) (db_hint D).

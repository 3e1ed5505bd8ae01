(** The names of the shipped tables. *)
From Verif Require Import Model_Base Model_Blob Model_Ctx Model_CacheEntry Model_Regex Model_Parse Model_Shipped Data_OS Spec_Getters Proof_Known.

Lemma compiled_all l : compile_all l = map compile (map unblob l).
Proof. unfold compile_all. rewrite map_map. reflexivity. Qed.
Lemma shipped_patterns : or_re shipped = map compile (map unblob d_or_re).
Proof. exact (compiled_all d_or_re). Qed.
Lemma shipped_clients : client_names shipped = true.
Proof. vm_cast_no_check (eq_refl true). Qed.
Lemma shipped_hints : hint_names shipped = true.
Proof. vm_cast_no_check (eq_refl true). Qed.
Lemma shipped_systems : os_names shipped (map unblob d_or_re) = true.
Proof. vm_cast_no_check (eq_refl true). Qed.
Lemma shipped_brands : brand_names shipped = true.
Proof. vm_cast_no_check (eq_refl true). Qed.
Definition konqueror : bytes := bs "Konqueror/4.8 WebKit/5".
Lemma shipped_silent : silent_engine shipped 1 0 konqueror = true.
Proof. vm_cast_no_check (eq_refl true). Qed.

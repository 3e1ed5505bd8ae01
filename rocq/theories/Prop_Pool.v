(** Properties C28, C29, C30, C38, C41: pooled contexts, setters, recovered panics, type names. *)
From Verif Require Import Model_Base Model_CacheEntry Model_Version Model_Ctx Model_Parse Model_Shipped Spec_Getters
  Spec_Select Proof_Repeat Proof_Choice Proof_Reports.

(** C28: whatever contexts have been released, a context taken from the pool is a new one: it holds no user agent, and
    every use of it does what it does on a new context. *)
Theorem C28_pool_clean : forall p c p', pool_reach p -> pool_get p c p' ->
  c = new_ctx /\ get_user_agent c = [] /\
  (forall T mC mD l, script T mC mD l c = script T mC mD l new_ctx) /\
  (forall src, set_user_agent src c = new_ctx_with_src src).
Proof. exact pool_behaves. Qed.
Print Assumptions C28_pool_clean.

Definition used : ctx := mkCtx 510 (bs "ua") (bs "buf") 1 2 3 4 5 6 version_zero 7 8 version_zero 9 10 11 12 13 version_zero.
Example C28_case : used <> new_ctx /\ pool_reach (pool_put [] used) /\
  exists c, pool_get (pool_put [] used) c [].
Proof. split; [discriminate|]. split; [constructor; constructor|]. exists (ctx_reset used). exact (Pool_stored [] (ctx_reset used) []). Qed.

(** C29: SetUserAgent leaves only the filters of the earlier state. *)
Theorem C29_set_user_agent : forall ua c,
  get_user_agent (set_user_agent ua c) = ua /\
  set_user_agent ua c = fresh_ctx (c_maskC c) (c_maskD c) 0 ua /\
  (forall c', c_maskC c = c_maskC c' -> c_maskD c = c_maskD c' ->
     forall T mC mD l, script T mC mD (ASetUA ua :: l) c = script T mC mD (ASetUA ua :: l) c').
Proof. exact setter_fresh. Qed.
Print Assumptions C29_set_user_agent.

Example C29_case : c_maskC (set_user_agent (bs "x") used) = 1%N /\ c_bits (set_user_agent (bs "x") used) = 0%N.
Proof. split; reflexivity. Qed.

(** C30 is false: a header given before the user agent is lost. *)
Theorem C30_setter_order_refuted : exists T header ua g,
  answer T (set_user_agent ua (set_requested_with header new_ctx)) g <>
  answer T (set_requested_with header (set_user_agent ua new_ctx)) g.
Proof.
  exact (order_case shipped (bs "com.facebook.katana") (bs "Akregator/1.2.3") (bs "Akregator") (bs "Facebook")
    ltac:(vm_compute; reflexivity) ltac:(vm_compute; reflexivity) ltac:(discriminate)).
Qed.
Print Assumptions C30_setter_order_refuted.

(** C30, what does hold: a header given first has no effect at all, so the order matters for the browser name only. *)
Theorem C30_header_first : forall header ua c, set_user_agent ua (set_requested_with header c) = set_user_agent ua c.
Proof. exact setter_loses. Qed.
Print Assumptions C30_header_first.
Theorem C30_order_other_getters : forall T header ua c g, g <> GBrowser ->
  answer T (set_user_agent ua (set_requested_with header c)) g = answer T (set_requested_with header (set_user_agent ua c)) g.
Proof. exact setter_order. Qed.
Print Assumptions C30_order_other_getters.

Example C30_case : answer shipped (set_requested_with (bs "com.facebook.katana") (set_user_agent (bs "Akregator/1.2.3") new_ctx))
  GBrowserVersionString = Ok (VB (bs "1.2.3")).
Proof. exact (is_bytes_ok (answer shipped (set_requested_with (bs "com.facebook.katana") (set_user_agent (bs "Akregator/1.2.3") new_ctx)) GBrowserVersionString)
  (bs "1.2.3") ltac:(vm_compute; reflexivity)). Qed.

(** C38 is false: the second look-up of the same user agent answers differently from the first. *)
Theorem C38_poison_refuted : exists T mC mD ua rs c o ev rs' c' o' ev',
  run_getters T [GClientType] (fresh_ctx mC mD 0 ua) None [] = (rs, c, o, ev) /\
  run_getters T [GClientType] (fresh_ctx mC mD 0 ua) o [] = (rs', c', o', ev') /\ rs <> rs'.
Proof. exact (poison_case shipped (bs "Symfony HttpClient/") 4 ltac:(vm_compute; reflexivity)). Qed.
Print Assumptions C38_poison_refuted.

(** C38, exactly: after a panic of the client detection the cache answers "no client" to the next context. *)
Theorem C38_poisoned_row : forall T mC mD h ua rs c o ev rs' c' o' ev',
  alone T mC mD h ua GClientType = Panic ->
  run_getters T [GClientType] (fresh_ctx mC mD h ua) None [] = (rs, c, o, ev) ->
  run_getters T [GClientType] (fresh_ctx mC mD h ua) o [] = (rs', c', o', ev') ->
  rs = [Panic] /\ rs' = [Ok (VN 0)].
Proof. exact poison. Qed.
Print Assumptions C38_poisoned_row.

Example C38_case : alone shipped 4 1023 0 (bs "Symfony HttpClient/") GClientType = Panic.
Proof. exact (panic_case shipped 4 1023 0 (bs "Symfony HttpClient/") GClientType ltac:(vm_compute; reflexivity)). Qed.

(** C41, client types: exactly the six single types have names, all different. *)
Theorem C41_client_names : forall t,
  (client_type_string t <> bs "UNK" <-> In t [1; 2; 4; 8; 16; 32]%N) /\
  (forall t', In t [1; 2; 4; 8; 16; 32]%N -> client_type_string t = client_type_string t' -> t = t').
Proof. exact client_names. Qed.
Print Assumptions C41_client_names.

(** C41, device types: exactly the ten single types have names; only TV and shell TV share one. *)
Theorem C41_device_names : forall t,
  (device_type_string t <> bs "UNK" <-> In t [1; 2; 4; 8; 16; 32; 64; 128; 256; 512]%N) /\
  (forall t', In t [1; 2; 4; 8; 16; 32; 64; 128; 256; 512]%N -> device_type_string t = device_type_string t' ->
     t = t' \/ (In t [32; 64] /\ In t' [32; 64])%N).
Proof. exact device_names. Qed.
Print Assumptions C41_device_names.

(** C41 is false for device types as stated. *)
Theorem C41_names_distinct_refuted : exists t t', In t [1; 2; 4; 8; 16; 32; 64; 128; 256; 512]%N /\
  In t' [1; 2; 4; 8; 16; 32; 64; 128; 256; 512]%N /\ t <> t' /\ device_type_string t = device_type_string t'.
Proof. exact tv_names. Qed.
Print Assumptions C41_names_distinct_refuted.

Example C41_case : client_type_string 8 = bs "feed reader" /\ device_type_string 32 = bs "tv" /\ client_type_string 3 = bs "UNK".
Proof. repeat split. Qed.

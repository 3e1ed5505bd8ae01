(** Property C39, exactly: the engine reported for a browser whose engine function has one threshold. *)
From Coq Require Import ZArith List.
Import ListNotations.
From Verif Require Import Model_Base Model_CacheEntry Model_Ctx Model_Parse Model_Shipped Spec_Version Spec_Getters
  Spec_Select Spec_Threshold Proof_Choice Proof_Threshold.
Open Scope nat_scope.

(** The text order on numbers: the shorter number is compared with the leading digits of the longer one. *)
Theorem C39_text_order : forall a b n m, Decimal a n -> Decimal b m ->
  (text_le a b <-> reaches (length a) n (length b) m).
Proof. exact decimal_order. Qed.
Print Assumptions C39_text_order.

(** The engine of the threshold is reported exactly when the major version reaches it as text, else the default. *)
Theorem C39_one_threshold : forall T mC mD h ua t x th k e d s m n w,
  client_sane T -> small ua -> client_is T mC ua t 1 x ->
  ct_engineFI x <> (-1)%Z -> nth_error (cr_ef T) (Z.to_nat (ct_engineFI x)) = Some ([(th, e)], d) ->
  e <> 0%N -> d <> 0%N -> Decimal th k ->
  engine_source T ua x s -> major_of s m -> Decimal m n ->
  alone T mC mD h ua GEngine = Ok (VB w) ->
  (reaches (length th) k (length m) n /\ text (cr_buf T) e w) \/
  (~ reaches (length th) k (length m) n /\ text (cr_buf T) d w).
Proof. exact one_threshold. Qed.
Print Assumptions C39_one_threshold.

(** The shipped browsers with threshold 28: below version 1000 the engine is right for 0 to 2, 10 to 99 and 280 to 999,
    wrong for 3 to 9 (Blink) and for 100 to 279 (WebKit). *)
Theorem C39_blink_28 : forall mC mD h ua t x e d s m n w,
  small ua -> client_is shipped mC ua t 1 x ->
  ct_engineFI x <> (-1)%Z -> nth_error (cr_ef shipped) (Z.to_nat (ct_engineFI x)) = Some ([(bs "28", e)], d) ->
  text (cr_buf shipped) e (bs "Blink") -> text (cr_buf shipped) d (bs "WebKit") ->
  engine_source shipped ua x s -> major_of s m -> Decimal m n -> plain m -> (n < 1000)%Z ->
  alone shipped mC mD h ua GEngine = Ok (VB w) ->
  (w = bs "Blink" /\ (2 < n < 10 \/ 28 <= n < 100 \/ 280 <= n)%Z) \/
  (w = bs "WebKit" /\ (n <= 2 \/ 10 <= n < 28 \/ 100 <= n < 280)%Z).
Proof. exact shipped_28. Qed.
Print Assumptions C39_blink_28.

(** 19 browser entries have such a function. *)
Example C39_blink_28_entries : (N.of_nat (count28 shipped) =? 19)%N = true.
Proof. exact shipped_count28. Qed.

Example C39_blink_28_case : exists x e d, client_is shipped 1 (bs "Chrome/120.0.0.0") 1 1 x /\ ct_engineFI x <> (-1)%Z /\
    nth_error (cr_ef shipped) (Z.to_nat (ct_engineFI x)) = Some ([(bs "28", e)], d) /\
    text (cr_buf shipped) e (bs "Blink") /\ text (cr_buf shipped) d (bs "WebKit") /\
    engine_source shipped (bs "Chrome/120.0.0.0") x (bs "120.0.0.0") /\ major_of (bs "120.0.0.0") (bs "120") /\
    Decimal (bs "120") 120.
Proof. exact (meets_28 shipped (bs "Chrome/120.0.0.0") (bs "120.0.0.0") (bs "120") 120 ltac:(vm_compute; reflexivity)). Qed.

Example C39_chrome_120 : alone shipped 1 1023 0 (bs "Chrome/120.0.0.0") GEngine = Ok (VB (bs "WebKit")).
Proof. exact (bytes_case shipped 1 1023 0 (bs "Chrome/120.0.0.0") GEngine (bs "WebKit") ltac:(vm_compute; reflexivity)). Qed.
Example C39_chrome_9 : alone shipped 1 1023 0 (bs "Chrome/9.0.597.0") GEngine = Ok (VB (bs "Blink")).
Proof. exact (bytes_case shipped 1 1023 0 (bs "Chrome/9.0.597.0") GEngine (bs "Blink") ltac:(vm_compute; reflexivity)). Qed.

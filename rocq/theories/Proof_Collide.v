(** Two user agents with the same hash share a row of the cache; where hashes can and cannot collide. *)
From Verif Require Import Model_Base Model_CacheEntry Model_Version Model_Ctx Model_Parse Model_Cache Model_Shipped
  Spec_Getters Spec_Collide Proof_Base Proof_Getters Proof_Private Proof_Repeat.
From Coq Require Import Lia ZifyBool ZifyNat ZifyN.

(** ** FNV-1 *)
Definition fnv_inverse : N := 14886173955864302971%N.
Lemma mod_cancel a b : (a < two64)%N -> (b < two64)%N -> ((a * fnv_prime) mod two64 = (b * fnv_prime) mod two64)%N -> a = b.
Proof.
  intros La Lb E.
  assert (Q : forall x, (x < two64)%N -> ((((x * fnv_prime) mod two64) * fnv_inverse) mod two64 = x)%N).
  { intros x Lx. rewrite N.mul_mod_idemp_l by discriminate. rewrite <- N.mul_assoc.
    rewrite <- N.mul_mod_idemp_r by discriminate. change ((fnv_prime * fnv_inverse) mod two64)%N with 1%N.
    rewrite N.mul_1_r. apply N.mod_small. exact Lx. }
  rewrite <- (Q a La), <- (Q b Lb), E. reflexivity.
Qed.
Lemma lxor_small a b k : (a < 2 ^ k -> b < 2 ^ k -> N.lxor a b < 2 ^ k)%N.
Proof.
  intros La Lb. destruct (N.eq_dec (N.lxor a b) 0) as [->|Nz]; [lia|]. apply N.log2_lt_pow2; [lia|].
  pose proof (N.log2_lxor a b). destruct (N.eq_dec k 0) as [->|Nk].
  { assert (a = 0 /\ b = 0)%N as [-> ->] by (change (2 ^ 0)%N with 1%N in *; lia). cbn in Nz. lia. }
  assert (La' : (N.log2 a < k)%N). { destruct (N.eq_dec a 0) as [->|]; [cbn; lia|]. apply N.log2_lt_pow2; lia. }
  assert (Lb' : (N.log2 b < k)%N). { destruct (N.eq_dec b 0) as [->|]; [cbn; lia|]. apply N.log2_lt_pow2; lia. }
  lia.
Qed.
Lemma fnv_step_small h c : (fnv_step h c < two64)%N.
Proof.
  unfold fnv_step. change two64 with (2 ^ 64)%N. apply lxor_small; [apply N.mod_lt; discriminate|].
  pose proof (bn_lt c). change (2 ^ 64)%N with 18446744073709551616%N. lia.
Qed.
Lemma lxor_cancel a b c : N.lxor a c = N.lxor b c -> a = b.
Proof.
  intros E. rewrite <- (N.lxor_0_r a), <- (N.lxor_0_r b), <- (N.lxor_nilpotent c), <- !N.lxor_assoc, E. reflexivity.
Qed.
Lemma fnv_step_inj h h' c : (h < two64)%N -> (h' < two64)%N -> fnv_step h c = fnv_step h' c -> h = h'.
Proof. intros L L' E. unfold fnv_step in E. apply lxor_cancel in E. exact (mod_cancel _ _ L L' E). Qed.
Lemma fnv_step_byte h c c' : fnv_step h c = fnv_step h c' -> c = c'.
Proof. unfold fnv_step. rewrite !(N.lxor_comm ((h * fnv_prime) mod two64)). intros E. apply lxor_cancel in E. apply bn_inj. exact E. Qed.

Lemma fold_small s : forall h, (h < two64)%N -> (fold_left fnv_step s h < two64)%N.
Proof. induction s as [|c s IH]; intros h L; [exact L|]. apply IH. apply fnv_step_small. Qed.
Lemma fold_inj s : forall h h', (h < two64)%N -> (h' < two64)%N -> fold_left fnv_step s h = fold_left fnv_step s h' -> h = h'.
Proof.
  induction s as [|c s IH]; intros h h' L L' E; [exact E|]. cbn [fold_left] in E.
  apply IH in E; [|apply fnv_step_small|apply fnv_step_small]. exact (fnv_step_inj _ _ _ L L' E).
Qed.
Lemma fnv1_small s : (fnv1 s < two64)%N.
Proof. apply fold_small. reflexivity. Qed.

(** A common suffix neither creates nor removes a collision. *)
Lemma fnv_suffix a b s : fnv1 (a ++ s) = fnv1 (b ++ s) <-> fnv1 a = fnv1 b.
Proof.
  unfold fnv1. rewrite !fold_left_app. fold (fnv1 a) (fnv1 b). split; [|intros ->; reflexivity].
  apply fold_inj; apply fnv1_small.
Qed.
(** User agents that differ in one byte have different hashes. *)
Lemma fnv_one_byte p a b s : fnv1 (p ++ a :: s) = fnv1 (p ++ b :: s) -> a = b.
Proof.
  change (a :: s) with ([a] ++ s). change (b :: s) with ([b] ++ s). rewrite !app_assoc, fnv_suffix.
  unfold fnv1. rewrite !fold_left_app. cbn [fold_left]. apply fnv_step_byte.
Qed.

(** *** Windows of up to four adjacent bytes *)
Lemma lxor_near y a : (a < 256)%N -> exists e, (-255 <= e <= 255 /\ Z.of_N (N.lxor y a) = Z.of_N y + e)%Z.
Proof.
  intros La. exists (Z.of_N (N.lxor y a) - Z.of_N y)%Z.
  assert (Q : (N.lxor y a / 256 = y / 256)%N).
  { change 256%N with (2 ^ 8)%N. rewrite <- !N.shiftr_div_pow2, N.shiftr_lxor.
    replace (N.shiftr a 8) with 0%N; [apply N.lxor_0_r|]. rewrite N.shiftr_div_pow2. symmetry. apply N.div_small. exact La. }
  pose proof (N.div_mod y 256 ltac:(discriminate)) as Dy. pose proof (N.mod_lt y 256 ltac:(discriminate)) as My.
  pose proof (N.div_mod (N.lxor y a) 256 ltac:(discriminate)) as Dx. pose proof (N.mod_lt (N.lxor y a) 256 ltac:(discriminate)) as Mx.
  rewrite Q in Dx. lia.
Qed.
Lemma step_near h c : exists e k, (-255 <= e <= 255 /\
  Z.of_N (fnv_step h c) = Z.of_N h * 1099511628211 + e - 18446744073709551616 * k)%Z.
Proof.
  unfold fnv_step. destruct (lxor_near ((h * fnv_prime) mod two64) (bn c) (bn_lt c)) as (e & Le & E).
  exists e, (Z.of_N (h * fnv_prime / two64)%N). split; [exact Le|]. rewrite E.
  pose proof (N.div_mod (h * fnv_prime) two64 ltac:(discriminate)) as D.
  change fnv_prime with 1099511628211%N in *. change two64 with 18446744073709551616%N in *. lia.
Qed.
(** Two bytes after the same state. *)
Lemma step_apart h c c' : exists d, (-255 <= d <= 255 /\ Z.of_N (fnv_step h c) = Z.of_N (fnv_step h c') + d)%Z.
Proof.
  unfold fnv_step. set (y := ((h * fnv_prime) mod two64)%N).
  exists (Z.of_N (N.lxor y (bn c)) - Z.of_N (N.lxor y (bn c')))%Z.
  assert (Q : forall a, (a < 256 -> N.lxor y a / 256 = y / 256)%N).
  { intros a La. change 256%N with (2 ^ 8)%N. rewrite <- !N.shiftr_div_pow2, N.shiftr_lxor.
    replace (N.shiftr a 8) with 0%N; [apply N.lxor_0_r|]. rewrite N.shiftr_div_pow2. symmetry. apply N.div_small. exact La. }
  pose proof (Q _ (bn_lt c)) as Q1. pose proof (Q _ (bn_lt c')) as Q2.
  pose proof (N.div_mod (N.lxor y (bn c)) 256 ltac:(discriminate)) as D1.
  pose proof (N.mod_lt (N.lxor y (bn c)) 256 ltac:(discriminate)) as M1.
  pose proof (N.div_mod (N.lxor y (bn c')) 256 ltac:(discriminate)) as D2.
  pose proof (N.mod_lt (N.lxor y (bn c')) 256 ltac:(discriminate)) as M2.
  rewrite Q1 in D1. rewrite Q2 in D2. lia.
Qed.
Lemma reach2 (x1 x2 k : Z) : (-255 <= x1 <= 255 -> -510 <= x2 <= 510 ->
  1099511628211 * x1 + x2 = 18446744073709551616 * k -> x1 = 0)%Z.
Proof. lia. Qed.
Lemma reach3 (x1 x2 x3 k : Z) : (-255 <= x1 <= 255 -> -510 <= x2 <= 510 -> -510 <= x3 <= 510 ->
  956575116354345 * x1 + 1099511628211 * x2 + x3 = 18446744073709551616 * k -> x1 = 0)%Z.
Proof. lia. Qed.
Lemma reach4 (x1 x2 x3 x4 k : Z) : (-255 <= x1 <= 255 -> -510 <= x2 <= 510 -> -510 <= x3 <= 510 -> -510 <= x4 <= 510 ->
  624165263380053675 * x1 + 956575116354345 * x2 + 1099511628211 * x3 + x4 = 18446744073709551616 * k -> x1 = 0)%Z.
Proof. lia. Qed.
Lemma step_diff h h' c c' : exists x k, (-510 <= x <= 510 /\
  Z.of_N (fnv_step h c) - Z.of_N (fnv_step h' c') = 1099511628211 * (Z.of_N h - Z.of_N h') + x - 18446744073709551616 * k)%Z.
Proof.
  destruct (step_near h c) as (e & k & Le & E). destruct (step_near h' c') as (e' & k' & Le' & E').
  exists (e - e')%Z, (k - k')%Z. lia.
Qed.
Lemma first_byte h a b s t : length s = length t -> (length s <= 3)%nat ->
  fold_left fnv_step (a :: s) h = fold_left fnv_step (b :: t) h -> a = b.
Proof.
  intros Ls L E. cbn [fold_left] in E. apply (fnv_step_byte h). destruct (step_apart h a b) as (d & Ld & Ed).
  assert (d = 0)%Z; [|lia]. apply (f_equal Z.of_N) in E.
  destruct s as [|a1 s]; destruct t as [|b1 t]; try discriminate Ls; cbn [fold_left] in E; [lia|].
  destruct (step_diff (fnv_step h a) (fnv_step h b) a1 b1) as (x2 & k2 & L2 & E2).
  destruct s as [|a2 s]; destruct t as [|b2 t]; try discriminate Ls; cbn [fold_left] in E; [apply (reach2 d x2 k2); lia|].
  destruct (step_diff (fnv_step (fnv_step h a) a1) (fnv_step (fnv_step h b) b1) a2 b2) as (x3 & k3 & L3 & E3).
  destruct s as [|a3 s]; destruct t as [|b3 t]; try discriminate Ls; cbn [fold_left] in E.
  { apply (reach3 d x2 x3 (k3 + 1099511628211 * k2 - 65536 * d)); lia. }
  destruct (step_diff (fnv_step (fnv_step (fnv_step h a) a1) a2) (fnv_step (fnv_step (fnv_step h b) b1) b2) a3 b3)
    as (x4 & k4 & L4 & E4).
  destruct s; destruct t; try discriminate Ls; [|cbn [length] in L; lia].
  cbn [fold_left] in E.
  apply (reach4 d x2 x3 x4 (k4 + 1099511628211 * k3 + (1099511628211 * 1099511628211) * k2 - 72057594123452416 * d - 65536 * x2)); lia.
Qed.
(** User agents that differ within a window of four adjacent bytes have different hashes. *)
Lemma fnv_window v w : length v = length w -> (length v <= 4)%nat ->
  forall p s, fnv1 (p ++ v ++ s) = fnv1 (p ++ w ++ s) -> v = w.
Proof.
  revert w. induction v as [|a v IH]; intros [|b w] Lv L p s E; try discriminate Lv; [reflexivity|].
  cbn [length] in Lv, L.
  assert (a = b) as <-.
  { rewrite !app_assoc, fnv_suffix in E. unfold fnv1 in E. rewrite !fold_left_app in E.
    apply first_byte in E; [exact E|congruence|lia]. }
  f_equal. apply (IH w ltac:(congruence) ltac:(lia) (p ++ [a]) s). rewrite <- !app_assoc. exact E.
Qed.

(** ** Two user agents, one row *)
Definition two_uas (u1 u2 : bytes) : list act := [ASetUA u1; AGet GOS; ARecycle; ASetUA u2; AGet GOS].
Definition collide_check (T : tables) (u1 u2 s1 s2 : bytes) : bool :=
  is_bytes (alone T 63 1023 0 u1 GOS) s1 && is_bytes (alone T 63 1023 0 u2 GOS) s2 &&
  match run_seq (script T 63 1023 (two_uas u1 u2) (recycle 63 1023 new_ctx)) cs_empty with
  | Ok ([r1; r2], _) => is_bytes r2 s1
  | _ => false
  end && negb (beqs s1 s2) && negb (beqs u1 u2).
Lemma collide T u1 u2 s1 s2 : collide_check T u1 u2 s1 s2 = true ->
  u1 <> u2 /\ s1 <> s2 /\ alone T 63 1023 0 u1 GOS = Ok (VB s1) /\ alone T 63 1023 0 u2 GOS = Ok (VB s2) /\
  exists cf r, conc_run (start T 63 1023 [two_uas u1 u2]) cf /\ cf_threads cf = [Ret [r; Ok (VB s1)]].
Proof.
  unfold collide_check. intros H. apply andb_prop in H as [H N2]. apply andb_prop in H as [H N1]. apply andb_prop in H as [H S].
  apply andb_prop in H as [A1 A2]. apply is_bytes_ok in A1. apply is_bytes_ok in A2.
  split. { intros ->. rewrite beqs_refl in N2. discriminate. }
  split. { intros ->. rewrite beqs_refl in N1. discriminate. }
  split; [exact A1|]. split; [exact A2|].
  destruct (run_seq _ cs_empty) as [[rs st]|] eqn:E; [|discriminate].
  destruct rs as [|r1 [|r2 [|? ?]]]; try discriminate. apply is_bytes_ok in S as ->.
  exists (mkConf st [Ret [r1; Ok (VB s1)]]), r1. split; [exact (run_seq_conc _ _ _ _ E)|reflexivity].
Qed.

Lemma near_hash a b : near a b -> fnv1 a = fnv1 b -> a = b.
Proof. intros (p & v & w & s & -> & -> & L & L4) E. rewrite (fnv_window v w L L4 p s E). reflexivity. Qed.
Lemma near_free uas : (forall a b, In a uas -> In b uas -> near a b) -> collision_free uas.
Proof. intros H a b Ha Hb. apply near_hash. exact (H a b Ha Hb). Qed.
Lemma near_isolated T mC mD scripts cf :
  conc_run (start T mC mD scripts) cf ->
  (forall a b, In a (concat (map (fun l => asked l []) scripts)) -> In b (concat (map (fun l => asked l []) scripts)) -> near a b) ->
  forall i l rs, nth_error scripts i = Some l -> nth_error (cf_threads cf) i = Some (Ret rs) ->
  Forall2 (fun x r => detects T mC mD (fst (fst x)) -> snd x <> GModel -> as_alone T mC mD x r) (calls l [] 0) rs.
Proof. intros R H i l rs. apply (proj1 (isolated T mC mD scripts cf R)). apply near_free. exact H. Qed.
Lemma suffix_free s uas : collision_free (map (fun a => a ++ s) uas) <-> collision_free uas.
Proof.
  split; intros H.
  - intros a b Ha Hb E. apply (app_inv_tail s). apply H; [apply (in_map (fun a => a ++ s)); exact Ha|apply (in_map (fun a => a ++ s)); exact Hb|].
    apply fnv_suffix. exact E.
  - intros a b Ha Hb E. apply in_map_iff in Ha as (a' & <- & Ha). apply in_map_iff in Hb as (b' & <- & Hb).
    apply fnv_suffix in E. f_equal. exact (H _ _ Ha Hb E).
Qed.

(** ** The collision in the shipped tables *)
(** "Fedora )5qobx]D<+0", 0xE7, "=}", 0xD0, "8:", 0xE4 *)
Definition other_row : bytes :=
  bs "Fedora )5qobx]D<+0" ++ [nb 231] ++ bs "=}" ++ [nb 208] ++ bs "8:" ++ [nb 228].
Lemma shipped_collide_check : collide_check shipped (bs "NuttX/10.1") other_row (bs "NuttX") (bs "Fedora") = true.
Proof. vm_cast_no_check (eq_refl true). Qed.
Lemma shipped_collide : exists u1 u2 s1 s2,
  u1 <> u2 /\ s1 <> s2 /\
  alone shipped 63 1023 0 u1 GOS = Ok (VB s1) /\ alone shipped 63 1023 0 u2 GOS = Ok (VB s2) /\
  exists cf r, conc_run (start shipped 63 1023 [two_uas u1 u2]) cf /\ cf_threads cf = [Ret [r; Ok (VB s1)]].
Proof.
  exists (bs "NuttX/10.1"), other_row, (bs "NuttX"), (bs "Fedora").
  exact (collide shipped (bs "NuttX/10.1") other_row (bs "NuttX") (bs "Fedora") shipped_collide_check).
Qed.

Lemma near_of p v w s : length v = length w -> (length v <= 4)%nat -> near (p ++ v ++ s) (p ++ w ++ s).
Proof. intros L L4. exists p, v, w, s. auto. Qed.
Definition versions : list (list act) :=
  [[ASetUA (bs "Chrome/101.0"); AGet GBrowser; ASetUA (bs "Chrome/99.00"); AGet GBrowser];
   [ASetUA (bs "Chrome/99.00"); AGet GOS]].
Lemma versions_near :
  (forall a b, In a (concat (map (fun l => asked l []) versions)) ->
               In b (concat (map (fun l => asked l []) versions)) -> near a b) /\
  bs "Chrome/101.0" <> bs "Chrome/99.00" /\ ~ collision_free [bs "NuttX/10.1"; other_row].
Proof.
  split; [|split].
  - intros a b Ha Hb.
    assert (Q : forall x, In x (concat (map (fun l => asked l []) versions)) ->
                exists v, length v = 4%nat /\ x = bs "Chrome/" ++ v ++ bs "0").
    { intros x Hx. cbn [versions map concat asked app] in Hx.
      repeat (destruct Hx as [<-|Hx]; [(exists (bs "101."); split; reflexivity) || (exists (bs "99.0"); split; reflexivity)|]).
      destruct Hx. }
    destruct (Q a Ha) as (v & Lv & ->). destruct (Q b Hb) as (w & Lw & ->). apply near_of; lia.
  - discriminate.
  - intros H. assert (Q : bs "NuttX/10.1" = other_row); [|discriminate Q].
    apply H; [left; reflexivity|right; left; reflexivity|vm_compute; reflexivity].
Qed.

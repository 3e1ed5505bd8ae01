(** User agents that name Android, in the shipped database. *)
From Coq Require Import Lia.
From Verif Require Import Model_Base Model_Blob Model_Ctx Model_Regex Model_Shipped Model_Parse Spec_Select Spec_Dead Spec_Getters Spec_Android
  Proof_Select Proof_Shadow Proof_Index Proof_Live Proof_Device Proof_Tables Proof_Fine Proof_Android.
Open Scope nat_scope.

Definition some_phones : bool := match nth_error (dr_idx shipped) phones with Some l => swallows shipped l motorola | None => false end.
Lemma some_phones_ok : some_phones = true.
Proof. vm_cast_no_check (eq_refl true). Qed.
Lemma phones_are T l n : (match nth_error (dr_idx T) phones with Some l => swallows T l n | None => false end) = true -> nth_error (dr_idx T) phones = Some l -> swallows T l n = true.
Proof. intros H E. rewrite E in H. exact H. Qed.
Lemma phones_some T n : (match nth_error (dr_idx T) phones with Some l => swallows T l n | None => false end) = true -> exists l, nth_error (dr_idx T) phones = Some l.
Proof. intros H. destruct (nth_error (dr_idx T) phones) as [l|]; [exists l; reflexivity|discriminate H]. Qed.
Lemma lost_only : only_behind shipped motorola lost_brands = true.
Proof. vm_cast_no_check (eq_refl true). Qed.
Lemma galaxy_taken : taken shipped motorola galaxy 1411 (bs "Samsung") (bs "Motorola") = true.
Proof. vm_cast_no_check (eq_refl true). Qed.

Lemma applies_dec res buf ri m64 ua : applies res buf ri m64 ua \/ ~ applies res buf ri m64 ua.
Proof.
  unfold applies. destruct (BinInt.Z.leb_spec 0 ri) as [L|L].
  - destruct (nth_error res (BinInt.Z.to_nat ri)) as [r|] eqn:E.
    + destruct (re_find r ua) as [m|] eqn:F.
      * left. left. split; [exact L|]. exists r. split; [reflexivity|]. rewrite F. discriminate.
      * right. intros [(_ & r' & E' & K)|(L' & _)]; [|lia]. injection E' as <-. exact (K F).
    + right. intros [(_ & r' & E' & _)|(L' & _)]; [discriminate E'|lia].
  - destruct (slice64 buf m64) as [s|] eqn:E.
    + destruct (substr_hit ua s) eqn:O.
      * left. right. split; [exact L|]. exists s. split; [apply text_slice; exact E|apply substr_occurs; exact O].
      * right. intros [(L' & _)|(_ & s' & X & K)]; [lia|]. apply text_slice in X. rewrite E in X. injection X as <-. apply substr_occurs in K. congruence.
    + right. intros [(L' & _)|(_ & s' & X & _)]; [lia|]. apply text_slice in X. congruence.
Qed.
Lemma some_picked {A} (P : A -> Prop) (D : forall x, P x \/ ~ P x) l : forall n x, nth_error l n = Some x -> P x -> exists i, i <= n /\ picked P l i.
Proof.
  induction l as [|y l IH]; intros n x N X; [destruct n; discriminate N|]. destruct (D y) as [Y|Y].
  - exists 0. split; [lia|]. exists y. split; [reflexivity|]. split; [exact Y|]. intros j z J. lia.
  - destruct n as [|n]; cbn in N; [injection N as ->; contradiction|]. destruct (IH n x N X) as (i & I & z & Z & PZ & B). exists (S i). split; [lia|].
    exists z. split; [exact Z|]. split; [exact PZ|]. intros [|j] w J W; cbn in W; [injection W as <-; exact Y|]. exact (B j w ltac:(lia) W).
Qed.
Lemma android_first T n : compiled (dr_re T) -> (match nth_error (dr_idx T) phones with Some l => swallows T l n | None => false end) = true ->
  forall ua, names_android ua -> exists l i, nth_error (dr_idx T) phones = Some l /\ i <= n /\ picked (device_applies T ua) l i.
Proof.
  intros CO H ua A. destruct (phones_some T n H) as [l E]. destruct (swallow_applies T CO l n ua (phones_are T l n H E) A) as (x & N & X).
  destruct (some_picked (device_applies T ua) (fun y => applies_dec _ _ _ _ _) l n x N X) as (i & I & P). exists l, i. auto.
Qed.
Lemma shipped_android ua : names_android ua -> exists l i, nth_error (dr_idx shipped) phones = Some l /\ i <= motorola /\ picked (device_applies shipped ua) l i.
Proof. exact (android_first shipped motorola dr_compiled some_phones_ok ua). Qed.

Lemma android_brands T n mC mD h ua s : compiled (dr_re T) -> device_sane T -> (match nth_error (dr_idx T) phones with Some l => swallows T l n | None => false end) = true ->
  short ua -> names_android ua -> on mD 2 -> alone T mC mD h ua GBrand = Ok (VB s) ->
  exists k l i x, nth_error (dr_idx T) k = Some l /\ nth_error l i = Some x /\ brand_is T x s /\ (k = phones -> i <= n) /\ k <> 4.
Proof.
  intros CO SA H L A. destruct (phones_some T n H) as [l E]. exact (known_brand T l n E mC mD h ua s SA L (swallow_applies T CO l n ua (phones_are T l n H E) A)).
Qed.
Lemma shipped_brands mC mD h ua s : short ua -> names_android ua -> on mD 2 -> alone shipped mC mD h ua GBrand = Ok (VB s) ->
  exists k l i x, nth_error (dr_idx shipped) k = Some l /\ nth_error l i = Some x /\ brand_is shipped x s /\ (k = phones -> i <= motorola) /\ k <> 4.
Proof. exact (android_brands shipped motorola mC mD h ua s dr_compiled shipped_device_sane some_phones_ok). Qed.
Lemma android_lost T n names mC mD h ua s : compiled (dr_re T) -> device_sane T -> (match nth_error (dr_idx T) phones with Some l => swallows T l n | None => false end) = true ->
  only_behind T n names = true -> short ua -> names_android ua -> on mD 2 -> In s names -> alone T mC mD h ua GBrand <> Ok (VB s).
Proof.
  intros CO SA H O L A M I B. destruct (android_brands T n mC mD h ua s CO SA H L A M B) as (k & l & i & x & K & X & BR & R1 & R2).
  destruct (phones_some T n H) as [l0 E]. exact (behind T l0 n E names s k l i x O I K X R1 R2 BR).
Qed.
Lemma shipped_lost mC mD h ua s : short ua -> names_android ua -> on mD 2 -> In s lost_brands -> alone shipped mC mD h ua GBrand <> Ok (VB s).
Proof. exact (android_lost shipped motorola lost_brands mC mD h ua s dr_compiled shipped_device_sane some_phones_ok lost_only). Qed.

Lemma android_wrong T n ua m right wrong : compiled (dr_re T) -> device_sane T -> short ua -> (forall mC mD h, alone T mC mD h ua GBrand <> Panic) ->
  (match nth_error (dr_idx T) phones with Some l => swallows T l n | None => false end) = true -> taken T n ua m right wrong = true ->
  (exists l y, nth_error (dr_idx T) phones = Some l /\ nth_error l m = Some y /\ device_applies T ua y /\ brand_is T y right) /\
  forall mC mD h, on mD 2 -> alone T mC mD h ua GBrand = Ok (VB wrong).
Proof.
  intros CO SA L NP H K. destruct (phones_some T n H) as [l E]. split.
  - destruct (taken_ok T CO l n E ua m right wrong 2%N K ltac:(discriminate)) as [(y & Y) _]. exists l, y. tauto.
  - intros mC mD h M. exact (taken_brand T CO l n E ua m right wrong mC mD h SA L (NP mC mD h) K M).
Qed.
Lemma galaxy_short : short galaxy.
Proof. unfold short. vm_compute. reflexivity. Qed.
Lemma galaxy_wrong : (exists l y, nth_error (dr_idx shipped) phones = Some l /\ nth_error l 1411 = Some y /\ device_applies shipped galaxy y /\ brand_is shipped y (bs "Samsung")) /\
  forall mC mD h, on mD 2 -> alone shipped mC mD h galaxy GBrand = Ok (VB (bs "Motorola")).
Proof.
  exact (android_wrong shipped motorola galaxy 1411 (bs "Samsung") (bs "Motorola") dr_compiled shipped_device_sane galaxy_short
    (fun mC mD h => shipped_device_no_panic mC mD h galaxy GBrand galaxy_short (or_intror (or_introl eq_refl))) some_phones_ok galaxy_taken).
Qed.
Lemma galaxy_android : names_android galaxy.
Proof.
  exists (bs "Mozilla/5.0 (Linux; "), x31, (skipn 29 galaxy). split; [vm_compute; reflexivity|]. left. vm_compute. split; discriminate.
Qed.

(** An entry that applies and has a brand. *)
Definition phone_is (T : tables) (m : nat) (ua b : bytes) : bool :=
  let t := numbered (dr_re T) in let bt := numbered (dr_buf T) in
  match nth_error (dr_idx T) phones with
  | Some l => match nth_error l m with Some x => if owned t bt ua (runes ua) x then brand_at bt x b else false | None => false end
  | None => false
  end.
Lemma phone_is_ok T m ua b : compiled (dr_re T) -> phone_is T m ua b = true ->
  exists l x, nth_error (dr_idx T) phones = Some l /\ nth_error l m = Some x /\ brand_is T x b /\ device_applies T ua x.
Proof.
  unfold phone_is. cbv zeta. intros CO H. destruct (nth_error (dr_idx T) phones) as [l|]; [|discriminate H]. destruct (nth_error l m) as [x|] eqn:X; [|discriminate H].
  destruct (owned _ _ ua _ x) eqn:O in H; [|discriminate H]. exists l, x. split; [reflexivity|]. split; [exact X|].
  split; [exact (proj2 (brand_at_is T x b H b) eq_refl)|exact (owned_applies T CO ua x O)].
Qed.
Lemma oneplus_check : phone_is shipped 1164 (bs "Linux; Android 11; OnePlus 8") (bs "OnePlus") = true.
Proof. vm_cast_no_check (eq_refl true). Qed.
Lemma oneplus_case : exists l x, nth_error (dr_idx shipped) phones = Some l /\ nth_error l 1164 = Some x /\ brand_is shipped x (bs "OnePlus") /\
  device_applies shipped (bs "Linux; Android 11; OnePlus 8") x.
Proof. exact (phone_is_ok shipped 1164 _ _ dr_compiled oneplus_check). Qed.

(** Two user agents that differ in the case of letters run through the detections side by side. *)
From Verif Require Import Model_Base Model_CacheEntry Model_Version Model_Ctx Model_Parse Spec_Getters Spec_Select Spec_Case
  Proof_Base Proof_Select Proof_Safe Proof_Case.
From Coq Require Import Lia ZifyBool ZifyNat ZifyN.

(** ** Texts *)
Lemma letters_refl s : same_letters s s.
Proof. induction s; constructor; [reflexivity|assumption]. Qed.
Lemma letter_beq k a b : (bn k < 65 \/ 90 < bn k < 97)%N -> same_letter a b -> beq a k = beq b k.
Proof.
  intros K E. unfold beq. unfold same_letter, upper in E.
  destruct ((97 <=? bn a)%N && (bn a <=? 122)%N) eqn:A, ((97 <=? bn b)%N && (bn b <=? 122)%N) eqn:B; lia.
Qed.
Lemma letters_app a b a' b' : same_letters a a' -> same_letters b b' -> same_letters (a ++ b) (a' ++ b').
Proof. intros A B. apply Forall2_app; assumption. Qed.
Lemma letters_index k s t : (bn k < 65 \/ 90 < bn k < 97)%N -> same_letters s t -> index_byte s k = index_byte t k.
Proof. intros K S. induction S as [|a b s t E S IH]; [reflexivity|]. cbn [index_byte]. rewrite (letter_beq k a b K E), IH. reflexivity. Qed.
Lemma letters_trim_left k s t : (bn k < 65 \/ 90 < bn k < 97)%N -> same_letters s t -> same_letters (trim_left s k) (trim_left t k).
Proof.
  intros K S. induction S as [|a b s t E S IH]; [constructor|]. cbn [trim_left]. rewrite (letter_beq k a b K E).
  destruct (beq b k); [exact IH|constructor; assumption].
Qed.
Lemma letters_trim_right k s t : (bn k < 65 \/ 90 < bn k < 97)%N -> same_letters s t -> same_letters (trim_right s k) (trim_right t k).
Proof.
  intros K S. induction S as [|a b s t E S IH]; [constructor|]. cbn [trim_right]. rewrite (letter_beq k a b K E).
  destruct IH; [destruct (beq b k); repeat constructor; exact E|]. constructor; [exact E|constructor; assumption].
Qed.
Lemma letters_trim k s t : (bn k < 65 \/ 90 < bn k < 97)%N -> same_letters s t -> same_letters (trim s k) (trim t k).
Proof. intros K S. apply letters_trim_right; [exact K|]. apply letters_trim_left; assumption. Qed.
Lemma letters_dots s t : same_letters s t -> same_letters (dots s) (dots t).
Proof.
  intros S. unfold dots. induction S as [|a b s t E S IH]; cbn [map]; constructor; [|exact IH].
  rewrite (letter_beq x5f a b) by (try exact E; cbn; lia). destruct (beq b x5f); [reflexivity|exact E].
Qed.
Lemma letters_leb t : Forall (fun x => (bn x < 65)%N) t -> forall a b, same_letters a b -> str_leb t a = str_leb t b.
Proof.
  induction 1 as [|x t Hx Ht IH]; intros a b S; [reflexivity|]. destruct S as [|y z a b E S]; [reflexivity|]. cbn [str_leb]. rewrite (IH a b S).
  rewrite !(N.eqb_sym (bn x)) || idtac. unfold beq. unfold same_letter, upper in E.
  destruct ((97 <=? bn y)%N && (bn y <=? 122)%N) eqn:A, ((97 <=? bn z)%N && (bn z <=? 122)%N) eqn:B; destruct (str_leb t b); lia.
Qed.
Definition plain_fn (f : engineFn) : bool := forallb (fun te => forallb (fun x => (bn x <? 65)%N) (fst te)) (fst f).
Lemma letters_ef f a b : plain_fn f = true -> same_letters a b -> ef_apply f a = ef_apply f b.
Proof.
  unfold plain_fn, ef_apply. destruct f as [l d]. cbn [fst snd]. intros P S. induction l as [|[t e] l IH]; [reflexivity|]. cbn [forallb fst] in P.
  apply andb_prop in P as [P1 P2]. cbn [ef_apply_list]. rewrite (letters_leb t) with (b := b); [rewrite (IH P2); reflexivity| |exact S].
  apply Forall_forall. intros x I. rewrite forallb_forall in P1. specialize (P1 x I). lia.
Qed.

Definition same_res {A B} (Q : A -> B -> Prop) (r : res A) (r' : res B) : Prop :=
  match r, r' with Ok a, Ok b => Q a b | Panic, Panic => True | _, _ => False end.
Lemma letters_slice s t lo hi : same_letters s t -> same_res same_letters (slice s lo hi) (slice t lo hi).
Proof.
  intros S. unfold slice. rewrite (Forall2_length S). destruct (((lo <=? hi)%N && (hi <=? N.of_nat (length t))%N)); [|exact I].
  cbn [same_res]. apply Forall2_firstn, Forall2_skipn, S.
Qed.
Lemma letters_major s t : same_letters s t -> same_letters (get_major s) (get_major t).
Proof.
  intros S. unfold get_major. rewrite (letters_index x2e s t) by (try exact S; cbn; lia).
  destruct (index_byte t x2e); [apply Forall2_firstn; exact S|constructor].
Qed.

Lemma leb_neg z : (0 <=? z)%Z = false -> (z < 0)%Z.
Proof. lia. Qed.
Lemma eqb_neq0 n : (n =? 0)%N = false -> n <> 0%N.
Proof. lia. Qed.

(** ** Two runs *)
Section Two.
Variable T : tables.
Variables ua ua' : bytes.
Variable mD : N.
Hypothesis HS : same_letters ua ua'.

(** The contexts agree but for the user agent, the letters in the buffer and, where the OS name may count, the flag
    that forces a desktop. *)
Definition sim (c c' : ctx) : Prop :=
  c_src c = ua /\ c_maskD c = mD /\
  exists b buf, c' = up_bits b (up_src ua' (up_buf buf c)) /\ same_letters (c_buf c) buf /\
    forall i, i <> flagDeviceForceDesktop \/ N.land mD DeviceTypeNotebook = 0%N -> check_bit b i = check_bit (c_bits c) i.

Definition rel {A B} (Q : A -> B -> Prop) (m : M A) (m' : M B) : Prop :=
  forall c c', sim c c' -> sim (fst (m c)) (fst (m' c')) /\ same_res Q (snd (m c)) (snd (m' c')).
Definition relP {A B} (Q : A -> B -> Prop) (p : P A) (p' : P B) : Prop :=
  forall c c', sim c c' -> sim (fst (run_cold (p c))) (fst (run_cold (p' c'))) /\ same_res Q (snd (run_cold (p c))) (snd (run_cold (p' c'))).

Lemma rel_bind {A B A' B'} (Q : A -> A' -> Prop) (R : B -> B' -> Prop) m m' f f' :
  rel Q m m' -> (forall a a', Q a a' -> rel R (f a) (f' a')) -> rel R (mbind m f) (mbind m' f').
Proof.
  intros Hm Hf c c' S. unfold mbind. destruct (Hm c c' S) as [S1 R1]. destruct (m c) as [c1 [a|]], (m' c') as [c1' [a'|]]; cbn [fst snd same_res] in *; try contradiction; [|auto].
  apply Hf; assumption.
Qed.
Lemma rel_ret {A B} (Q : A -> B -> Prop) a b : Q a b -> rel Q (mret a) (mret b).
Proof. intros H c c' S. split; [exact S|exact H]. Qed.
Lemma rel_lift {A B} (Q : A -> B -> Prop) r r' : same_res Q r r' -> rel Q (mlift r) (mlift r').
Proof. intros H c c' S. split; [exact S|exact H]. Qed.
Definition got {A} (r : res A) (a b : A) : Prop := a = b /\ r = Ok a.
Lemma rel_lift_same {A} (r : res A) : rel (got r) (mlift r) (mlift r).
Proof. apply rel_lift. destruct r; [split; reflexivity|exact I]. Qed.
Lemma rel_src : rel (fun a b => a = ua /\ b = ua') (mget c_src) (mget c_src).
Proof. intros c c' S. split; [exact S|]. destruct S as (E & _ & b & buf & -> & _). split; [exact E|reflexivity]. Qed.
Lemma rel_get {A} (f : ctx -> A) : (forall b buf c, f (up_bits b (up_src ua' (up_buf buf c))) = f c) -> rel eq (mget f) (mget f).
Proof. intros H c c' S. split; [exact S|]. destruct S as (_ & _ & b & buf & -> & _). cbn. symmetry. apply H. Qed.
Lemma rel_maskD : rel (fun a b => a = mD /\ b = mD) (mget c_maskD) (mget c_maskD).
Proof. intros c c' S. split; [exact S|]. destruct S as (_ & E & b & buf & -> & _). split; [exact E|exact E]. Qed.
Lemma rel_mod f : (forall b buf c, f (up_bits b (up_src ua' (up_buf buf c))) = up_bits b (up_src ua' (up_buf buf (f c)))) ->
  (forall c, c_src (f c) = c_src c /\ c_maskD (f c) = c_maskD c /\ c_buf (f c) = c_buf c /\ c_bits (f c) = c_bits c) -> rel eq (mmod f) (mmod f).
Proof.
  intros H K c c' (E & D & b & buf & -> & L & Bt). cbn [mmod fst snd]. split; [|reflexivity]. destruct (K c) as (K1 & K2 & K3 & K4).
  split; [congruence|]. split; [congruence|]. exists b, buf. split; [apply H|]. rewrite K3, K4. auto.
Qed.
Lemma rel_flag i : rel eq (mmod (set_flag i)) (mmod (set_flag i)).
Proof.
  intros c c' (E & D & b & buf & -> & L & Bt). cbn [mmod fst snd]. split; [|reflexivity]. split; [exact E|]. split; [exact D|].
  exists (set_bit b i), buf. split; [reflexivity|]. split; [exact L|]. intros j J. cbn [set_flag up_bits c_bits].
  destruct (N.eq_dec i j) as [->|N]; [rewrite !check_set_same; reflexivity|]. rewrite !check_set_other by exact N. apply Bt. exact J.
Qed.
Lemma rel_check i : i <> flagDeviceForceDesktop \/ N.land mD DeviceTypeNotebook = 0%N ->
  rel eq (mget (fun c => check_bit (c_bits c) i)) (mget (fun c => check_bit (c_bits c) i)).
Proof. intros J c c' S. split; [exact S|]. destruct S as (_ & _ & b & buf & -> & _ & Bt). cbn. symmetry. apply Bt. exact J. Qed.
Lemma rel_append x y : same_letters x y -> rel eq (append_buf x) (append_buf y).
Proof.
  intros X c c' (E & D & b & buf & -> & L & Bt). cbn. split; [|reflexivity]. split; [exact E|]. split; [exact D|].
  exists b, (buf ++ y). split; [reflexivity|]. split; [|exact Bt]. apply letters_app; assumption.
Qed.
Lemma rel_len : rel eq buf_len buf_len.
Proof. intros c c' S. split; [exact S|]. destruct S as (_ & _ & b & buf & -> & L & _). cbn. f_equal. exact (Forall2_length L). Qed.
Lemma rel_buf : rel same_letters (mget c_buf) (mget c_buf).
Proof. intros c c' S. split; [exact S|]. destruct S as (_ & _ & b & buf & -> & L & _). exact L. Qed.
Lemma rel_weaken {A B} (Q R : A -> B -> Prop) m m' : (forall a b, Q a b -> R a b) -> rel Q m m' -> rel R m m'.
Proof.
  intros H K c c' S. destruct (K c c' S) as [S1 R1]. split; [exact S1|]. destruct (snd (m c)), (snd (m' c')); cbn in *; auto.
Qed.

Ltac units := repeat match goal with u : unit |- _ => destruct u end.
Ltac step1 :=
  match goal with
  | |- rel _ (mbind (mlift ?r) _) (mbind (mlift ?r) _) => eapply rel_bind; [apply rel_lift_same|intros ? ? [<- ?]]
  | |- rel _ (mbind (mget c_src) _) _ => eapply rel_bind; [apply rel_src|intros ? ? [-> ->]]
  | |- rel _ (mbind (mget (fun c => check_bit _ _)) _) _ => eapply rel_bind; [apply rel_check; left; discriminate|intros ? ? <-]
  | |- rel _ (mbind (mget _) _) _ => eapply rel_bind; [apply rel_get; reflexivity|intros ? ? <-]
  | |- rel _ (mbind (mmod (set_flag _)) _) _ => eapply rel_bind; [apply rel_flag|intros ? ? <-]
  | |- rel _ (mbind (mmod _) _) _ => eapply rel_bind; [apply rel_mod; [reflexivity|intros; repeat split]|intros ? ? <-]
  | |- rel _ (mbind (append_buf _) _) _ => eapply rel_bind; [apply rel_append|intros ? ? <-]
  | |- rel _ (mbind buf_len _) _ => eapply rel_bind; [apply rel_len|intros ? ? <-]
  | |- rel eq (mmod (set_flag _)) _ => apply rel_flag
  | |- rel eq (mmod _) _ => apply rel_mod; [reflexivity|intros; repeat split]
  | |- rel _ (mret _) (mret _) => apply rel_ret; try reflexivity
  | |- rel _ (mbind _ _) (mbind _ _) => eapply (rel_bind eq); [|intros ? ? <-]
  | |- rel _ (if ?b then _ else _) (if ?b then _ else _) => destruct b
  | |- rel _ (match ?o with _ => _ end) (match ?o with _ => _ end) => destruct o
  end.
Ltac step := step1; units.

Lemma index_in {A} (l : list A) i x : index l i = Ok x -> In x l.
Proof. unfold index. destruct (nth_error l (N.to_nat i)) eqn:E; [|discriminate]. intros H. injection H as <-. eapply nth_error_In. exact E. Qed.
Lemma zindex_in {A} (l : list A) i x : zindex l i = Ok x -> In x l.
Proof. unfold zindex. destruct (i <? 0)%Z; [discriminate|]. apply index_in. Qed.

(** *** Client *)
Hypothesis agree_client : forall r, In r (cr_re T ++ cr_evre T ++ [re_blink T]) -> re_find r ua = re_find r ua'.
Hypothesis text_client : forall t, client_text T t -> substr_hit ua t = substr_hit ua' t.
Hypothesis plain_ef : forall f, In f (cr_ef T) -> plain_fn f = true.

Lemma agree_match r : re_find r ua = re_find r ua' -> re_match r ua = re_match r ua' /\ re_groups r ua = re_groups r ua'.
Proof. unfold re_match, re_groups. intros ->. auto. Qed.

Lemma engine_loop_agree l : incl l (concat (cr_idx T)) -> engine_loop T ua l = engine_loop T ua' l.
Proof.
  induction l as [|v l IH]; intros I; [reflexivity|]. cbn [engine_loop]. pose proof (I v (or_introl eq_refl)) as Iv. rewrite IH by (intros x Hx; apply I; right; exact Hx).
  destruct (0 <=? ct_matchRI v)%Z eqn:E.
  - destruct (zindex (cr_re T) (ct_matchRI v)) as [re|] eqn:Z; [|reflexivity]. cbn [rbind].
    destruct (agree_match re) as [-> _]; [|reflexivity]. apply agree_client, in_or_app. left. eapply zindex_in. exact Z.
  - destruct (slice64 (cr_buf T) (ct_match64 v)) as [t|] eqn:Z; [|reflexivity]. cbn [rbind]. rewrite (text_client t); [reflexivity|].
    exists v. split; [exact Iv|]. split; [apply leb_neg, E|exact Z].
Qed.
Lemma rel_engine v : rel eq (eval_engine T v) (eval_engine T v).
Proof.
  unfold eval_engine. step; [repeat step|]. step.
  { destruct (negb (ct_engineFI v =? -1)%Z); [|repeat step]. step. step.
    eapply (rel_bind same_letters); [apply rel_lift, letters_slice, HS|]. intros raw raw' R. step.
    rewrite (letters_ef a0 (get_major raw) (get_major raw')); [repeat step|apply plain_ef; eapply zindex_in; eassumption|apply letters_major, R]. }
  step. step.
  { destruct (a =? 0)%N; [|repeat step]. step. step. step. rewrite <- engine_loop_agree.
    - repeat step.
    - intros x Hx. apply in_concat. exists a0. split; [eapply index_in; eassumption|exact Hx]. }
  step. step.
  { destruct (negb (a0 =? 0)%N); [|repeat step]. destruct (amap_get (cr_ev T) a0) as [ri|]; [|repeat step]. step. step. cbv zeta.
    destruct (agree_match a1) as [_ G]; [apply agree_client, in_or_app; right; apply in_or_app; left; eapply zindex_in; eassumption|]. rewrite <- G. repeat step. }
  step. step. destruct (agree_match (re_blink T)) as [G _]; [apply agree_client, in_or_app; right; apply in_or_app; right; left; reflexivity|]. rewrite <- G. repeat step.
Qed.
Lemma rel_client_version v r : re_find r ua = re_find r ua' -> rel eq (client_version v r) (client_version v r).
Proof.
  intros H. apply agree_match in H as [_ G]. unfold client_version. destruct (negb (ct_version64 v =? 0)%N); [repeat step|].
  destruct (negb (ct_browserVI v =? -1)%Z); [|repeat step]. step. cbv zeta. rewrite <- G. repeat step.
Qed.
Lemma rel_client_loop l : incl l (concat (cr_idx T)) -> rel eq (client_loop T l) (client_loop T l).
Proof.
  induction l as [|v l IH]; intros I; cbn [client_loop]; [repeat step|]. pose proof (I v (or_introl eq_refl)) as Iv.
  assert (IHl : rel eq (client_loop T l) (client_loop T l)) by (apply IH; intros x Hx; apply I; right; exact Hx).
  destruct (0 <=? ct_matchRI v)%Z eqn:E.
  - step. assert (F : re_find a ua = re_find a ua') by (apply agree_client, in_or_app; left; eapply zindex_in; eassumption).
    step. destruct (agree_match a F) as [<- _]. destruct (re_match a ua); [|exact IHl]. step; [apply rel_client_version, F|]. repeat step.
  - step. step. rewrite <- (text_client a); [|exists v; split; [exact Iv|]; split; [apply leb_neg, E|assumption]]. destruct (substr_hit ua a); [repeat step|exact IHl].
Qed.
Lemma rel_eval_client k : rel eq (eval_client T k) (eval_client T k).
Proof.
  unfold eval_client. step. step. step.
  - apply rel_client_loop. intros x Hx. apply in_concat. exists a. split; [eapply index_in; eassumption|exact Hx].
  - destruct a1; [|repeat step]. step. step; [destruct (k =? cpBrowser); [apply rel_engine|repeat step]|repeat step].
Qed.
Lemma rel_client_try l : rel eq (client_try T l) (client_try T l).
Proof.
  induction l as [|[t k] l IH]; cbn [client_try]; [repeat step|]. step. destruct (negb (N.land a t =? 0)%N); [|exact IH].
  step; [apply rel_eval_client|]. destruct a0; [repeat step|exact IH].
Qed.

(** *** Operating system *)
Hypothesis agree_os : forall r, In r (or_re T) -> re_find r ua = re_find r ua'.
Hypothesis text_os : forall t, os_text T t -> substr_hit ua t = substr_hit ua' t.
Hypothesis no_rules : forall r, In r (or_re T) -> in_list (re_src r) osMaybeMacRE = false /\ in_list (re_src r) osMaybeNotANDRE = false.

Lemma rel_os_ver_loop l : incl l (or_ov T) -> rel eq (os_ver_loop T l) (os_ver_loop T l).
Proof.
  induction l as [|v l IH]; intros I; cbn [os_ver_loop]; [repeat step|]. pose proof (I v (or_introl eq_refl)) as Iv.
  assert (IHl : rel eq (os_ver_loop T l) (os_ver_loop T l)) by (apply IH; intros x Hx; apply I; right; exact Hx).
  destruct (0 <=? ov_matchRI v)%Z eqn:E.
  - step. step. destruct (agree_match a) as [<- <-]; [apply agree_os; eapply zindex_in; eassumption|]. destruct (re_match a ua); [|exact IHl]. cbv zeta. repeat step.
  - destruct (negb (ov_match64 v =? 0)%N); [|exact IHl]. step. step. rewrite <- (text_os a); [|right; exists v; split; [exact Iv|]; split; [apply leb_neg, E|assumption]].
    destruct (substr_hit ua a); [repeat step|exact IHl].
Qed.
Lemma rel_os_eval_ver r : rel eq (os_eval_ver T r) (os_eval_ver T r).
Proof.
  unfold os_eval_ver. step. step. apply rel_os_ver_loop. apply slice_Ok_inv in H as (_ & _ & u & w & E & _). intros x Hx.
  rewrite E. apply in_or_app. right. apply in_or_app. left. exact Hx.
Qed.
Lemma rel_os_hit v r : re_find r ua = re_find r ua' -> rel eq (os_hit T v r) (os_hit T v r).
Proof.
  intros H. apply agree_match in H as [_ G]. unfold os_hit. step. step. cbv zeta. rewrite <- G. step; [repeat step|].
  destruct (negb (ot_versions64 v =? 0)%N); [apply rel_os_eval_ver|repeat step].
Qed.
Lemma rel_os_loop a b a' b' l : incl l (or_os T) -> rel eq (os_loop T a b l) (os_loop T a' b' l).
Proof.
  induction l as [|v l IH]; intros I; cbn [os_loop]; [repeat step|]. pose proof (I v (or_introl eq_refl)) as Iv.
  assert (IHl : rel eq (os_loop T a b l) (os_loop T a' b' l)) by (apply IH; intros x Hx; apply I; right; exact Hx).
  destruct (0 <=? ot_matchRI v)%Z eqn:E.
  - step. assert (Ir : In a0 (or_re T)) by (eapply zindex_in; eassumption). destruct (no_rules a0 Ir) as [-> ->]. cbn [andb]. step.
    destruct (agree_match a0 (agree_os a0 Ir)) as [<- _]. destruct (re_match a0 ua); [|exact IHl]. step; [apply rel_os_hit, agree_os, Ir|repeat step].
  - destruct (negb (ot_match64 v =? 0)%N); [|exact IHl]. step. step. rewrite <- (text_os a0); [|left; exists v; split; [exact Iv|]; split; [apply leb_neg, E|assumption]].
    destruct (substr_hit ua a0); [repeat step|exact IHl].
Qed.
Lemma rel_eval_os : rel eq (eval_os T) (eval_os T).
Proof.
  unfold eval_os. step. step. step; [apply rel_os_loop; intros x Hx; exact Hx|]. repeat step.
Qed.
Lemma letters_slice64 s t e : same_letters s t -> same_res same_letters (slice64 s e) (slice64 t e).
Proof. apply letters_slice. Qed.
Lemma rel_read_os : rel same_letters (read_os T) (read_os T).
Proof.
  unfold read_os. step. destruct (negb (a =? 0)%N); [|apply rel_ret, letters_refl]. step. step.
  eapply (rel_bind same_letters).
  - apply rel_lift, letters_slice64. destruct a0; [exact HS|apply letters_refl].
  - intros s t S. apply rel_ret, letters_trim; [left; reflexivity|exact S].
Qed.

(** *** Device *)
Hypothesis agree_device : forall r, In r (dr_re T ++ [re_tablet T; re_mobile T]) -> re_find r ua = re_find r ua'.
Hypothesis agree_vendor : forall r, In r (vr_re T) -> re_match r ua = re_match r ua'.
Hypothesis text_device : forall t, device_text T t -> substr_hit ua t = substr_hit ua' t.

Lemma rel_mne e : rel eq (device_buf_mne T e) (device_buf_mne T e).
Proof. unfold device_buf_mne. repeat step. apply letters_refl. Qed.
Lemma rel_mne1_loop raw m : forall fuel p, rel eq (mne1_loop fuel raw ua m p) (mne1_loop fuel raw ua' m p).
Proof.
  induction fuel as [|fuel IH]; intros p; cbn [mne1_loop]; [repeat step|]. step. cbv zeta. destruct (length m <=? b2i a * 2 + 1); [repeat step|]. step. step.
  destruct ((a0 <? 0)%Z || (a1 <? 0)%Z); [repeat step|]. eapply (rel_bind same_letters); [apply rel_lift, letters_slice, HS|]. intros s t S.
  step; [exact S|]. destruct (index_byte_at raw x24 (p + 1)) as [q|].
  - eapply (rel_bind eq); [|intros ? ? <-; apply IH]. destruct (p + 1 + 1 <? q); [|repeat step]. step. apply rel_append, letters_refl.
  - step. apply rel_append, letters_refl.
Qed.
Lemma rel_mne1 e r : re_find r ua = re_find r ua' -> rel eq (device_buf_mne1 T e r) (device_buf_mne1 T e r).
Proof.
  intros H. apply agree_match in H as [_ G]. unfold device_buf_mne1. step. destruct (index_byte a x24) as [p|].
  - step. step; [apply letters_refl|]. step. rewrite <- G. step; [apply rel_mne1_loop|]. repeat step.
  - repeat step. apply letters_refl.
Qed.
Lemma rel_typ r : rel eq (mlift r : M N) (mlift r).
Proof. apply rel_lift. destruct r; [reflexivity|exact I]. Qed.
Lemma rel_model_loop y def l : rel eq (model_loop T y def l) (model_loop T y def l).
Proof.
  induction l as [|i l IHl]; cbn [model_loop]; [repeat step|]. step. pose proof (index_in _ _ _ H) as Im. destruct (0 <=? mt_matchRI a)%Z eqn:E.
  - step. assert (F : re_find a0 ua = re_find a0 ua') by (apply agree_device, in_or_app; left; eapply zindex_in; eassumption).
    step. destruct (agree_match a0 F) as [<- _]. destruct (re_match a0 ua); [|exact IHl]. step; [apply rel_mne1, F|apply rel_typ].
  - destruct (negb (mt_match64 a =? 0)%N); [|exact IHl]. step. step. rewrite <- (text_device a0); [|right; exists a; split; [exact Im|]; split; [apply leb_neg, E|assumption]].
    destruct (substr_hit ua a0); [|exact IHl]. step; [apply rel_mne|apply rel_typ].
Qed.
Lemma rel_device_hit y def : rel eq (device_hit T y def) (device_hit T y def).
Proof.
  unfold device_hit. step. destruct (negb (dt_modelSI y =? -1)%Z).
  - step. step; [|apply rel_typ]. destruct (negb (dt_matchRI y =? -1)%Z); [|apply rel_mne]. step. apply rel_mne1, agree_device, in_or_app. left. eapply zindex_in. eassumption.
  - destruct (negb (dt_models64 y =? 0)%N); [apply rel_model_loop|apply rel_typ].
Qed.
Lemma device_loop_agree l : incl l (concat (dr_idx T)) -> device_loop T ua l = device_loop T ua' l.
Proof.
  induction l as [|v l IH]; intros I; [reflexivity|]. cbn [device_loop]. pose proof (I v (or_introl eq_refl)) as Iv. rewrite IH by (intros x Hx; apply I; right; exact Hx).
  destruct (0 <=? dt_matchRI v)%Z eqn:E.
  - destruct (zindex (dr_re T) (dt_matchRI v)) as [re|] eqn:Z; [|reflexivity]. cbn [rbind].
    destruct (agree_match re) as [-> _]; [|reflexivity]. apply agree_device, in_or_app. left. eapply zindex_in. exact Z.
  - destruct (slice64 (dr_buf T) (dt_match64 v)) as [t|] eqn:Z; [|reflexivity]. cbn [rbind]. rewrite (text_device t); [reflexivity|].
    left. exists v. split; [exact Iv|]. split; [apply leb_neg, E|exact Z].
Qed.
Lemma rel_device_body k def : rel eq (eval_device_body T k def) (eval_device_body T k def).
Proof.
  unfold eval_device_body. step. step. step. rewrite <- device_loop_agree by (intros x Hx; apply in_concat; exists a; split; [eapply index_in; eassumption|exact Hx]).
  step. destruct a1; [|repeat step]. step; [apply rel_device_hit|repeat step].
Qed.
Lemma rel_vendor_inner b l : rel eq (vendor_inner T b l) (vendor_inner T b l).
Proof.
  induction l as [|j l IHl]; cbn [vendor_inner]; [repeat step|]. step. step. rewrite <- (agree_vendor a) by (eapply index_in; eassumption).
  step; [repeat step|exact IHl].
Qed.
Lemma rel_vendor_loop l : rel eq (vendor_loop T l) (vendor_loop T l).
Proof. induction l as [|b l IHl]; cbn [vendor_loop]; [repeat step|]. step; [apply rel_vendor_inner|exact IHl]. Qed.
Lemma rel_fallback : rel eq (device_fallback T) (device_fallback T).
Proof.
  unfold device_fallback. step. destruct (agree_match (re_tablet T)) as [<- _]; [apply agree_device, in_or_app; right; left; reflexivity|].
  destruct (agree_match (re_mobile T)) as [<- _]; [apply agree_device, in_or_app; right; right; left; reflexivity|].
  destruct (re_match (re_tablet T) ua); [repeat step|]. destruct (re_match (re_mobile T) ua); [repeat step|]. step. step; [|repeat step].
  destruct (a =? 0)%N; [apply rel_vendor_loop|repeat step].
Qed.

(** *** With the cache calls *)
Lemma relP_bind {A B A' B'} (Q : A -> A' -> Prop) (R : B -> B' -> Prop) p p' f f' :
  relP Q p p' -> (forall a a', Q a a' -> relP R (f a) (f' a')) -> relP R (pbind p f) (pbind p' f').
Proof.
  intros Hm Hf c c' S. unfold pbind. rewrite !run_cold_bind. destruct (Hm c c' S) as [S1 R1].
  destruct (run_cold (p c)) as [c1 [a|]], (run_cold (p' c')) as [c1' [a'|]]; cbn [fst snd same_res] in *; try contradiction; [|auto].
  apply Hf; assumption.
Qed.
Lemma relP_ret {A B} (Q : A -> B -> Prop) a b : Q a b -> relP Q (pret a) (pret b).
Proof. intros H c c' S. split; [exact S|exact H]. Qed.
Lemma relP_lift {A B} (Q : A -> B -> Prop) m m' : rel Q m m' -> relP Q (plift m) (plift m').
Proof. intros H c c' S. exact (H c c' S). Qed.
Lemma relP_cget k : relP (fun a b => a = None /\ b = None) (pcget k) (pcget k).
Proof. intros c c' S. cbn. auto. Qed.
Lemma relP_finish f : relP eq (finish f) (finish f).
Proof. unfold finish. eapply (relP_bind eq); [apply relP_lift, rel_flag|]. intros _ _ _ c c' S. cbn. auto. Qed.
Lemma relP_defer {A B} (Q : A -> B -> Prop) p p' d d' :
  relP Q p p' -> (forall r r', same_res Q r r' -> relP eq (d r) (d' r')) -> relP Q (pdefer p d) (pdefer p' d').
Proof.
  intros Hp Hd c c' S. unfold pdefer. rewrite !run_cold_bind. destruct (Hp c c' S) as [S1 R1].
  destruct (run_cold (p c)) as [c1 r], (run_cold (p' c')) as [c1' r']. cbn [fst snd] in *. rewrite !run_cold_bind.
  destruct (Hd r r' R1 c1 c1' S1) as [S2 R2]. destruct (run_cold (d r c1)) as [c2 r2], (run_cold (d' r' c1')) as [c2' r2']. cbn [fst snd run_cold] in *.
  split; [exact S2|]. destruct r2, r2'; cbn in R2; try contradiction; auto.
Qed.
Lemma relP_ensure f p p' : f <> flagDeviceForceDesktop -> relP eq p p' -> relP eq (ensure f p) (ensure f p').
Proof.
  intros Hf H c c' S. unfold ensure. pose proof S as (_ & _ & b & buf & E & _ & Bt). replace (check_bit (c_bits c') f) with (check_bit (c_bits c) f) by (subst c'; symmetry; apply Bt; auto).
  destruct (check_bit (c_bits c) f); [cbn; auto|]. exact (relP_bind eq eq p p' (fun _ => pret tt) (fun _ => pret tt) H (fun _ _ _ => relP_ret eq tt tt eq_refl) c c' S).
Qed.
Lemma relP_parse_client : relP eq (parse_client T) (parse_client T).
Proof.
  unfold parse_client. eapply relP_bind; [apply relP_cget|]. intros ? ? [-> ->]. apply relP_defer; [apply relP_lift, rel_client_try|]. intros. apply relP_finish.
Qed.
Lemma relP_parse_os : relP eq (parse_os T) (parse_os T).
Proof.
  unfold parse_os. eapply relP_bind; [apply relP_cget|]. intros ? ? [-> ->]. apply relP_defer; [apply relP_lift, rel_eval_os|]. intros. apply relP_finish.
Qed.
Lemma relP_get_os : relP same_letters (get_os T) (get_os T).
Proof. unfold get_os. eapply (relP_bind eq); [apply relP_ensure; [discriminate|apply relP_parse_os]|]. intros _ _ _. apply relP_lift, rel_read_os. Qed.
Lemma relP_force k r : k <> dpNotebook \/ N.land mD DeviceTypeNotebook <> 0%N -> relP eq (force_desktop T k r) (force_desktop T k r).
Proof.
  intros K. assert (G : relP eq (if k =? dpNotebook then pbind (get_os T) (fun os => if in_list os desktopOS then plift (mmod (set_flag flagDeviceForceDesktop)) else pret tt) else pret tt)
                  (if k =? dpNotebook then pbind (get_os T) (fun os => if in_list os desktopOS then plift (mmod (set_flag flagDeviceForceDesktop)) else pret tt) else pret tt)).
  { destruct (k =? dpNotebook) eqn:E; [|apply relP_ret; reflexivity]. apply Nat.eqb_eq in E. destruct K as [K|K]; [contradiction|].
    eapply (relP_bind same_letters); [apply relP_get_os|]. intros os os' _.
    assert (X : forall x : bool, relP eq (if x then plift (mmod (set_flag flagDeviceForceDesktop)) else pret tt) (pret tt)).
    { intros [] c c' S; [|split; [exact S|reflexivity]]. cbn. split; [|reflexivity]. destruct S as (E1 & E2 & b & buf & -> & L & Bt). split; [exact E1|]. split; [exact E2|].
      exists b, buf. split; [reflexivity|]. split; [exact L|]. intros i [Hi|Hi]; [|contradiction]. cbn [set_flag up_bits c_bits]. rewrite check_set_other by congruence. apply Bt. auto. }
    generalize (in_list os desktopOS) (in_list os' desktopOS). intros x [|]; [|apply X].
    intros c c' S. destruct (X x c c' S) as [S1 R1]. split; [|destruct x; exact eq_refl]. destruct S1 as (E1 & E2 & b & buf & E3 & L & Bt).
    split; [exact E1|]. split; [exact E2|]. exists (set_bit b flagDeviceForceDesktop), buf. cbn [run_cold pret fst] in E3.
    split; [cbn [run_cold plift mmod fst]; rewrite E3; reflexivity|]. split; [exact L|].
    intros i [Hi|Hi]; [|contradiction]. rewrite check_set_other by congruence. apply Bt. auto. }
  unfold force_desktop. destruct r as [[?|]|]; [apply relP_ret; reflexivity|exact G|exact G].
Qed.
Lemma relP_eval_device k def : k <> dpNotebook \/ N.land mD DeviceTypeNotebook <> 0%N -> relP eq (eval_device T k def) (eval_device T k def).
Proof.
  intros K. unfold eval_device. apply relP_defer; [apply relP_lift, rel_device_body|]. intros r r' R.
  assert (r = r') as <- by (destruct r as [r|], r' as [r'|]; cbn in R; try contradiction; congruence). apply relP_force, K.
Qed.
Lemma relP_device_try l : (forall b k d, In (b, k, d) l -> k = dpNotebook -> b = DeviceTypeNotebook) -> relP eq (device_try T l) (device_try T l).
Proof.
  induction l as [|[[b k] def] l IH]; intros HB; cbn [device_try]; [apply relP_ret; reflexivity|].
  assert (IHl : relP eq (device_try T l) (device_try T l)) by (apply IH; intros b0 k0 d0 I0; apply (HB b0 k0 d0); right; exact I0).
  eapply relP_bind; [apply relP_lift, rel_maskD|]. intros ? ? [-> ->]. destruct (N.land mD b =? 0)%N eqn:E; cbn [negb]; [exact IHl|].
  eapply (relP_bind eq).
  - apply relP_eval_device. destruct (Nat.eq_dec k dpNotebook) as [->|N]; [right|left; exact N]. rewrite (HB b dpNotebook def (or_introl eq_refl) eq_refl) in E. apply eqb_neq0, E.
  - intros o o' <-. destruct o; [|exact IHl]. eapply (relP_bind eq); [apply relP_lift, rel_mod; [reflexivity|intros; repeat split]|]. intros _ _ _. apply relP_ret. reflexivity.
Qed.
Lemma relP_parse_device : relP eq (parse_device T) (parse_device T).
Proof.
  unfold parse_device. eapply relP_bind; [apply relP_cget|]. intros ? ? [-> ->]. apply relP_defer; [|intros; apply relP_finish]. unfold device_body.
  eapply (relP_bind eq).
  - apply relP_device_try. intros b k d I K. repeat destruct I as [I|I]; try (injection I as <- <- <-; first [discriminate K|reflexivity]); contradiction.
  - intros ok _ <-. destruct ok; [apply relP_ret; reflexivity|apply relP_lift, rel_fallback].
Qed.

(** ** Getters *)
Lemma relP_client_type : relP eq (get_client_type T) (get_client_type T).
Proof. unfold get_client_type. eapply (relP_bind eq); [apply relP_ensure; [discriminate|apply relP_parse_client]|]. intros _ _ _. apply relP_lift, rel_get. reflexivity. Qed.
Lemma rel_same {A} (r : res A) : rel eq (mlift r) (mlift r).
Proof. apply rel_lift. destruct r; [reflexivity|exact I]. Qed.
Lemma relP_browser : relP eq (get_browser T) (get_browser T).
Proof.
  unfold get_browser. eapply (relP_bind eq); [apply relP_ensure; [discriminate|apply relP_parse_client]|]. intros _ _ _. apply relP_lift. unfold read_browser. step. step.
  destruct (if negb (a =? 0)%N then _ else _) as [e buf]. destruct (0 <? e)%N; [apply rel_same|repeat step].
Qed.
Lemma relP_engine : relP eq (get_engine T) (get_engine T).
Proof.
  unfold get_engine. eapply (relP_bind eq); [apply relP_ensure; [discriminate|apply relP_parse_client]|]. intros _ _ _. apply relP_lift. unfold read_engine. step.
  destruct a; [repeat step|]. step. destruct (0 <? a)%N; [apply rel_same|repeat step].
Qed.
Lemma letters_index_at k s t p : (bn k < 65 \/ 90 < bn k < 97)%N -> same_letters s t -> index_byte_at s k p = index_byte_at t k p.
Proof. intros K S. unfold index_byte_at. rewrite (letters_index k (skipn p s) (skipn p t) K (Forall2_skipn _ _ _ _ S)). reflexivity. Qed.
Lemma relP_browser_version : relP same_letters (get_browser_version_string T) (get_browser_version_string T).
Proof.
  unfold get_browser_version_string. eapply (relP_bind eq); [apply relP_ensure; [discriminate|apply relP_parse_client]|]. intros _ _ _. apply relP_lift. unfold read_browser_version.
  step. destruct (0 <? a)%N; [|apply rel_ret; constructor]. step. step. eapply (rel_bind same_letters).
  - apply rel_lift, letters_slice64. destruct a0; [apply letters_refl|exact HS].
  - intros s t S. cbv zeta. apply rel_ret, letters_trim_right; [left; reflexivity|]. rewrite (letters_index_at x2f s t 0) by (try exact S; left; reflexivity).
    destruct (index_byte_at t x2f 0); [apply Forall2_skipn|]; exact S.
Qed.
Lemma relP_engine_version : relP same_letters (get_engine_version_string T) (get_engine_version_string T).
Proof.
  unfold get_engine_version_string. eapply (relP_bind eq); [apply relP_ensure; [discriminate|apply relP_parse_client]|]. intros _ _ _. apply relP_lift. unfold read_engine_version.
  step. destruct (0 <? a)%N; [|apply rel_ret; constructor]. step. apply rel_lift, letters_slice64, HS.
Qed.
Lemma relP_os_version : relP same_letters (get_os_version_string T) (get_os_version_string T).
Proof.
  unfold get_os_version_string. eapply (relP_bind eq); [apply relP_ensure; [discriminate|apply relP_parse_os]|]. intros _ _ _. apply relP_lift. unfold read_os_version.
  step. destruct (0 <? a)%N; [|apply rel_ret; constructor]. step. step. eapply (rel_bind same_letters).
  - apply rel_lift, letters_slice64. destruct a0; [apply letters_refl|exact HS].
  - intros s t S. rewrite (letters_index x5f s t) by (try exact S; right; split; reflexivity).
    destruct (index_byte t x5f); [|apply rel_ret; exact S]. step; [apply letters_dots, S|]. apply rel_ret, letters_dots, S.
Qed.
Lemma relP_brand : relP eq (get_brand T) (get_brand T).
Proof.
  unfold get_brand. eapply (relP_bind eq); [apply relP_ensure; [discriminate|apply relP_parse_device]|]. intros _ _ _. apply relP_lift. unfold read_brand. step.
  destruct (negb (a =? 0)%N); [|repeat step]. repeat step.
Qed.
Lemma relP_model : relP same_letters (get_model T) (get_model T).
Proof.
  unfold get_model. eapply (relP_bind eq); [apply relP_ensure; [discriminate|apply relP_parse_device]|]. intros _ _ _. apply relP_lift. unfold read_model. step.
  destruct (negb (a =? 0)%N); [|apply rel_ret; constructor]. eapply (rel_bind same_letters); [apply rel_buf|]. intros s t S.
  eapply (rel_bind same_letters); [apply rel_lift, letters_slice64, S|]. intros u v U. apply rel_ret, letters_trim; [left; reflexivity|exact U].
Qed.
Lemma relP_device_type : N.land mD DeviceTypeNotebook = 0%N -> relP eq (get_device_type T) (get_device_type T).
Proof.
  intros Z. unfold get_device_type. eapply (relP_bind eq); [apply relP_ensure; [discriminate|apply relP_parse_device]|]. intros _ _ _. apply relP_lift. unfold read_device_type.
  eapply (rel_bind eq); [apply rel_check; right; exact Z|]. intros b _ <-. destruct b; [repeat step|]. apply rel_get. reflexivity.
Qed.
End Two.

Lemma fresh_sim mC mD h ua ua' : sim ua ua' mD (fresh_ctx mC mD h ua) (fresh_ctx mC mD h ua').
Proof. split; [reflexivity|]. split; [reflexivity|]. exists 0%N, []. split; [reflexivity|]. split; [constructor|]. intros. reflexivity. Qed.

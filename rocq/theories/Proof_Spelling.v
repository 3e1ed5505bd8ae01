(** The case of letters in a user agent: what the shipped tables make of it. *)
From Verif Require Import Model_Base Model_Blob Model_CacheEntry Model_Version Model_Ctx Model_Parse Model_Regex
  Data_Client Data_OS Data_Device Data_DeviceRe0 Data_DeviceRe1 Model_Shipped
  Spec_Getters Spec_Structured Spec_Select Spec_Case Proof_Base Proof_Select Proof_Case Proof_Letters Proof_LettersVersion Proof_Reports Proof_Choice.
From Coq Require Import Lia ZifyBool ZifyNat ZifyN.
Open Scope nat_scope.

Definition all_ignore (l : list regex) : Prop := forall r, In r l -> ignores_case r.
Definition no_rule (T : tables) : Prop :=
  forall r, In r (or_re T) -> in_list (re_src r) osMaybeMacRE = false /\ in_list (re_src r) osMaybeNotANDRE = false.
Definition both (p : bytes -> Prop) (ua ua' : bytes) : Prop := forall t, p t -> (occurs t ua <-> occurs t ua').

Lemma both_hit p ua ua' : both p ua ua' -> forall t, p t -> substr_hit ua t = substr_hit ua' t.
Proof. intros H t Ht. apply Bool.eq_iff_eq_true. rewrite !substr_occurs. apply H, Ht. Qed.
Lemma relP_map {A B A' B'} ua ua' mD (Q : A -> A' -> Prop) (R : B -> B' -> Prop) f f' p p' :
  relP ua ua' mD Q p p' -> (forall a b, Q a b -> R (f a) (f' b)) -> relP ua ua' mD R (pmap f p) (pmap f' p').
Proof. intros H K. unfold pmap. eapply relP_bind; [exact H|]. intros a a' Ha. apply relP_ret, K, Ha. Qed.
Lemma alone_eq T mC mD h ua ua' g : relP ua ua' mD eq (run_getter T g) (run_getter T g) -> alone T mC mD h ua g = alone T mC mD h ua' g.
Proof.
  intros H. unfold alone. destruct (H _ _ (fresh_sim mC mD h ua ua')) as [_ R]. destruct (snd _) as [a|], (snd _) as [b|]; cbn in R; try contradiction; congruence.
Qed.
Definition sv (a b : value) : Prop := same_value (Ok a) (Ok b).
Lemma alone_sv T mC mD h ua ua' g : relP ua ua' mD sv (run_getter T g) (run_getter T g) -> same_value (alone T mC mD h ua g) (alone T mC mD h ua' g).
Proof.
  intros H. unfold alone. destruct (H _ _ (fresh_sim mC mD h ua ua')) as [_ R]. destruct (snd _) as [a|], (snd _) as [b|]; cbn [same_res] in R; try contradiction; exact R.
Qed.

Lemma client_case T ua ua' mC mD h : all_ignore (cr_re T ++ cr_evre T ++ [re_blink T]) -> (forall f, In f (cr_ef T) -> plain_fn f = true) ->
  same_letters ua ua' -> both (client_text T) ua ua' ->
  (forall g, g = GClientType \/ g = GBrowser \/ g = GEngine -> alone T mC mD h ua g = alone T mC mD h ua' g) /\
  (forall g, g = GBrowserVersionString \/ g = GEngineVersionString -> same_value (alone T mC mD h ua g) (alone T mC mD h ua' g)).
Proof.
  intros A P S B. pose proof (fun r H => A r H ua ua' S) as A'. pose proof (both_hit _ _ _ B) as B'. split.
  - intros g [E|[E|E]]; rewrite E; apply alone_eq; cbn [run_getter]; (eapply relP_map; [first [apply relP_client_type|apply relP_browser|apply relP_engine]; assumption|intros; congruence]).
  - intros g [E|E]; rewrite E; apply alone_sv; cbn [run_getter]; (eapply relP_map; [first [apply relP_browser_version|apply relP_engine_version]; assumption|intros a b H; exact H]).
Qed.
Lemma os_case T ua ua' mC mD h : all_ignore (or_re T) -> no_rule T -> same_letters ua ua' -> both (os_text T) ua ua' ->
  forall g, g = GOS \/ g = GOSVersionString -> same_value (alone T mC mD h ua g) (alone T mC mD h ua' g).
Proof.
  intros A P S B. pose proof (fun r H => A r H ua ua' S) as A'. pose proof (both_hit _ _ _ B) as B'.
  intros g [E|E]; rewrite E; apply alone_sv; cbn [run_getter]; (eapply relP_map; [first [apply relP_get_os|apply relP_os_version]; assumption|intros a b H; exact H]).
Qed.
Lemma device_case T ua ua' mC mD h : all_ignore (or_re T) -> no_rule T -> all_ignore (dr_re T ++ [re_tablet T; re_mobile T]) ->
  same_letters ua ua' -> both (os_text T) ua ua' -> both (device_text T) ua ua' -> (forall r, In r (vr_re T) -> re_match r ua = re_match r ua') ->
  alone T mC mD h ua GBrand = alone T mC mD h ua' GBrand /\
  same_value (alone T mC mD h ua GModel) (alone T mC mD h ua' GModel) /\
  (N.land mD DeviceTypeNotebook = 0%N -> alone T mC mD h ua GDeviceType = alone T mC mD h ua' GDeviceType).
Proof.
  intros A P A2 S B B2 V. pose proof (fun r H => A r H ua ua' S) as A'. pose proof (fun r H => A2 r H ua ua' S) as A2'.
  pose proof (both_hit _ _ _ B) as B'. pose proof (both_hit _ _ _ B2) as B2'. split; [|split].
  - apply alone_eq. cbn [run_getter]. eapply relP_map; [apply relP_brand; assumption|intros; congruence].
  - apply alone_sv. cbn [run_getter]. eapply relP_map; [apply relP_model; assumption|intros a b H; exact H].
  - intros Z. apply alone_eq. cbn [run_getter]. eapply relP_map; [apply relP_device_type; assumption|intros; congruence].
Qed.

(** ** The shipped tables *)
Definition ci_all (l : list blob) : bool := forallb (fun b => has_prefix (unblob b) (bs "(?i)")) l.
Lemma ci_compile l : ci_all l = true -> all_ignore (compile_all l).
Proof.
  intros H r I. unfold compile_all in I. apply in_map_iff in I as (b & <- & I). unfold ci_all in H. rewrite forallb_forall in H. apply ci_ignores, H, I.
Qed.
Lemma all_app a b : all_ignore a -> all_ignore b -> all_ignore (a ++ b).
Proof. intros A B r I. apply in_app_or in I as [I|I]; auto. Qed.
Lemma all_one src : has_prefix src (bs "(?i)") = true -> all_ignore [compile src].
Proof. intros H r [<-|[]]. apply ci_ignores, H. Qed.
Lemma ignore_client : all_ignore (cr_re shipped ++ cr_evre shipped ++ [re_blink shipped]).
Proof.
  apply all_app; [|apply all_app].
  - apply (ci_compile d_cr_re). vm_cast_no_check (eq_refl true).
  - apply (ci_compile d_cr_evre). vm_cast_no_check (eq_refl true).
  - apply (all_one src_blink). reflexivity.
Qed.
Lemma ignore_os : all_ignore (or_re shipped).
Proof. apply (ci_compile d_or_re). vm_cast_no_check (eq_refl true). Qed.
Lemma ignore_device : all_ignore (dr_re shipped ++ [re_tablet shipped; re_mobile shipped]).
Proof.
  apply all_app; [|apply (all_app [compile src_tablet] [compile src_mobile]); apply all_one; reflexivity].
  apply (ci_compile (d_dr_re0 ++ d_dr_re1)). vm_cast_no_check (eq_refl true).
Qed.
Lemma plain_shipped : forall f, In f (cr_ef shipped) -> plain_fn f = true.
Proof.
  assert (H : forallb plain_fn d_cr_ef = true) by (vm_cast_no_check (eq_refl true)). rewrite forallb_forall in H. exact H.
Qed.
Definition rule_check (T : tables) : bool := forallb (fun r => negb (in_list (re_src r) osMaybeMacRE || in_list (re_src r) osMaybeNotANDRE)) (or_re T).
Lemma no_rule_check T : rule_check T = true -> no_rule T.
Proof.
  unfold rule_check. rewrite forallb_forall. intros H r I. specialize (H r I). apply Bool.negb_true_iff, Bool.orb_false_iff in H. exact H.
Qed.
Lemma no_rule_shipped : no_rule shipped.
Proof. apply no_rule_check. vm_cast_no_check (eq_refl true). Qed.

Lemma shipped_client_case ua ua' mC mD h : same_letters ua ua' -> (forall t, client_text shipped t -> (occurs t ua <-> occurs t ua')) ->
  (forall g, g = GClientType \/ g = GBrowser \/ g = GEngine -> alone shipped mC mD h ua g = alone shipped mC mD h ua' g) /\
  (forall g, g = GBrowserVersionString \/ g = GEngineVersionString \/ g = GBrowserVersion \/ g = GEngineVersion ->
     same_value (alone shipped mC mD h ua g) (alone shipped mC mD h ua' g)).
Proof.
  intros H1 H2. destruct (client_case shipped ua ua' mC mD h ignore_client plain_shipped H1 H2) as [A B]. split; [exact A|].
  pose proof (B GBrowserVersionString (or_introl eq_refl)) as Vb. pose proof (B GEngineVersionString (or_intror eq_refl)) as Ve.
  pose proof (same_structured shipped mC mD h ua ua' GBrowserVersion GBrowserVersionString (or_introl (conj eq_refl eq_refl)) Vb) as Sb.
  pose proof (same_structured shipped mC mD h ua ua' GEngineVersion GEngineVersionString (or_intror (or_introl (conj eq_refl eq_refl))) Ve) as Se.
  intros g [E|[E|[E|E]]]; rewrite E; assumption.
Qed.
Lemma shipped_os_case ua ua' mC mD h : same_letters ua ua' -> (forall t, os_text shipped t -> (occurs t ua <-> occurs t ua')) ->
  forall g, g = GOS \/ g = GOSVersionString \/ g = GOSVersion -> same_value (alone shipped mC mD h ua g) (alone shipped mC mD h ua' g).
Proof.
  intros H1 H2. pose proof (os_case shipped ua ua' mC mD h ignore_os no_rule_shipped H1 H2) as A.
  pose proof (A GOS (or_introl eq_refl)) as Vo. pose proof (A GOSVersionString (or_intror eq_refl)) as Vv.
  pose proof (same_structured shipped mC mD h ua ua' GOSVersion GOSVersionString (or_intror (or_intror (conj eq_refl eq_refl))) Vv) as Sv.
  intros g [E|[E|E]]; rewrite E; assumption.
Qed.
Lemma shipped_device_case ua ua' mC mD h : same_letters ua ua' -> (forall t, os_text shipped t -> (occurs t ua <-> occurs t ua')) ->
  (forall t, device_text shipped t -> (occurs t ua <-> occurs t ua')) -> (forall r, In r (vr_re shipped) -> re_match r ua = re_match r ua') ->
  alone shipped mC mD h ua GBrand = alone shipped mC mD h ua' GBrand /\
  same_value (alone shipped mC mD h ua GModel) (alone shipped mC mD h ua' GModel) /\
  (N.land mD DeviceTypeNotebook = 0%N -> alone shipped mC mD h ua GDeviceType = alone shipped mC mD h ua' GDeviceType).
Proof. exact (device_case shipped ua ua' mC mD h ignore_os no_rule_shipped ignore_device). Qed.

(** ** Checking the texts for two given user agents *)
Definition text_check (buf : bytes) (es : list N) (ua ua' : bytes) : bool :=
  forallb (fun e => let '(lo, hi) := e_decode e in
    if (hi <=? lo)%N || ((N.of_nat (length ua) <? hi - lo)%N && (N.of_nat (length ua') <? hi - lo)%N) then true else
    match slice buf lo hi with Ok t => Bool.eqb (substr_hit ua t) (substr_hit ua' t) | Panic => true end) es.
Lemma occurs_length t ua : occurs t ua -> 0 < length t <= length ua.
Proof. intros (N & a & b & ->). rewrite !app_length. destruct t; [congruence|]. cbn [length]. lia. Qed.
Lemma text_check_ok buf es ua ua' : text_check buf es ua ua' = true -> forall e t, In e es -> slice64 buf e = Ok t -> (occurs t ua <-> occurs t ua').
Proof.
  unfold text_check. rewrite forallb_forall. intros H e t I E. specialize (H e I). unfold slice64 in E. destruct (e_decode e) as [lo hi]. cbn [fst snd] in E. rewrite E in H.
  destruct (slice_Ok_inv _ _ _ _ E) as (L1 & L2 & a & b & _ & _ & L). destruct ((hi <=? lo)%N || _) eqn:B.
  - split; intros O; apply occurs_length in O; lia.
  - apply Bool.eqb_prop in H. rewrite <- !substr_occurs, H. reflexivity.
Qed.
Definition client_check (T : tables) : bytes -> bytes -> bool :=
  text_check (cr_buf T) (map ct_match64 (filter (fun y => (ct_matchRI y <? 0)%Z) (concat (cr_idx T)))).
Definition os_check (T : tables) : bytes -> bytes -> bool :=
  text_check (or_buf T) (map ot_match64 (filter (fun y => (ot_matchRI y <? 0)%Z) (or_os T)) ++ map ov_match64 (filter (fun y => (ov_matchRI y <? 0)%Z) (or_ov T))).
Definition device_check (T : tables) : bytes -> bytes -> bool :=
  text_check (dr_buf T) (map dt_match64 (filter (fun y => (dt_matchRI y <? 0)%Z) (concat (dr_idx T))) ++ map mt_match64 (filter (fun y => (mt_matchRI y <? 0)%Z) (dr_dm T))).
Definition vendor_check (T : tables) (ua ua' : bytes) : bool := forallb (fun r => Bool.eqb (re_match r ua) (re_match r ua')) (vr_re T).
Lemma in_match {A} (f : A -> Z) (g : A -> N) l y : In y l -> (f y < 0)%Z -> In (g y) (map g (filter (fun y => (f y <? 0)%Z) l)).
Proof. intros I L. apply in_map, filter_In. split; [exact I|lia]. Qed.
Lemma client_checked T ua ua' : client_check T ua ua' = true -> forall t, client_text T t -> (occurs t ua <-> occurs t ua').
Proof. intros H t (y & I & L & E). eapply text_check_ok; [exact H| |exact E]. apply in_match; assumption. Qed.
Lemma os_checked T ua ua' : os_check T ua ua' = true -> forall t, os_text T t -> (occurs t ua <-> occurs t ua').
Proof.
  intros H t [(y & I & L & E)|(y & I & L & E)]; (eapply text_check_ok; [exact H| |exact E]; apply in_or_app).
  - left. apply in_match; assumption.
  - right. apply in_match; assumption.
Qed.
Lemma device_checked T ua ua' : device_check T ua ua' = true -> forall t, device_text T t -> (occurs t ua <-> occurs t ua').
Proof.
  intros H t [(y & I & L & E)|(y & I & L & E)]; (eapply text_check_ok; [exact H| |exact E]; apply in_or_app).
  - left. apply in_match; assumption.
  - right. apply in_match; assumption.
Qed.
Lemma vendor_checked T ua ua' : vendor_check T ua ua' = true -> forall r, In r (vr_re T) -> re_match r ua = re_match r ua'.
Proof. unfold vendor_check. rewrite forallb_forall. intros H r I. apply Bool.eqb_prop, H, I. Qed.

Fixpoint letters_check (s t : bytes) : bool :=
  match s, t with [] , [] => true | a :: s, b :: t => (upper a =? upper b)%N && letters_check s t | _, _ => false end.
Lemma letters_checked s : forall t, letters_check s t = true -> same_letters s t.
Proof.
  induction s as [|a s IH]; intros [|b t] H; cbn [letters_check] in H; try discriminate; constructor; apply andb_prop in H as [H1 H2]; [apply N.eqb_eq, H1|apply IH, H2].
Qed.

Definition agent1 : bytes := bs "Akregator/1.2b (NuttX)".
Definition agent2 : bytes := bs "aKREGATOR/1.2B (nuttx)".
Lemma client_checked_case : same_letters agent1 agent2 /\ (forall t, client_text shipped t -> (occurs t agent1 <-> occurs t agent2)) /\
  (forall t, os_text shipped t -> (occurs t agent1 <-> occurs t agent2)).
Proof.
  split; [apply letters_checked; reflexivity|]. split.
  - apply client_checked. vm_cast_no_check (eq_refl true).
  - apply os_checked. vm_cast_no_check (eq_refl true).
Qed.
Definition agent3 : bytes := bs "PSP".
Definition agent4 : bytes := bs "psp".
Lemma device_checked_case : same_letters agent3 agent4 /\ (forall t, os_text shipped t -> (occurs t agent3 <-> occurs t agent4)) /\
  (forall t, device_text shipped t -> (occurs t agent3 <-> occurs t agent4)) /\ (forall r, In r (vr_re shipped) -> re_match r agent3 = re_match r agent4).
Proof.
  split; [apply letters_checked; reflexivity|]. split; [|split].
  - apply os_checked. vm_cast_no_check (eq_refl true).
  - apply device_checked. vm_cast_no_check (eq_refl true).
  - apply vendor_checked. vm_cast_no_check (eq_refl true).
Qed.

(** ** Where the case does matter *)
Lemma literal_case T : alone T 63 1023 0 (bs "LeafOS") GOS = Ok (VB (bs "LeafOS")) -> alone T 63 1023 0 (bs "leafos") GOS = Ok (VB (bs "UNK")) ->
  exists ua ua', same_letters ua ua' /\ alone T ClientTypeAll DeviceTypeAll 0 ua GOS = Ok (VB (bs "LeafOS")) /\ alone T ClientTypeAll DeviceTypeAll 0 ua' GOS = Ok (VB (bs "UNK")).
Proof. intros H1 H2. exists (bs "LeafOS"), (bs "leafos"). split; [apply letters_checked; reflexivity|]. split; [exact H1|exact H2]. Qed.
Lemma literal_shipped :
  exists ua ua', same_letters ua ua' /\ alone shipped ClientTypeAll DeviceTypeAll 0 ua GOS = Ok (VB (bs "LeafOS")) /\ alone shipped ClientTypeAll DeviceTypeAll 0 ua' GOS = Ok (VB (bs "UNK")).
Proof.
  apply literal_case.
  - exact (bytes_case shipped 63 1023 0 (bs "LeafOS") GOS (bs "LeafOS") ltac:(vm_compute; reflexivity)).
  - exact (bytes_case shipped 63 1023 0 (bs "leafos") GOS (bs "UNK") ltac:(vm_compute; reflexivity)).
Qed.
Lemma desktop_case T : (forall t, os_text T t -> (occurs t (bs "Ubuntu") <-> occurs t (bs "ubuntu"))) ->
  alone T 63 1 0 (bs "Ubuntu") GDeviceType = Ok (VN 1) -> alone T 63 1 0 (bs "ubuntu") GDeviceType = Ok (VN 0) ->
  exists ua ua', same_letters ua ua' /\ (forall t, os_text T t -> (occurs t ua <-> occurs t ua')) /\
    alone T ClientTypeAll DeviceTypeNotebook 0 ua GDeviceType = Ok (VN 1) /\ alone T ClientTypeAll DeviceTypeNotebook 0 ua' GDeviceType = Ok (VN 0).
Proof. intros H0 H1 H2. exists (bs "Ubuntu"), (bs "ubuntu"). split; [apply letters_checked; reflexivity|]. split; [exact H0|]. split; [exact H1|exact H2]. Qed.
Lemma desktop_shipped :
  exists ua ua', same_letters ua ua' /\ (forall t, os_text shipped t -> (occurs t ua <-> occurs t ua')) /\
    alone shipped ClientTypeAll DeviceTypeNotebook 0 ua GDeviceType = Ok (VN 1) /\ alone shipped ClientTypeAll DeviceTypeNotebook 0 ua' GDeviceType = Ok (VN 0).
Proof.
  apply desktop_case.
  - apply os_checked. vm_cast_no_check (eq_refl true).
  - exact (number_case shipped 63 1 0 (bs "Ubuntu") GDeviceType 1 ltac:(vm_compute; reflexivity)).
  - exact (number_case shipped 63 1 0 (bs "ubuntu") GDeviceType 0 ltac:(vm_compute; reflexivity)).
Qed.

(** Names come from the tables, whose texts are calm. *)
From Coq Require Import Lia ZifyBool ZifyNat ZifyN.
From Verif Require Import Model_Base Model_Ctx Model_Parse Model_Regex Model_Shipped Spec_Select Spec_Getters Spec_Charset
  Proof_Base Proof_Shadow Proof_Index Proof_Bare Proof_Live Proof_Client Proof_OS Proof_Device Proof_Choice Proof_Reports Proof_Quirks Proof_Tables Proof_Charset.
Open Scope nat_scope.

Definition calm_chars : list (N * N) := [(32, 33); (35, 59); (61, 61); (63, 91); (93, 95); (97, 126); (128, 1114111)]%N.
Definition calmb (b : byte) : bool := (32 <=? bn b)%N && negb (bn b =? 127)%N && negb (existsb (Byte.eqb b) [x22; x60; x3c; x3e; x5c]).
Lemma calmb_ok b : calmb b = true -> calm b.
Proof.
  unfold calmb, calm. intros H. apply andb_prop in H as [H H3]. apply andb_prop in H as [H1 H2]. split; [lia|]. split; [lia|].
  intros I. apply Bool.negb_true_iff in H3. assert (X : existsb (Byte.eqb b) [x22; x60; x3c; x3e; x5c] = true); [|congruence].
  apply existsb_exists. exists b. split; [exact I|apply Byte.byte_dec_lb; reflexivity].
Qed.
Lemma calm_all : forallb (fun b => if okn calm_chars (bn b) then calmb b else true) (map (fun n => match Byte.of_N (N.of_nat n) with Some b => b | None => x00 end) (seq 0 256)) = true.
Proof. vm_compute. reflexivity. Qed.
Lemma oks_calm s : oks calm_chars s -> Forall calm s.
Proof.
  apply Forall_impl. intros b K. pose proof calm_all as H. rewrite forallb_forall in H. specialize (H b). cbn beta in H. rewrite K in H. apply calmb_ok, H.
  apply in_map_iff. exists (N.to_nat (bn b)). split; [rewrite N2Nat.id; unfold bn; rewrite Byte.of_to_N; reflexivity|]. apply in_seq. pose proof (bn_lt b). lia.
Qed.
Lemma calm_high : high calm_chars = true. Proof. vm_compute. reflexivity. Qed.

Definition calm_text (ps : tree bytes) (e : N) : bool := if (e / 4294967296 =? e mod 4294967296)%N then true else clean_text calm_chars ps e.
Lemma calm_text_ok n buf e s : calm_text (numbered (pages n buf)) e = true -> text buf e s -> oks calm_chars s.
Proof.
  unfold calm_text. destruct (N.eqb_spec (e / 4294967296) (e mod 4294967296)) as [E|E]; [|apply clean_text_ok]. intros _ (a & b & _ & L1 & L2).
  rewrite <- E, <- L1 in L2. destruct s; [constructor|cbn [length] in L2; lia].
Qed.
Lemma trimmed_oks okr s out : trimmed s out -> oks okr s -> oks okr out.
Proof. intros (i & j & -> & _) O. apply Forall_app in O as [_ O]. apply Forall_app in O as [O _]. exact O. Qed.

(** Which texts the names are. *)
Definition calm_browsers (T : tables) : bool :=
  let ps := numbered (pages 400 (cr_buf T)) in let hs := numbered (pages 400 (hr_buf T)) in
  if forallb (fun x => if calm_text ps (ct_browser64 x) then calm_text ps (ct_engine64 x) else false) (concat (cr_idx T)) then
  if forallb (fun kv => calm_text hs (snd kv)) (hr_idx T) then
  forallb (fun f => if forallb (fun te => calm_text ps (snd te)) (fst f) then calm_text ps (snd f) else false) (cr_ef T) else false else false.
Definition calm_os (T : tables) : bool :=
  let t := numbered (or_re T) in let ps := numbered (pages 400 (or_buf T)) in
  forallb (fun x => if calm_text ps (ot_name64 x) then
     if (ot_matchRI x <? 0)%Z then true else if (ot_nameSI x =? -1)%Z then true else clean_group calm_chars t (ot_matchRI x) (ot_nameSI x) else false) (or_os T).
Definition calm_brands (T : tables) : bool :=
  let ps := numbered (pages 1000 (dr_buf T)) in let vs := numbered (pages 400 (vr_buf T)) in
  if forallb (fun x => calm_text ps (dt_brand64 x)) (concat (dr_idx T)) then forallb (fun v => calm_text vs (vt_brand64 v)) (vr_idx T) else false.

Section Names.
Variable T : tables.
Hypothesis CS : client_sane T.
Hypothesis OS : os_sane T.
Hypothesis DS : device_sane T.
Hypothesis Co : compiled (or_re T).
Hypothesis HB : calm_browsers T = true.
Hypothesis HO : calm_os T = true.
Hypothesis HD : calm_brands T = true.
Lemma unknown_calm : Forall calm (bs "UNK").
Proof. apply oks_calm. repeat constructor. Qed.
Lemma browsers_split : (forall x, In x (concat (cr_idx T)) -> calm_text (numbered (pages 400 (cr_buf T))) (ct_browser64 x) = true /\ calm_text (numbered (pages 400 (cr_buf T))) (ct_engine64 x) = true) /\
  (forall e, In e (map snd (hr_idx T)) -> calm_text (numbered (pages 400 (hr_buf T))) e = true) /\
  (forall f, In f (cr_ef T) -> (forall te, In te (fst f) -> calm_text (numbered (pages 400 (cr_buf T))) (snd te) = true) /\ calm_text (numbered (pages 400 (cr_buf T))) (snd f) = true).
Proof.
  pose proof HB as H. unfold calm_browsers in H. destruct (forallb _ (concat (cr_idx T))) eqn:H1; [|discriminate H]. destruct (forallb _ (hr_idx T)) eqn:H2; [|discriminate H].
  rewrite forallb_forall in H1, H2, H. split; [|split].
  - intros x I. specialize (H1 x I). cbn beta in H1. destruct (calm_text _ (ct_browser64 x)); [auto|discriminate H1].
  - intros e I. apply in_map_iff in I as (kv & <- & I). exact (H2 kv I).
  - intros f I. specialize (H f I). cbn beta in H. destruct (forallb _ (fst f)) eqn:F; [|discriminate H]. rewrite forallb_forall in F. split; [exact F|exact H].
Qed.
Lemma browser_calm mC mD h ua s : small ua -> alone T mC mD h ua GBrowser = Ok (VB s) -> Forall calm s.
Proof.
  intros L H. destruct browsers_split as (B1 & B2 & _). destruct (browser_names T mC mD h ua s CS L H) as [->|[(_ & x & I & X)|(_ & e & I & X)]]; [exact unknown_calm| |]; apply oks_calm.
  - exact (calm_text_ok _ _ _ _ (proj1 (B1 x I)) X).
  - exact (calm_text_ok _ _ _ _ (B2 e I) X).
Qed.
Lemma engine_calm mC mD h ua s : small ua -> alone T mC mD h ua GEngine = Ok (VB s) -> Forall calm s.
Proof.
  intros L H. destruct browsers_split as (B1 & _ & B3). destruct (proj1 (engine_full T mC mD h ua CS L) s H) as [[_ ->]|(t & x & e & CI & EI & EN)]; [constructor|].
  assert (Own : forall e', own_engine T ua x e' -> calm_text (numbered (pages 400 (cr_buf T))) e' = true).
  { intros e' [F|f sr m e0 F Nf _ _ Th]; [exact (proj2 (B1 x (client_is_in _ _ _ _ _ _ CI)))|]. destruct (B3 f (nth_error_In _ _ Nf)) as [F1 F2].
    destruct Th as [(th & l1 & l2 & E & _)|[_ ->]]; [|exact F2]. apply (F1 (th, e0)). rewrite E. apply in_elt. }
  assert (K : calm_text (numbered (pages 400 (cr_buf T))) e = true).
  { destruct EI as [e O _|v _ (l1 & l2 & E & _)|_ _]; [exact (Own e O)| |reflexivity]. apply B1. unfold engine_class in E.
    destruct (cr_idx T) as [|ir l]; [destruct l1; discriminate E|]. cbn [nth] in E. cbn [concat]. apply in_or_app. left. rewrite E. apply in_elt. }
  destruct EN as [[_ X]|[(_ & _ & ->)|(_ & _ & ->)]]; [apply oks_calm; exact (calm_text_ok _ _ _ _ K X)| |constructor].
  apply oks_calm. repeat constructor.
Qed.
Lemma os_calm mC mD h ua s : small ua -> alone T mC mD h ua GOS = Ok (VB s) -> Forall calm s.
Proof.
  intros L H. destruct (proj1 (os_reports T mC mD h ua OS L) s H) as (H1 & H2 & [N|(x & I)]); [rewrite (H1 N); exact unknown_calm|].
  specialize (H2 x I). destruct I as (l1 & l2 & E & _). pose proof HO as C. unfold calm_os in C. rewrite forallb_forall in C.
  specialize (C x ltac:(rewrite E; apply in_elt)). cbn beta in C. destruct (calm_text _ (ot_name64 x)) eqn:Cn; [|discriminate C].
  destruct H2 as [m s out (R0 & r & N & F) (G0 & G) _ Tr|m F G A|s out _ _ X Tr|_ _]; try exact unknown_calm; apply oks_calm; apply (trimmed_oks _ _ _ Tr).
  - replace (ot_matchRI x <? 0)%Z with false in C by lia. replace (ot_nameSI x =? -1)%Z with false in C by lia.
    exact (clean_group_ok _ _ _ _ _ _ _ _ calm_high Co R0 C N F G).
  - exact (calm_text_ok _ _ _ _ Cn X).
Qed.
Lemma brand_calm mC mD h ua s : short ua -> alone T mC mD h ua GBrand = Ok (VB s) -> Forall calm s.
Proof.
  intros L H. pose proof HD as C. unfold calm_brands in C. destruct (forallb _ (concat (dr_idx T))) eqn:C1; [|discriminate C]. rewrite forallb_forall in C1, C.
  destruct (device_brand T mC mD h ua DS L s H) as [(b & idx & d & x & I & [[_ ->]|(_ & w & X & Tr)])|[N F]]; [exact unknown_calm| |].
  - apply oks_calm, (trimmed_oks _ _ _ Tr). refine (calm_text_ok _ _ _ _ (C1 x _) X).
    destruct I as (be & af & ir & _ & _ & _ & Ni & (l1 & l2 & E & _)). apply in_concat. exists ir. split; [exact (nth_error_In _ _ Ni)|rewrite E; apply in_elt].
  - destruct F as [_|_ _ _|b r w out _ _ (l1 & l2 & E & _) X Tr _|r _ _ _]; try exact unknown_calm.
    apply oks_calm, (trimmed_oks _ _ _ Tr). refine (calm_text_ok _ _ _ _ _ X).
    assert (I : In (b, r) (fragments T)) by (rewrite E; apply in_elt). unfold fragments in I. apply in_flat_map in I as (v & Iv & I). apply in_map_iff in I as (r' & Er & _).
    injection Er as <- _. exact (C v Iv).
Qed.
Lemma names_calm mC mD h ua g s : short ua -> In g [GBrowser; GEngine; GBrand; GOS] -> alone T mC mD h ua g = Ok (VB s) -> Forall calm s.
Proof.
  intros L I. assert (Sm : small ua) by (unfold short, small in *; lia). destruct I as [<-|[<-|[<-|[<-|[]]]]].
  - apply browser_calm. exact Sm.
  - apply engine_calm. exact Sm.
  - apply brand_calm. exact L.
  - apply os_calm. exact Sm.
Qed.
End Names.

Lemma shipped_browsers : calm_browsers shipped = true. Proof. vm_cast_no_check (eq_refl true). Qed.
Lemma shipped_os : calm_os shipped = true. Proof. vm_cast_no_check (eq_refl true). Qed.
Lemma shipped_brands : calm_brands shipped = true. Proof. vm_cast_no_check (eq_refl true). Qed.
Lemma shipped_names mC mD h ua g s : short ua -> In g [GBrowser; GEngine; GBrand; GOS] -> alone shipped mC mD h ua g = Ok (VB s) -> Forall calm s.
Proof. exact (names_calm shipped shipped_client_sane shipped_os_sane shipped_device_sane or_compiled shipped_browsers shipped_os shipped_brands mC mD h ua g s). Qed.
Lemma not_calm b s : In b s -> In b [x22; x60; x3c; x3e; x5c] -> ~ Forall calm s.
Proof. intros I J F. rewrite Forall_forall in F. exact (proj2 (proj2 (F b I)) J). Qed.
Lemma short_100 (ua : bytes) : (length ua <? 100)%nat = true -> short ua.
Proof. intros L. apply PeanoNat.Nat.ltb_lt in L. unfold short. lia. Qed.

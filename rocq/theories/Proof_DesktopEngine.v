(** The engines of the desktop families. *)
From Verif Require Import Model_Base Model_CacheEntry Model_Regex Model_Ctx Model_Parse Model_Shipped Spec_Version Spec_Getters Spec_Select Spec_Threshold Spec_Panic Spec_Family
  Proof_Base Proof_Bare Proof_Select Proof_Client Proof_Tables Proof_Fine Proof_Threshold Proof_DesktopBrowser Proof_DesktopShipped.
From Coq Require Import Lia ZifyBool ZifyNat ZifyN.
Open Scope nat_scope.

(** Entry [k] has the engine [name] and no thresholds. *)
Definition fixed_engine (T : tables) (k : nat) (name : bytes) : bool :=
  match entry_of T k with
  | Some x => (ct_engineFI x =? -1)%Z && negb (ct_engine64 x =? 0)%N && match slice64 (cr_buf T) (ct_engine64 x) with Ok s => beqs s name | Panic => false end
  | None => false
  end.
Lemma fixed_engine_ok T mC mD h ua k x name : client_sane T -> Spec_Select.small ua -> fixed_engine T k name = true -> entry_of T k = Some x -> client_is T mC ua 1 1 x ->
  alone T mC mD h ua GEngine <> Panic -> alone T mC mD h ua GEngine = Ok (VB name).
Proof.
  intros S1 Sm H E Cx NP. unfold fixed_engine in H. rewrite E in H. apply andb_prop in H as [H H3]. apply andb_prop in H as [H1 H2].
  destruct (slice64 (cr_buf T) (ct_engine64 x)) as [s0|] eqn:Sl; [|discriminate H3]. apply beqs_eq in H3 as ->.
  destruct (text_value T mC mD h ua GEngine ltac:(cbn; auto 10) NP) as [s Hs]. rewrite Hs.
  destruct (engine_name T mC mD h ua S1 Sm s Hs) as [[[NC|(t & idx & y & Cy & Ni)] _]|(t & y & e & Cy & Ei & En)].
  - destruct (client_is_some _ _ _ _ _ _ Cx NC).
  - destruct (client_is_unique _ _ _ _ _ _ _ _ _ Cx Cy) as (_ & <- & _). contradiction (Ni eq_refl).
  - destruct (client_is_unique _ _ _ _ _ _ _ _ _ Cx Cy) as (_ & _ & <-).
    assert (OW : forall o, own_engine T ua x o -> o = ct_engine64 x) by (intros o [_|f s' m o' F _ _ _ _]; [reflexivity|lia]).
    assert (e = ct_engine64 x) as ->.
    { destruct Ei as [e Ow _|v Ow _|Ow _]; [exact (OW e Ow)|pose proof (OW _ Ow); lia|pose proof (OW _ Ow); lia]. }
    destruct En as [[_ Tx]|[[Z0 _]|[Z0 _]]]; [|lia|lia]. apply text_slice in Tx. rewrite Sl in Tx. injection Tx as ->. reflexivity.
Qed.
Lemma shipped_fixed : fixed_engine shipped 294 (bs "Blink") = true /\ fixed_engine shipped 364 (bs "Gecko") = true.
Proof. split; vm_compute; reflexivity. Qed.

(** Entry [k] is Blink from [th] on, WebKit before. *)
Definition split_engine (T : tables) (k : nat) : bool :=
  match entry_of T k with
  | Some x => negb (ct_engineFI x =? -1)%Z && (ct_version64 x =? 0)%N &&
      match nth_error (cr_ef T) (Z.to_nat (ct_engineFI x)) with
      | Some ([(th, e)], d) => beqs th (bs "28") && match slice64 (cr_buf T) e with Ok s => beqs s (bs "Blink") | Panic => false end &&
          match slice64 (cr_buf T) d with Ok s => beqs s (bs "WebKit") | Panic => false end
      | _ => false
      end
  | None => false
  end.
Lemma split_engine_inv T k x : split_engine T k = true -> entry_of T k = Some x -> ct_engineFI x <> (-1)%Z /\ ct_version64 x = 0%N /\
  exists e d, nth_error (cr_ef T) (Z.to_nat (ct_engineFI x)) = Some ([(bs "28", e)], d) /\ text (cr_buf T) e (bs "Blink") /\ text (cr_buf T) d (bs "WebKit").
Proof.
  unfold split_engine. intros H E. rewrite E in H. apply andb_prop in H as [H H3]. apply andb_prop in H as [H1 H2].
  split; [lia|]. split; [lia|]. destruct (nth_error (cr_ef T) _) as [[[|[th e] [|]] d]|]; try discriminate H3.
  apply andb_prop in H3 as [H3 H5]. apply andb_prop in H3 as [H3 H4]. apply beqs_eq in H3 as ->.
  destruct (slice64 (cr_buf T) e) as [s1|] eqn:S1; [|discriminate H4]. apply beqs_eq in H4 as ->.
  destruct (slice64 (cr_buf T) d) as [s2|] eqn:S2; [|discriminate H5]. apply beqs_eq in H5 as ->.
  exists e, d. split; [reflexivity|]. split; apply text_slice; assumption.
Qed.
Lemma shipped_split : split_engine shipped 494 = true.
Proof. vm_compute. reflexivity. Qed.

Lemma edge_engine sys name c v mC mD h : In (sys, name) systems -> version_number c -> version_number v -> short (edge_ua sys c v) -> on mC 1 ->
  alone shipped mC mD h (edge_ua sys c v) GEngine = Ok (VB (bs "Blink")).
Proof.
  intros I Hc Hv L O. destruct (system_place _ _ I) as (ko & ver & IP). destruct (edge_desktop mC mD sys name ko ver IP O c v Hc Hv L) as (_ & _ & _ & _ & _ & x & Ex & Cx & _ & NP).
  exact (fixed_engine_ok shipped mC mD h _ 294 x _ shipped_client_sane (short_small _ L) (proj1 shipped_fixed) Ex Cx (NP h GEngine)).
Qed.
Lemma firefox_engine sys name r v mC mD h : In (sys, name) systems -> version_number r -> version_number v -> short (firefox_ua sys r v) -> on mC 1 ->
  alone shipped mC mD h (firefox_ua sys r v) GEngine = Ok (VB (bs "Gecko")).
Proof.
  intros I Hc Hv L O. destruct (system_place _ _ I) as (ko & ver & IP). destruct (firefox_desktop mC mD sys name ko ver IP O r v Hc Hv L) as (_ & _ & _ & _ & _ & x & Ex & Cx & _ & NP).
  exact (fixed_engine_ok shipped mC mD h _ 364 x _ shipped_client_sane (short_small _ L) (proj2 shipped_fixed) Ex Cx (NP h GEngine)).
Qed.
Lemma chrome_engine sys name v m n mC mD h : In (sys, name) systems -> version_number v -> short (chrome_ua sys v) -> on mC 1 ->
  major_of v m -> Decimal m n -> plain m -> (n < 1000)%Z ->
  ((2 < n < 10 \/ 28 <= n < 100 \/ 280 <= n)%Z -> alone shipped mC mD h (chrome_ua sys v) GEngine = Ok (VB (bs "Blink"))) /\
  ((n <= 2 \/ 10 <= n < 28 \/ 100 <= n < 280)%Z -> alone shipped mC mD h (chrome_ua sys v) GEngine = Ok (VB (bs "WebKit"))).
Proof.
  intros I Hv L O Mj Dn Pm Ln. destruct (system_place _ _ I) as (ko & ver & IP).
  destruct (chrome_desktop mC mD sys name ko ver IP O v Hv L) as (_ & _ & Qv & _ & _ & x & Ex & Cx & Cf & NP).
  pose proof (short_small _ L) as Sm.
  destruct (split_engine_inv shipped 494 x shipped_split Ex) as (FI & V0 & e & d & Ef & Te & Td).
  destruct (text_value shipped mC mD h (chrome_ua sys v) GEngine ltac:(cbn; auto 10) (NP h GEngine)) as [w Hw]. rewrite Hw.
  assert (Fr : client_fragment shipped (chrome_ua sys v) x v).
  { destruct (browser_version shipped mC mD h (chrome_ua sys v) shipped_client_sane Sm v (Qv h)) as [[NC _]|(t & idx & y & f & Cy & Fr & _)]; [destruct (client_is_some _ _ _ _ _ _ Cx NC)|].
    destruct (client_is_unique _ _ _ _ _ _ _ _ _ Cx Cy) as (_ & _ & <-). rewrite <- (Cf f Fr) at 2. exact Fr. }
  destruct (shipped_28 mC mD h (chrome_ua sys v) 1 x e d v m n w Sm Cx FI Ef Te Td (ES_fragment _ _ _ v (or_intror V0) Fr) Mj Dn Pm Ln Hw) as [[-> R]|[-> R]]; split; intros R'; try reflexivity; lia.
Qed.
Lemma decimal_120 : Decimal (bs "120") 120.
Proof.
  apply (Decimal_snoc (bs "12") 12 x30 0); [apply (Decimal_snoc (bs "1") 1 x32 2); [apply (Decimal_one x31 1)|]|]; unfold Digit; vm_compute; auto.
Qed.
Lemma major_120 : major_of (bs "120.0.0.0") (bs "120").
Proof. left. exists (bs "0.0.0"). split; [reflexivity|]. intros [H|[H|[H|[]]]]; discriminate H. Qed.
Lemma plain_120 : plain (bs "120").
Proof. exists x31, (bs "20"). split; [reflexivity|discriminate]. Qed.
Lemma chrome_120 : exists sys name v m n mC mD, In (sys, name) systems /\ version_number v /\ short (chrome_ua sys v) /\ on mC 1 /\
  major_of v m /\ Decimal m n /\ (28 <= n)%Z /\ alone shipped mC mD 0 (chrome_ua sys v) GEngine = Ok (VB (bs "WebKit")).
Proof.
  exists (bs "X11; Linux x86_64"), (bs "GNU/Linux"), (bs "120.0.0.0"), (bs "120"), 120%Z, 1%N, 0%N.
  assert (I : In (bs "X11; Linux x86_64", bs "GNU/Linux") systems) by (right; right; left; reflexivity).
  assert (V : version_number (bs "120.0.0.0")) by (apply is_version_ok; reflexivity).
  assert (L : short (chrome_ua (bs "X11; Linux x86_64") (bs "120.0.0.0"))) by (apply short_200; reflexivity).
  assert (O : on 1 1) by discriminate.
  split; [exact I|]. split; [exact V|]. split; [exact L|]. split; [exact O|]. split; [exact major_120|]. split; [exact decimal_120|]. split; [lia|].
  apply (proj2 (chrome_engine _ _ _ _ 120 1 0 0 I V L O major_120 decimal_120 plain_120 ltac:(lia))). lia.
Qed.

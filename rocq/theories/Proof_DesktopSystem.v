(** The systems of the desktop families. *)
From Verif Require Import Model_Base Model_CacheEntry Model_Regex Model_Ctx Model_Parse Model_Shipped Spec_Regex Spec_Getters Spec_Select Spec_Word Spec_Panic Spec_Family
  Proof_Base Proof_Pattern Proof_Word Proof_Covers Proof_Quick Proof_Index Proof_Shadow Proof_Bare Proof_Charset Proof_Agree Proof_Select Proof_OS Proof_OsInside
  Proof_Live Proof_Tables Proof_Fine Proof_StaleShipped Proof_Reports Proof_Family Proof_Tail Proof_Desktop.
From Coq Require Import Lia ZifyBool ZifyNat ZifyN.
Open Scope nat_scope.

(** A pattern without [$] does not look at what follows. *)
Fixpoint no_end (a : re) : bool :=
  match a with Eol => false | Cat a b | Alt a b => no_end a && no_end b | Star _ a | Grp _ a => no_end a | _ => true end.
Lemma no_end_ok a u v w : lang a u v w -> no_end a = true -> forall w', lang a u v w'.
Proof.
  induction 1; cbn [no_end]; intros H' w'; try discriminate H'; try (apply andb_prop in H' as [? ?]); try (constructor; auto; fail).
Qed.

Definition system_entry (T : tables) (k : nat) (start name : bytes) (version : option bytes) : bool :=
  match nth_error (or_os T) k with
  | Some x =>
      (0 <=? ot_matchRI x)%Z && (ot_nameSI x =? -1)%Z && negb (ot_name64 x =? 0)%N &&
      match slice64 (or_buf T) (ot_name64 x) with Ok s => beqs s name | Panic => false end && beqs (trim name x20) name &&
      match nth_error (or_re T) (Z.to_nat (ot_matchRI x)) with
      | Some r => match parse_re (re_src r) with Some (a, _) => no_end a && tries a (places true (map chr start)) | None => false end
      | None => false
      end &&
      match version with
      | Some [] => (ot_version64 x =? 0)%N && (ot_versions64 x =? 0)%N && (ot_versionSI x =? -1)%Z
      | Some v => negb (ot_version64 x =? 0)%N && match slice64 (or_buf T) (ot_version64 x) with Ok s => beqs s v && negb (existsb (Byte.eqb x5f) v) | Panic => false end
      | None => true
      end
  | None => false
  end.

Lemma dotted_same s out : dotted s out -> ~ In x5f s -> out = s.
Proof.
  revert out. induction s as [|b s IH]; intros [|c out] [L H] NI; try discriminate L; [reflexivity|].
  destruct (H 0 b eq_refl) as [_ H0]. cbn in H0. assert (b <> x5f) by (intros ->; apply NI; left; reflexivity). specialize (H0 H1). injection H0 as ->.
  f_equal. apply IH; [|intros I; apply NI; right; exact I]. split; [cbn in L; lia|]. intros i d E. exact (H (S i) d E).
Qed.

Definition systems_miss (T : tables) (l : list (list item * N)) : bool :=
  let t := numbered (or_re T) in let ps := numbered (pages 200 (or_buf T)) in
  table_miss (fun x => quick_at t ps (ot_matchRI x) (ot_match64 x)) (map (fun x => (fam_of (fst x), snd x)) l) 0 (or_os T).

Section System.
Variable T : tables.
Hypothesis CO : compiled (or_re T).
Hypothesis S2 : os_sane T.
Hypothesis NS : forall ua x, ~ skipped T ua x.
Variable l : list (list item * N).
Hypothesis OM : systems_miss T l = true.
Variables (items : list item) (k : nat) (start rest name : bytes) (version : option bytes) (mC mD : N).
Notation ua := (start ++ rest).
Hypothesis HI : In (items, N.of_nat k) l.
Hypothesis FF : fixed_first items = true.
Hypothesis HA : ascii ua.
Hypothesis HG : gen items (runes ua).
Hypothesis SE : system_entry T k start name version = true.
Hypothesis Sm : Spec_Select.small ua.
Hypothesis NP : forall h g, In g [GOS; GOSVersion; GOSVersionString] -> alone T mC mD h ua g <> Panic.
Lemma system_first : exists x, nth_error (or_os T) k = Some x /\ os_is T ua x.
Proof.
  unfold system_entry in SE. destruct (nth_error (or_os T) k) as [x|] eqn:Nx; [|discriminate SE].
  apply andb_prop in SE as [H H7]. apply andb_prop in H as [H H6]. apply andb_prop in H as [H H5]. apply andb_prop in H as [H H4].
  apply andb_prop in H as [H H3]. apply andb_prop in H as [H1 H2].
  destruct (slice64 (or_buf T) (ot_name64 x)) as [s0|] eqn:Sl; [|discriminate H4]. apply beqs_eq in H4 as ->. apply beqs_eq in H5.
  destruct (nth_error (or_re T) (Z.to_nat (ot_matchRI x))) as [r|] eqn:Nr; [|discriminate H6].
  destruct (parse_re (re_src r)) as [[a ng]|] eqn:P; [|discriminate H6]. apply andb_prop in H6 as [H6 H8].
  apply tries_found in H8 as (u & v & w & Eu & Lu).
  assert (AP : os_applies T ua x).
  { split; [apply NS|]. left. split; [lia|]. exists r. split; [exact Nr|]. rewrite (CO r (nth_error_In _ _ Nr)).
    apply (proj2 (compile_lang (re_src r) a ng ua P)). exists u, v, (w ++ map chr rest). split.
    - rewrite (runes_ascii_all ua HA), map_app. fold chr. rewrite !app_assoc, <- (app_assoc u). rewrite <- Eu. reflexivity.
    - exact (no_end_ok a u v w Lu H6 _). }
  assert (OI : os_is T ua x).
  { pose proof Nx as Nk. apply nth_error_split in Nk as (l1 & l2 & E2 & L1). exists l1, l2. split; [exact E2|]. split; [exact AP|].
    intros y Iy [_ Ay]. apply In_nth_error in Iy as [j Nj]. assert (j < length l1) by (apply nth_error_Some; rewrite Nj; discriminate).
    assert (Ny : nth_error (or_os T) j = Some y) by (rewrite E2, nth_error_app1 by lia; exact Nj).
    pose proof (table_miss_ok _ _ _ 0%N OM (fam_of items) (N.of_nat k) j y (in_map (fun x => (fam_of (fst x), snd x)) l (items, N.of_nat k) HI) Ny ltac:(lia)) as M.
    exact (quick_at_ok items 200 _ _ _ _ ua FF CO HA HG M Ay). }
  exists x. auto.
Qed.
Lemma system_answers : (forall h, alone T mC mD h ua GOS = Ok (VB name)) /\ forall v, version = Some v -> forall h, alone T mC mD h ua GOSVersionString = Ok (VB v).
Proof.
  destruct system_first as (x0 & Nx0 & OI).
  unfold system_entry in SE. rewrite Nx0 in SE. rename x0 into x.
  apply andb_prop in SE as [H H7]. apply andb_prop in H as [H H6]. apply andb_prop in H as [H H5]. apply andb_prop in H as [H H4].
  apply andb_prop in H as [H H3]. apply andb_prop in H as [H1 H2].
  destruct (slice64 (or_buf T) (ot_name64 x)) as [s0|] eqn:Sl; [|discriminate H4]. apply beqs_eq in H4 as ->. apply beqs_eq in H5.
  destruct (nth_error (or_re T) (Z.to_nat (ot_matchRI x))) as [r|] eqn:Nr; [|discriminate H6].
   clear H6.
  split.
  - intros h. destruct (text_value T mC mD h ua GOS ltac:(cbn; auto 10) (NP h GOS ltac:(cbn; auto))) as [os Ho]. rewrite Ho.
    pose proof (proj1 (proj2 (proj1 (os_reports T mC mD h ua S2 Sm) os Ho)) x OI) as Nm.
    destruct Nm as [m s out F [G _] _ _|m F [G _] _|s out _ _ Tx Tr|_ Z0]; try lia.
    assert (s = name) as -> by (apply text_slice in Tx; rewrite Sl in Tx; injection Tx as ->; reflexivity).
    rewrite (trimmed_fun name out (trim name x20) Tr (trim_trimmed name)), H5. reflexivity.
  - intros vv -> h. destruct (text_value T mC mD h ua GOSVersionString ltac:(cbn; auto 10) (NP h GOSVersionString ltac:(cbn; auto))) as [s Hs]. rewrite Hs.
    destruct (proj2 (proj2 (os_reports T mC mD h ua S2 Sm) s Hs) x OI) as (f & Vf & D). destruct vv as [|b vv].
    + assert (f = []) as ->.
      { destruct Vf as [? Vn| | m ? ? ? ? [[G _]|[_ ->]] | | | ]; try lia; reflexivity. }
      rewrite (dotted_same [] s D ltac:(intros [])). reflexivity.
    + apply andb_prop in H7 as [H7 H9]. destruct (slice64 (or_buf T) (ot_version64 x)) as [s1|] eqn:Sv; [|discriminate H9].
      apply andb_prop in H9 as [H9 H10]. apply beqs_eq in H9 as ->.
      assert (f = b :: vv) as ->.
      { destruct Vf as [? Vn Tx|? ?|? ? ? |? ? ? ?|? ? ? ? ?|? ? ? ? ?]; try lia. apply text_slice in Tx. rewrite Sv in Tx. injection Tx as ->. reflexivity. }
      rewrite (dotted_same (b :: vv) s D). reflexivity.
      intros I. apply Bool.negb_true_iff in H10. rewrite <- Bool.not_true_iff_false in H10. apply H10. apply existsb_exists. exists x5f. split; [exact I|reflexivity].
Qed.
End System.

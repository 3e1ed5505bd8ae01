(** Whose context it is. *)
From Coq Require Import Lia.
From Verif Require Import Model_Base Model_CacheEntry Model_Version Model_Ctx Model_Parse Model_Share Spec_Getters Spec_Again Spec_Share.

Lemma put_len h : forall p c, length (put_ctx h p c) = length h.
Proof. induction h as [|x h IH]; intros [|p] c; cbn; auto. Qed.
Lemma put_same h : forall p c, p < length h -> nth_error (put_ctx h p c) p = Some c.
Proof. induction h as [|x h IH]; intros [|p] c L; cbn in *; try lia; [reflexivity|]. apply IH. lia. Qed.
Lemma put_other h : forall p q c, p <> q -> nth_error (put_ctx h p c) q = nth_error h q.
Proof. induction h as [|x h IH]; intros [|p] [|q] c N; cbn; auto; try congruence. Qed.
Lemma reset_new c : ctx_reset c = new_ctx.
Proof. destruct c. reflexivity. Qed.

Section Share.
Variable T : tables.
Record inv (tr : list event) (s : shared) : Prop := mkInv {
  i_nodup : NoDup (sh_free s);
  i_free : forall p, In p (sh_free s) -> nth_error (sh_heap s) p = Some new_ctx /\ forall u, ~ owns tr u p;
  i_live : forall u p, owns tr u p -> exists c, nth_error (sh_heap s) p = Some c /\ lone T (done tr u p) c;
  i_one : forall u u' p, owns tr u p -> owns tr u' p -> u = u'
}.
Lemma bounds {A} (h : list A) p c : nth_error h p = Some c -> p < length h.
Proof. intros E. apply nth_error_Some. congruence. Qed.
Lemma same_iff u u' p p' : (u' =? u) && (p' =? p) = true <-> u' = u /\ p' = p.
Proof. rewrite andb_true_iff, !Nat.eqb_eq. reflexivity. Qed.
Lemma share_inv tr s : happens T tr s -> disciplined tr -> inv tr s.
Proof.
  induction 1 as [|tr s e s' Hp IH Mv].
  - intros _. constructor; cbn; [constructor|tauto|tauto|tauto].
  - intros Di. destruct Mv as [u p f1 f2 F|u|u p c o c' r E Do|u p c E|p f1 f2 F]; cbn [disciplined] in Di; [| |destruct Di as [Ow Di]|destruct Di as [Ow Di]|]; specialize (IH Di); destruct IH as [ND Fr Lv On].
    + assert (Ip : In p (sh_free s)) by (rewrite F; apply in_elt). destruct (Fr p Ip) as [Np No]. rewrite F in ND.
      assert (Sub : forall q, In q (f1 ++ f2) -> In q (sh_free s)) by (intros q; rewrite F, !in_app_iff; cbn; tauto).
      constructor; cbn [sh_heap sh_free owns done].
      * exact (NoDup_remove_1 _ _ _ ND).
      * intros q I. destruct (Fr q (Sub q I)) as [N1 N2]. split; [exact N1|]. intros v [[-> ->]|O]; [|exact (N2 v O)]. exact (NoDup_remove_2 _ _ _ ND I).
      * intros v q [[<- <-]|O].
        -- exists new_ctx. rewrite !Nat.eqb_refl. cbn. split; [exact Np|constructor].
        -- destruct ((u =? v) && (p =? q)) eqn:B; [apply same_iff in B as [-> ->]; destruct (No v O)|]. apply Lv. exact O.
      * intros v w q [[<- <-]|O] [[<- E']|O']; auto; try (subst; exfalso; eapply No; eassumption). exact (On _ _ _ O O').
    + assert (Fresh : forall v, ~ owns tr v (length (sh_heap s))).
      { intros v O. destruct (Lv v _ O) as (c & E & _). apply bounds in E. lia. }
      constructor; cbn [sh_heap sh_free owns done].
      * exact ND.
      * intros q I. destruct (Fr q I) as [N1 N2]. split; [rewrite nth_error_app1; [exact N1|exact (bounds _ _ _ N1)]|].
        intros v [[_ <-]|O]; [|exact (N2 v O)]. apply bounds in N1. lia.
      * intros v q [[<- <-]|O].
        -- exists new_ctx. rewrite !Nat.eqb_refl, nth_error_app2, Nat.sub_diag by lia. cbn. split; [reflexivity|constructor].
        -- destruct ((u =? v) && (length (sh_heap s) =? q)) eqn:B; [apply same_iff in B as [-> <-]; destruct (Fresh v O)|].
           destruct (Lv v q O) as (c & E & L). exists c. split; [rewrite nth_error_app1; [exact E|exact (bounds _ _ _ E)]|exact L].
      * intros v w q [[<- <-]|O] [[<- E']|O']; auto; try (subst; exfalso; eapply Fresh; eassumption). exact (On _ _ _ O O').
    + destruct (Lv u p Ow) as (c1 & E1 & L1). rewrite E in E1. injection E1 as <-.
      constructor; cbn [sh_heap sh_free owns done].
      * exact ND.
      * intros q I. destruct (Fr q I) as [N1 N2]. split; [|exact N2]. rewrite put_other; [exact N1|]. intros <-. exact (N2 u Ow).
      * intros v q O. destruct ((u =? v) && (p =? q)) eqn:B.
        -- apply same_iff in B as [<- <-]. exists c'. split; [apply put_same; exact (bounds _ _ _ E)|]. econstructor; eassumption.
        -- rewrite put_other; [apply Lv; exact O|]. intros <-. pose proof (On _ _ _ Ow O) as <-. rewrite !Nat.eqb_refl in B. discriminate B.
      * exact On.
    + constructor; cbn [sh_heap sh_free owns done].
      * constructor; [|exact ND]. intros I. destruct (Fr p I) as [_ No]. exact (No u Ow).
      * intros q [<-|I].
        -- split; [rewrite put_same by exact (bounds _ _ _ E); rewrite reset_new; reflexivity|]. intros v [Nv O]. apply Nv. split; [exact (On _ _ _ Ow O)|reflexivity].
        -- destruct (Fr q I) as [N1 N2]. split; [|intros v [_ O]; exact (N2 v O)]. rewrite put_other; [exact N1|]. intros <-. exact (N2 u Ow).
      * intros v q [Nv O]. rewrite put_other; [apply Lv; exact O|]. intros <-. apply Nv. split; [exact (On _ _ _ Ow O)|reflexivity].
      * intros v w q [_ O] [_ O']. exact (On _ _ _ O O').
    + rewrite F in ND. assert (Sub : forall q, In q (f1 ++ f2) -> In q (sh_free s)) by (intros q; rewrite F, !in_app_iff; cbn; tauto).
      constructor; cbn [sh_heap sh_free owns done]; auto. exact (NoDup_remove_1 _ _ _ ND).
Qed.
Lemma exclusive tr s u u' p : happens T tr s -> disciplined tr -> owns tr u p -> owns tr u' p -> u = u'.
Proof. intros H D. apply (i_one _ _ (share_inv tr s H D)). Qed.
Lemma as_if_alone tr s u p : happens T tr s -> disciplined tr -> owns tr u p -> exists c, nth_error (sh_heap s) p = Some c /\ lone T (done tr u p) c.
Proof. intros H D. apply (i_live _ _ (share_inv tr s H D)). Qed.

(** A context released twice is given to two users. *)
Lemma twice_given ua ua' : exists tr s, happens T tr s /\
  tr = [EDo 2 0 (OGet GUserAgent) (Some (Ok (VB ua'))); EDo 3 0 (OUserAgent ua') None; EDo 2 0 (OUserAgent ua) None; EAcquire 3 0; EAcquire 2 0; ERelease 1 0; ERelease 1 0; EAcquire 1 0].
Proof.
  eexists. eexists. split; [|reflexivity].
  eapply Hp_step; [eapply Hp_step; [eapply Hp_step; [eapply Hp_step; [eapply Hp_step; [eapply Hp_step; [eapply Hp_step; [eapply Hp_step; [apply Hp_start|]|]|]|]|]|]|]|].
  - apply (M_new T (mkSh [] []) 1).
  - eapply M_put. reflexivity.
  - eapply M_put. reflexivity.
  - apply (M_old T _ 2 0 [] [0]). reflexivity.
  - apply (M_old T _ 3 0 [] []). reflexivity.
  - eapply M_do; [reflexivity|constructor].
  - eapply M_do; [reflexivity|constructor].
  - eapply M_do; [reflexivity|]. constructor. cbn [run_getter]. apply Leaf_ret.
Qed.
(** So is one that is used after it was released. *)
Lemma still_used ua ua' : exists tr s, happens T tr s /\
  tr = [EDo 2 0 (OGet GUserAgent) (Some (Ok (VB ua'))); EDo 1 0 (OUserAgent ua') None; EDo 2 0 (OUserAgent ua) None; EAcquire 2 0; ERelease 1 0; EAcquire 1 0].
Proof.
  eexists. eexists. split; [|reflexivity].
  eapply Hp_step; [eapply Hp_step; [eapply Hp_step; [eapply Hp_step; [eapply Hp_step; [eapply Hp_step; [apply Hp_start|]|]|]|]|]|].
  - apply (M_new T (mkSh [] []) 1).
  - eapply M_put. reflexivity.
  - apply (M_old T _ 2 0 [] []). reflexivity.
  - eapply M_do; [reflexivity|constructor].
  - eapply M_do; [reflexivity|constructor].
  - eapply M_do; [reflexivity|]. constructor. cbn [run_getter]. apply Leaf_ret.
Qed.
(** A disciplined history. *)
Lemma two_users : exists tr s, happens T tr s /\ disciplined tr /\ owns tr 2 0 /\ owns tr 1 1 /\
  done tr 2 0 = [(OGet GUserAgent, Some (Ok (VB (bs "b")))); (OUserAgent (bs "b"), None)].
Proof.
  exists [EDo 2 0 (OGet GUserAgent) (Some (Ok (VB (bs "b")))); EDo 1 1 (OUserAgent (bs "c")) None; EDo 2 0 (OUserAgent (bs "b")) None; EAcquire 1 1; EAcquire 2 0; ERelease 1 0; EDo 1 0 (OUserAgent (bs "a")) None; EAcquire 1 0].
  eexists. split; [|cbn; intuition congruence].
  eapply Hp_step; [eapply Hp_step; [eapply Hp_step; [eapply Hp_step; [eapply Hp_step; [eapply Hp_step; [eapply Hp_step; [eapply Hp_step; [apply Hp_start|]|]|]|]|]|]|]|].
  - apply (M_new T (mkSh [] []) 1).
  - eapply M_do; [reflexivity|constructor].
  - eapply M_put. reflexivity.
  - apply (M_old T _ 2 0 [] []). reflexivity.
  - apply (M_new T (mkSh [ctx_reset (set_user_agent (bs "a") new_ctx)] []) 1).
  - eapply M_do; [reflexivity|constructor].
  - eapply M_do; [reflexivity|constructor].
  - eapply M_do; [reflexivity|]. constructor. cbn [run_getter]. apply Leaf_ret.
Qed.
End Share.

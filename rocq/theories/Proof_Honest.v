(** Transparency of honest caches. *)
From Verif Require Import Model_Base Model_CacheEntry Model_Version Model_Ctx Model_Parse Model_Cache Spec_CacheEntry
  Spec_Getters Spec_Honest Proof_Base Proof_CacheEntry Proof_Safe Proof_Getters.

Section Honest.
Variable T : tables.
Variables mC mD : N.
Notation G := (G' T mC mD).
Definition world_inv (wants : list (list (bytes * N * getter))) (w : world) : Prop :=
  (forall k e, In (k, e) (fst w) -> G k e) /\
  Forall2 (fun want p => safe G p (fun rs => Forall2 (ok_call T mC mD) want rs)) wants (snd w).

Lemma answers_good stored key o : (forall k e, In (k, e) stored -> G k e) -> answers stored key o -> forall e, o = Some e -> G key e.
Proof.
  intros H A e ->. inversion A as [|e0 hk ts I E|e0 hk ts buf buf' n receiver r I W M U E]; subst.
  - apply (row_ok_stamp T mC mD key e0 hk ts). apply H. exact I.
  - destruct (Nat.le_gt_cases (size (with_stamp e0 hk ts)) (length buf)) as [L|L].
    + destruct (round_trip (with_stamp e0 hk ts) receiver buf W L) as (b & M' & U' & _). rewrite M in M'. injection M' as <- _.
      rewrite U in U'. injection U' as ->. apply (row_ok_stamp T mC mD key e0 hk ts). apply H. exact I.
    + unfold marshal_to in M. apply Nat.ltb_lt in L. rewrite L in M. discriminate M.
Qed.
Lemma world_step wants w w' : world_inv wants w -> honest_step w w' -> world_inv wants w'.
Proof.
  intros [R TI] S. destruct S as [stored ts1 ts2 key k o A|stored ts1 ts2 key e p]; unfold world_inv in *; cbn [fst snd] in *;
    apply Forall2_app_inv_r in TI as (w1 & w2 & F1 & F2 & ->); inversion F2 as [|x y x' y' H F3]; subst.
  - split; [exact R|]. apply Forall2_app; [exact F1|]. constructor; [|exact F3]. cbn [safe] in H. apply H. exact (answers_good stored key o R A).
  - cbn [safe] in H. destruct H as [Hg H]. split; [|apply Forall2_app; [exact F1|]; constructor; assumption].
    intros k0 e0 [E|I]; [injection E as <- <-; exact Hg|exact (R k0 e0 I)].
Qed.
Lemma honest scripts w : honest_run (begin T mC mD scripts) w -> forall i l rs, nth_error scripts i = Some l -> nth_error (snd w) i = Some (Ret rs) ->
  Forall2 (fun x r => detects T mC mD (fst (fst x)) -> snd x <> GModel -> as_alone T mC mD x r) (calls l [] 0) rs.
Proof.
  intros R.
  assert (I : world_inv (map (fun l => calls l [] 0) scripts) w).
  { remember (begin T mC mD scripts) as w0 eqn:E. induction R as [w|w1 w2 w3 R IH S]; [subst w|eapply world_step; [apply IH; exact E|exact S]].
    split; [intros k e []|]. cbn [begin snd]. clear. induction scripts as [|l scripts IH]; cbn [map]; constructor; [|exact IH].
    apply safe_script. apply weak_recycle. }
  intros i l rs Hl Hi. destruct I as [_ TI].
  assert (W : nth_error (map (fun l => calls l [] 0) scripts) i = Some (calls l [] 0)) by (rewrite nth_error_map, Hl; reflexivity).
  clear - TI Hi W. revert i Hi W. induction TI as [|x p ws ps S F IH]; intros [|i] Hi W; cbn in *; try discriminate.
  - injection Hi as ->. injection W as ->. exact S.
  - eapply IH; eassumption.
Qed.
End Honest.

(** Reachable: the world in which a row goes through its serialised form. *)
Lemma honest_trans w1 w2 w3 : honest_run w1 w2 -> honest_run w2 w3 -> honest_run w1 w3.
Proof. intros A B. induction B as [|w2 w3 w4 B IH S]; [exact A|]. eapply HR_step; [apply IH; exact A|exact S]. Qed.

Definition wf_b (r : entry) : bool :=
  ((e_bits r <? 2 ^ 64) && (e_clientType r <? 2 ^ 8) && (e_clientName r <? 2 ^ 64) && (e_clientVersion r <? 2 ^ 64) &&
   (e_engineName r <? 2 ^ 64) && (e_engineVersion r <? 2 ^ 64) && (e_deviceType r <? 2 ^ 16) &&
   (e_brandName r <? 2 ^ 64) && (e_modelName r <? 2 ^ 64) && (e_osName r <? 2 ^ 64) && (e_osVersion r <? 2 ^ 64) &&
   (e_hkey r <? 2 ^ 64) && (N.of_nat (length (e_data r)) <? 2 ^ 32))%N &&
  ((- 2 ^ 63 <=? e_timestamp r) && (e_timestamp r <? 2 ^ 63))%Z.
Lemma wf_checked r : wf_b r = true -> entry_wf r.
Proof. unfold wf_b, entry_wf. rewrite !Bool.andb_true_iff, !N.ltb_lt, Z.leb_le, Z.ltb_lt. tauto. Qed.
Fixpoint last_row (stored : list (bytes * entry)) (key : bytes) : option entry :=
  match stored with [] => None | (k, e) :: l => if beqs k key then Some e else last_row l key end.
Lemma last_row_in stored key e : last_row stored key = Some e -> In (key, e) stored.
Proof.
  induction stored as [|[k x] l IH]; cbn [last_row]; [discriminate|]. destruct (beqs k key) eqn:B; [|intros H; right; apply IH; exact H].
  intros H. injection H as ->. apply beqs_eq in B as ->. left. reflexivity.
Qed.
(** A cache that keeps rows in serialised form. *)
Fixpoint run_wire {A} (p : prog A) (stored : list (bytes * entry)) : option (A * list (bytes * entry)) :=
  match p with
  | Ret a => Some (a, stored)
  | CGet key k =>
      match last_row stored key with
      | None => run_wire (k None) stored
      | Some e =>
          let e1 := with_stamp e 7 5 in
          if wf_b e1 then
            match marshal_to e1 (repeat x00 (size e1)) with
            | (b, _, MNil) => match unmarshal entry_zero b with Ok (r, UNil) => run_wire (k (Some r)) stored | _ => None end
            | _ => None
            end
          else None
      end
  | CSet key e k => run_wire k ((key, e) :: stored)
  end.
Lemma wire_run (p : prog (list (res value))) : forall stored a stored' ts1 ts2, run_wire p stored = Some (a, stored') ->
  honest_run (stored, ts1 ++ p :: ts2) (stored', ts1 ++ Ret a :: ts2).
Proof.
  induction p as [x|key k IH|key e p IH]; intros stored a stored' ts1 ts2 H; cbn [run_wire] in H.
  - injection H as -> ->. apply HR_refl.
  - destruct (last_row stored key) as [e|] eqn:L.
    + cbv zeta in H. destruct (wf_b (with_stamp e 7 5)) eqn:W; [|discriminate].
      destruct (marshal_to (with_stamp e 7 5) (repeat x00 (size (with_stamp e 7 5)))) as [[b n] [|]] eqn:Em; [|discriminate].
      destruct (unmarshal entry_zero b) as [[r [|]]|] eqn:Eu; try discriminate.
      apply honest_trans with (stored, ts1 ++ k (Some r) :: ts2); [|apply IH; exact H]. eapply HR_step; [apply HR_refl|].
      apply H_get. eapply A_wire; [apply last_row_in; exact L|apply wf_checked; exact W|exact Em|exact Eu].
    + apply honest_trans with (stored, ts1 ++ k None :: ts2); [|apply IH; exact H]. eapply HR_step; [apply HR_refl|]. apply H_get. constructor.
  - apply honest_trans with ((key, e) :: stored, ts1 ++ p :: ts2); [|apply IH; exact H]. eapply HR_step; [apply HR_refl|]. apply H_set.
Qed.
Definition wire_check (T : tables) (l : list act) (b : bytes) (n : nat) : bool :=
  match run_wire (script T 63 1023 l (recycle 63 1023 new_ctx)) [] with
  | Some (rs, stored) => forallb (fun r => match r with Ok (VB x) => beqs x b | _ => false end) rs && (length stored =? n) && negb (length rs =? 0)
  | None => false
  end.
Lemma wire_case T l b n : wire_check T l b n = true -> exists stored rs,
  honest_run (begin T ClientTypeAll DeviceTypeAll [l]) (stored, [Ret rs]) /\ length stored = n /\ rs <> [] /\ (forall r, In r rs -> r = Ok (VB b)).
Proof.
  unfold wire_check. destruct (run_wire _ []) as [[rs stored]|] eqn:E; [|discriminate]. intros H. apply andb_prop in H as [H N]. apply andb_prop in H as [H L].
  exists stored, rs. split; [exact (wire_run _ [] rs stored [] [] E)|]. split; [apply Nat.eqb_eq; exact L|]. split; [intros ->; discriminate N|].
  intros r I. rewrite forallb_forall in H. specialize (H r I). destruct r as [[|x|]|]; try discriminate. apply beqs_eq in H as ->. reflexivity.
Qed.

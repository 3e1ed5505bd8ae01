(** The shipped database: exactly which entries can never answer. *)
From Coq Require Import Lia.
From Verif Require Import Model_Base Model_Blob Model_Ctx Model_Regex Model_Shipped Model_Parse Spec_Select Spec_Dead Spec_Getters Data_Witness
  Proof_Select Proof_OS Proof_Dead Proof_Shadow Proof_Index Proof_Entries Proof_EntriesDev.
Open Scope nat_scope.

Lemma compile_src s : re_src (compile s) = s.
Proof. unfold compile. destruct (parse_re s) as [[a n]|]; reflexivity. Qed.
Lemma compile_all_compiled l : compiled (compile_all l).
Proof. intros r I. apply in_map_iff in I. destruct I as (b & <- & _). rewrite compile_src. reflexivity. Qed.
Lemma cr_compiled : compiled (cr_re shipped). Proof. exact (compile_all_compiled _). Qed.
Lemma or_compiled : compiled (or_re shipped). Proof. exact (compile_all_compiled _). Qed.
Lemma dr_compiled : compiled (dr_re shipped). Proof. exact (compile_all_compiled _). Qed.

(** Witnesses everywhere else. *)
Fixpoint given_from (n : nat) (ws : list bytes) (places : list nat) : bool :=
  match ws with
  | [] => true
  | w :: ws' => if match w with [] => existsb (Nat.eqb n) places | _ => true end then given_from (S n) ws' places else false
  end.
Definition given (ws : list bytes) (places : list nat) : bool := given_from 0 ws places.
Lemma given_nth places ws : forall n i w, given_from n ws places = true -> nth_error ws i = Some w -> w = [] -> In (n + i) places.
Proof.
  induction ws as [|v ws IH]; intros n i w G E ->; [destruct i; discriminate E|]. cbn [given_from] in G.
  destruct i as [|i]; cbn in E.
  - injection E as ->. destruct (existsb (Nat.eqb n) places) eqn:X; [|discriminate G]. apply existsb_exists in X. destruct X as (j & J & X).
    apply PeanoNat.Nat.eqb_eq in X. subst j. rewrite PeanoNat.Nat.add_0_r. exact J.
  - replace (n + S i) with (S n + i) by lia. apply (IH (S n) i [] ); [|exact E|reflexivity].
    destruct (match v with [] => _ | _ => true end); [exact G|discriminate G].
Qed.
Lemma exactly {A} (Q : bytes -> A -> Prop) l ws places : length ws = length l ->
  (forall i w, nth_error ws i = Some w -> w <> [] -> picked (Q w) l i) -> (forall i, In i places -> dead Q l i) -> given ws places = true ->
  forall i, i < length l -> (dead Q l i <-> In i places).
Proof.
  intros L W D G i I. split; [|apply D]. intros X. rewrite <- L in I. apply nth_error_Some in I.
  destruct (nth_error ws i) as [w|] eqn:N; [|contradiction (I eq_refl)].
  assert (E : w = [] \/ w <> []) by (destruct w; [left; reflexivity|right; discriminate]).
  destruct E as [E|E]; [exact (given_nth places ws 0 i w G N E)|contradiction (X w (W i w N E))].
Qed.
Definition given_each (wss : list (list blob)) (ds : list (nat * nat)) : bool :=
  forallb (fun k => given (map unblob (nth k wss [])) (map snd (filter (fun d => fst d =? k) ds))) (seq 0 (length wss)).
Lemma given_each_nth wss ds k w : given_each wss ds = true -> nth_error wss k = Some w -> given (map unblob w) (map snd (filter (fun d => fst d =? k) ds)) = true.
Proof.
  intros G N. unfold given_each in G. rewrite forallb_forall in G. specialize (G k). rewrite (nth_error_nth _ _ [] N) in G. apply G.
  apply in_seq. pose proof (nth_error_Some wss k). rewrite N in H. assert (k < length wss) by (apply H; discriminate). lia.
Qed.
Lemma of_class k i (ds : list (nat * nat)) : In i (map snd (filter (fun d => fst d =? k) ds)) <-> In (k, i) ds.
Proof.
  rewrite in_map_iff. split.
  - intros ([k' i'] & E & I). cbn in E. subst i'. apply filter_In in I. destruct I as [I K]. cbn in K. apply PeanoNat.Nat.eqb_eq in K. subst k'. exact I.
  - intros I. exists (k, i). split; [reflexivity|]. apply filter_In. split; [exact I|apply PeanoNat.Nat.eqb_refl].
Qed.

Lemma os_given : given (map unblob os_agents) dead_os = true.
Proof. vm_cast_no_check (eq_refl true). Qed.
Lemma clients_given : given_each client_agents dead_clients = true.
Proof. vm_cast_no_check (eq_refl true). Qed.
Lemma devices_given : given_each device_agents dead_devices = true.
Proof. vm_cast_no_check (eq_refl true). Qed.

Lemma os_places : map fst os_ds = dead_os. Proof. reflexivity. Qed.
Lemma client_places : map fst client_ds = dead_clients. Proof. reflexivity. Qed.
Lemma device_places : map fst device_ds = dead_devices. Proof. reflexivity. Qed.

Lemma os_dead_ok i : In i dead_os -> dead (os_applies shipped) (or_os shipped) i.
Proof.
  rewrite <- os_places. apply (shadowed_dead _ (ostest shipped)); [intros ua x b; apply ostest_applies|].
  exact (os_shadow_ok shipped or_compiled os_ds os_ds_ok).
Qed.
Lemma os_exact i : i < length (or_os shipped) -> (dead (os_applies shipped) (or_os shipped) i <-> In i dead_os).
Proof.
  destruct (os_alive shipped or_compiled _ os_ws) as [L W]. exact (exactly _ _ _ _ L W os_dead_ok os_given i).
Qed.
Lemma client_dead_ok k l i : nth_error (cr_idx shipped) k = Some l -> In i (map snd (filter (fun d => fst d =? k) dead_clients)) -> dead (client_applies shipped) l i.
Proof.
  intros E. rewrite <- client_places. apply (shadowed_dead _ (ctest shipped)); [intros ua x b; apply hit_applies|].
  exact (shadow_each_ok _ _ _ _ _ _ cr_compiled client_ds_ok k l E).
Qed.
Lemma client_exact k l i : nth_error (cr_idx shipped) k = Some l -> i < length l -> (dead (client_applies shipped) l i <-> In (k, i) dead_clients).
Proof.
  intros E. destruct (each_alive_nth _ _ _ client_ws k l E) as (w & N & C). destruct (client_alive shipped cr_compiled _ _ C) as [L W].
  rewrite <- of_class. exact (exactly _ _ _ _ L W (fun i => client_dead_ok k l i E) (given_each_nth _ _ _ _ clients_given N) i).
Qed.
Lemma device_dead_ok k l i : nth_error (dr_idx shipped) k = Some l -> In i (map snd (filter (fun d => fst d =? k) dead_devices)) -> dead (device_applies shipped) l i.
Proof.
  intros E. rewrite <- device_places. apply (shadowed_dead _ (dtest shipped)); [intros ua x b; apply hit_applies|].
  exact (shadow_each_ok _ _ _ _ _ _ dr_compiled device_ds_ok k l E).
Qed.
Lemma device_exact k l i : nth_error (dr_idx shipped) k = Some l -> i < length l -> (dead (device_applies shipped) l i <-> In (k, i) dead_devices).
Proof.
  intros E. destruct (each_alive_nth _ _ _ device_ws k l E) as (w & N & C). destruct (alive_index_ok _ _ _ _ _ dr_compiled _ _ C) as [L W].
  rewrite <- of_class. exact (exactly _ _ _ _ L W (fun i => device_dead_ok k l i E) (given_each_nth _ _ _ _ devices_given N) i).
Qed.

(** Without them. *)
Lemma not_first (ds : list (nat * nat)) : forallb (fun d => match snd d with 0 => false | _ => true end) ds = true -> forall k, ~ In (k, 0) ds.
Proof. intros H k I. rewrite forallb_forall in H. discriminate (H _ I). Qed.
Lemma thin_ok :
  thinner (ostest shipped) (or_os shipped) (without dead_os (or_os shipped)) /\
  thinner_each (ctest shipped) (cr_idx shipped) (without_each dead_clients (cr_idx shipped)) /\
  thinner_each (dtest shipped) (dr_idx shipped) (without_each dead_devices (dr_idx shipped)).
Proof.
  rewrite <- os_places, <- client_places, <- device_places.
  apply shadow_thinner; [exact cr_compiled|exact or_compiled|exact dr_compiled|exact os_ds_ok|exact client_ds_ok|exact device_ds_ok| | | ].
  - intros I. cbn in I. intuition discriminate.
  - apply not_first. reflexivity.
  - apply not_first. reflexivity.
Qed.
Definition thinned : tables :=
  with_lists shipped (without dead_os (or_os shipped)) (without_each dead_clients (cr_idx shipped)) (without_each dead_devices (dr_idx shipped)).
Lemma thinned_alone mC mD h ua g : alone thinned mC mD h ua g = alone shipped mC mD h ua g.
Proof. destruct thin_ok as (HO & HC & HD). exact (thin_alone shipped _ _ _ HO HC HD mC mD h ua g). Qed.
Lemma thinned_alike g c : alike (run_getter thinned g c) (run_getter shipped g c).
Proof. destruct thin_ok as (HO & HC & HD). exact (thin_getter shipped _ _ _ HO HC HD g c). Qed.
Lemma thinned_same : (forall mC mD h ua g, alone thinned mC mD h ua g = alone shipped mC mD h ua g) /\
  (forall g c, alike (run_getter thinned g c) (run_getter shipped g c)).
Proof. split; [exact thinned_alone|exact thinned_alike]. Qed.

(** ** Cases *)
Lemma some_dead :
  (exists i, i < length (or_os shipped) /\ dead (os_applies shipped) (or_os shipped) i) /\
  (exists k l i, nth_error (cr_idx shipped) k = Some l /\ i < length l /\ dead (client_applies shipped) l i) /\
  (exists k l i, nth_error (dr_idx shipped) k = Some l /\ i < length l /\ dead (device_applies shipped) l i).
Proof.
  assert (LT : forall {A} (l : list A) n, (n <? length l) = true -> n < length l) by (intros; apply PeanoNat.Nat.ltb_lt; assumption).
  split; [|split].
  - assert (L : 201 < length (or_os shipped)) by (apply LT; vm_compute; reflexivity).
    exists 201. split; [exact L|]. apply (os_exact 201 L). left. reflexivity.
  - destruct (nth_error (cr_idx shipped) 1) as [l|] eqn:E; [|exfalso; revert E; vm_compute; discriminate].
    assert (L : match nth_error (cr_idx shipped) 1 with Some l => 349 <? length l | None => false end = true) by (vm_compute; reflexivity).
    rewrite E in L. apply LT in L. exists 1, l, 349. split; [exact E|]. split; [exact L|]. apply (client_exact 1 l 349 E L). left. reflexivity.
  - destruct (nth_error (dr_idx shipped) 3) as [l|] eqn:E; [|exfalso; revert E; vm_compute; discriminate].
    assert (L : match nth_error (dr_idx shipped) 3 with Some l => 175 <? length l | None => false end = true) by (vm_compute; reflexivity).
    rewrite E in L. apply LT in L. exists 3, l, 175. split; [exact E|]. split; [exact L|]. apply (device_exact 3 l 175 E L). left. reflexivity.
Qed.
Lemma os_case T i ua : match nth_error (or_os T) i with Some x => match ostest T ua x with Ok b => b | Panic => false end | None => false end = true ->
  exists x, nth_error (or_os T) i = Some x /\ os_applies T ua x.
Proof.
  destruct (nth_error (or_os T) i) as [x|]; [|discriminate]. destruct (ostest T ua x) as [b|] eqn:E; [|discriminate]. intros H. exists x. split; [reflexivity|].
  exact (proj1 (ostest_applies T ua x b E) H).
Qed.
Lemma client_case T k i ua :
  match nth_error (cr_idx T) k with Some l => match nth_error l i with Some x => match ctest T ua x with Ok b => b | Panic => false end | None => false end | None => false end = true ->
  exists l x, nth_error (cr_idx T) k = Some l /\ nth_error l i = Some x /\ client_applies T ua x.
Proof.
  destruct (nth_error (cr_idx T) k) as [l|]; [|discriminate]. destruct (nth_error l i) as [x|] eqn:X; [|discriminate].
  destruct (ctest T ua x) as [b|] eqn:E; [|discriminate]. intros H. exists l, x. split; [reflexivity|]. split; [exact X|]. exact (proj1 (hit_applies _ _ _ _ _ _ E) H).
Qed.
Lemma device_case T k i ua :
  match nth_error (dr_idx T) k with Some l => match nth_error l i with Some x => match dtest T ua x with Ok b => b | Panic => false end | None => false end | None => false end = true ->
  exists l x, nth_error (dr_idx T) k = Some l /\ nth_error l i = Some x /\ device_applies T ua x.
Proof.
  destruct (nth_error (dr_idx T) k) as [l|]; [|discriminate]. destruct (nth_error l i) as [x|] eqn:X; [|discriminate].
  destruct (dtest T ua x) as [b|] eqn:E; [|discriminate]. intros H. exists l, x. split; [reflexivity|]. split; [exact X|]. exact (proj1 (hit_applies _ _ _ _ _ _ E) H).
Qed.
Lemma os_live_case : 0 < length (or_os shipped) /\ ~ dead (os_applies shipped) (or_os shipped) 0.
Proof.
  assert (L : 0 < length (or_os shipped)) by (apply PeanoNat.Nat.ltb_lt; vm_compute; reflexivity). split; [exact L|].
  intros D. apply (os_exact 0 L) in D. cbn in D. intuition discriminate.
Qed.

(** The tables of a writable database fit. *)
From Coq Require Import ZifyBool ZifyNat ZifyN Permutation.
From Verif Require Import Model_Base Model_Version Model_Ctx Model_Compiler Model_Built Spec_Version Spec_Compiler Spec_Database Spec_Go Spec_Emit.
From Verif Require Import Proof_Base Proof_Version Proof_Compiler Proof_Built Proof_Collide.

(** ** Texts *)
Lemma raw_app a b : raw_text a -> raw_text b -> raw_text (a ++ b).
Proof. intros [A1 A2] [B1 B2]. split; intros I; apply in_app_or in I as [I|I]; auto. Qed.
Lemma raw_sub a b : (forall c, In c b -> In c a) -> raw_text a -> raw_text b.
Proof. intros H [A1 A2]. split; intros I; [apply A1|apply A2]; apply H, I. Qed.
Lemma in_firstn {A} n (l : list A) x : In x (firstn n l) -> In x l.
Proof. intros I. rewrite <- (firstn_skipn n l). apply in_or_app. left. exact I. Qed.
Lemma in_skipn {A} n (l : list A) x : In x (skipn n l) -> In x l.
Proof. intros I. rewrite <- (firstn_skipn n l). apply in_or_app. right. exact I. Qed.
Lemma remove_first_in s ss c : In c (remove_first s ss) -> In c s.
Proof.
  unfold remove_first. destruct (bytes_index s ss) as [k|]; [|trivial]. intros I. apply in_app_or in I as [I|I]; [exact (in_firstn _ _ _ I)|exact (in_skipn _ _ _ I)].
Qed.
Lemma strip_at_in esc k s r c : strip_at esc k s = Ok r -> In c r -> In c s.
Proof.
  unfold strip_at. destruct (skipn k s) as [|prev rest]; [discriminate|]. destruct (slice s _ _) as [ss|]; [|discriminate].
  intros [= <-]. apply remove_first_in.
Qed.
Lemma strip_loop_in op esc f : forall s r c, strip_loop op esc f s = Some (Ok r) -> In c r -> In c s.
Proof.
  induction f as [|f IH]; intros s r c; cbn [strip_loop]; [discriminate|]. destruct (bytes_index s op) as [k|]; [|intros [= <-]; trivial].
  destruct (strip_at esc k s) as [s'|] eqn:E; [|discriminate]. intros H I. exact (strip_at_in _ _ _ _ _ E (IH _ _ _ H I)).
Qed.
Lemma squeeze_in : forall s k c, In c (squeeze k s) -> In c s.
Proof.
  induction s as [|x s IH]; intros k c; [intros []|]. cbn [squeeze]. destruct k as [|k]; [|intros I; right; exact (IH _ _ I)].
  destruct (has_prefix (x :: s) (bs ")||(")) eqn:E.
  - intros I. apply in_app_or in I as [I|I]; [|right; exact (IH _ _ I)].
    apply has_prefix_iff in E as (t & E). rewrite E. apply in_or_app. left. revert I. clear. cbn. intuition.
  - intros [->|I]; [left; reflexivity|right; exact (IH _ _ I)].
Qed.
Lemma norm_in s c : In c (norm s) -> In c s.
Proof.
  pose proof (norm_normalize s) as E. revert E. generalize (norm s). intros r. unfold normalize, obind.
  destruct (detect (bs "(?<!") s).
  - destruct (strip_loop (bs "(?<") false (S (length s)) s) as [[s1|]|] eqn:E1; try discriminate.
    destruct (detect (bs "(?!.*") s1).
    + destruct (bytes_index s1 (bs "(?!.*")) as [k|]; [|discriminate]. destruct (strip_at false k s1) as [s2|] eqn:E2; [|discriminate].
      destruct (detect (bs "(?!") s2).
      * destruct (strip_loop (bs "(?!") true (S (length s2)) s2) as [[s3|]|] eqn:E3; try discriminate. intros [= <-] I.
        exact (strip_loop_in _ _ _ _ _ _ E1 (strip_at_in _ _ _ _ _ E2 (strip_loop_in _ _ _ _ _ _ E3 (squeeze_in _ _ _ I)))).
      * intros [= <-] I. exact (strip_loop_in _ _ _ _ _ _ E1 (strip_at_in _ _ _ _ _ E2 (squeeze_in _ _ _ I))).
    + destruct (detect (bs "(?!") s1).
      * destruct (strip_loop (bs "(?!") true (S (length s1)) s1) as [[s3|]|] eqn:E3; try discriminate. intros [= <-] I.
        exact (strip_loop_in _ _ _ _ _ _ E1 (strip_loop_in _ _ _ _ _ _ E3 (squeeze_in _ _ _ I))).
      * intros [= <-] I. exact (strip_loop_in _ _ _ _ _ _ E1 (squeeze_in _ _ _ I)).
  - destruct (detect (bs "(?!.*") s).
    + destruct (bytes_index s (bs "(?!.*")) as [k|]; [|discriminate]. destruct (strip_at false k s) as [s2|] eqn:E2; [|discriminate].
      destruct (detect (bs "(?!") s2).
      * destruct (strip_loop (bs "(?!") true (S (length s2)) s2) as [[s3|]|] eqn:E3; try discriminate. intros [= <-] I.
        exact (strip_at_in _ _ _ _ _ E2 (strip_loop_in _ _ _ _ _ _ E3 (squeeze_in _ _ _ I))).
      * intros [= <-] I. exact (strip_at_in _ _ _ _ _ E2 (squeeze_in _ _ _ I)).
    + destruct (detect (bs "(?!") s).
      * destruct (strip_loop (bs "(?!") true (S (length s)) s) as [[s3|]|] eqn:E3; try discriminate. intros [= <-] I.
        exact (strip_loop_in _ _ _ _ _ _ E3 (squeeze_in _ _ _ I)).
      * intros [= <-] I. exact (squeeze_in _ _ _ I).
Qed.
Ltac raw_const := split; intros I; repeat (destruct I as [I|I]; [discriminate I|]); exact I.

(** ** Buffers *)
Definition bufu (b : cbuf) : Prop := Forall (fun se => u64 (snd se)) (b_idx b).
Lemma encode_u64 a b : u64 (e_encode a b).
Proof. unfold u64, e_encode, two64, two32. lia. Qed.
Lemma u64_0 : u64 0.
Proof. reflexivity. Qed.
Lemma add_u s b e b' : buf_add s b = (e, b') -> bufu b -> u64 e /\ bufu b'.
Proof.
  unfold buf_add. intros H B. destruct (smap_get (b_idx b) s) as [e0|] eqn:E.
  - injection H as <- <-. split; [|exact B]. apply smap_get_In in E. unfold bufu in B. rewrite Forall_forall in B. exact (B _ E).
  - injection H as <- <-. split; [apply encode_u64|]. constructor; [apply encode_u64|exact B].
Qed.
Lemma add_opt_u s b e b' : add_opt s b = (e, b') -> bufu b -> u64 e /\ bufu b'.
Proof. destruct s as [|c s]; [intros [= <- <-] B; split; [exact u64_0|exact B]|apply add_u]. Qed.
Lemma i32_m1 : i32 (-1).
Proof. unfold i32. lia. Qed.
Lemma i8_m1 : i8 (-1).
Proof. unfold i8. lia. Qed.
Lemma wrap_small n : (0 <= n < 64)%Z -> i8 (wrap_i8 n).
Proof. intros H. unfold i8, wrap_i8. rewrite Z.mod_small; lia. Qed.
Lemma version_u v b vi v64 b' : proper_ref v -> client_version64 v b = (vi, v64, b') -> bufu b -> i8 vi /\ u64 v64 /\ bufu b'.
Proof.
  intros P H B. apply ref_cases in P as [->|[C|(n & (d & -> & Dd) & L)]].
  - injection H as <- <- <-. split; [exact i8_m1|]. split; [exact u64_0|exact B].
  - unfold client_version64 in H. rewrite (constant_case v _ (fun r => (wrap_i8 (fst (parse_int r)), 0%N, b))) in H by exact C.
    destruct (buf_add v b) as [e b1] eqn:E. injection H as <- <- <-. destruct (add_u _ _ _ _ E B). split; [exact i8_m1|]. split; assumption.
  - cbn [client_version64] in H. rewrite (parse_decimal _ _ Dd L) in H. cbn [fst] in H. injection H as <- <- <-.
    split; [apply wrap_small; exact L|]. split; [exact u64_0|exact B].
Qed.
Lemma inx_u v b vi v64 b' : proper_ref v -> parse_inx v b = (vi, v64, b') -> bufu b -> i8 vi /\ u64 v64 /\ bufu b'.
Proof.
  intros P H B. apply ref_cases in P as [->|[C|(n & (d & -> & Dd) & L)]].
  - injection H as <- <- <-. split; [exact i8_m1|]. split; [exact u64_0|exact B].
  - unfold parse_inx in H.
    rewrite (constant_case v _ (fun r => let '(i, err) := parse_int r in ((if err then 1 else wrap_i8 i)%Z, 0%N, b))) in H by exact C.
    destruct (buf_add v b) as [e b1] eqn:E. injection H as <- <- <-. destruct (add_u _ _ _ _ E B). split; [exact i8_m1|]. split; assumption.
  - cbn [parse_inx] in H. rewrite (parse_decimal _ _ Dd L) in H. injection H as <- <- <-.
    split; [apply wrap_small; exact L|]. split; [exact u64_0|exact B].
Qed.
Lemma match_u valid repl rs b re ri m b' re' : add_match valid repl rs b re = (ri, m, b', re') -> (forall p q, repl p = Some q -> raw_text q) ->
  raw_text rs -> bufu b -> Forall raw_text re ->
  length re <= length re' /\ (indexed re' -> i32 ri) /\ u64 m /\ bufu b' /\ Forall raw_text re'.
Proof.
  intros H M R B F. unfold add_match in H. destruct (is_regex rs).
  - set (p := match repl (norm rs) with Some x => x | None => norm rs end) in *.
    assert (Rp : raw_text p).
    { unfold p. destruct (repl (norm rs)) as [x|] eqn:E; [exact (M _ _ E)|]. apply (raw_sub rs); [apply norm_in|exact R]. }
    destruct (valid p); injection H as <- <- <- <-.
    + split; [rewrite app_length; lia|]. split; [intros I; unfold indexed in I; rewrite app_length in I; cbn [length] in I; unfold i32; lia|].
      split; [exact u64_0|]. split; [exact B|]. apply Forall_app. split; [exact F|]. constructor; [exact Rp|constructor].
    + split; [lia|]. split; [intros _; exact i32_m1|]. split; [exact u64_0|]. split; assumption.
  - destruct (buf_add rs b) as [e b1] eqn:E. injection H as <- <- <- <-. destruct (add_u _ _ _ _ E B). split; [lia|].
    split; [intros _; exact i32_m1|]. split; [assumption|]. split; assumption.
Qed.
Lemma indexed_back {A} (l l' : list A) : length l <= length l' -> indexed l' -> indexed l.
Proof. unfold indexed. lia. Qed.

(** ** Clients *)
Definition kup (k k' : ktables) : Prop := length (k_re k) <= length (k_re k') /\ length (k_ef k) <= length (k_ef k').
Definition ksize (k : ktables) : Prop := indexed (k_re k) /\ indexed (k_ef k).
Definition kgood (k : ktables) : Prop :=
  bufu (k_buf k) /\ Forall raw_text (k_re k) /\ Forall function_fits (k_ef k) /\ Forall raw_text (k_eng k).
Lemma rules_u l : forall b r b', ef_rules l b = (r, b') -> Forall (fun ve => plain_text (fst ve)) l -> bufu b ->
  Forall (fun ve => plain_text (fst ve) /\ u64 (snd ve)) r /\ bufu b'.
Proof.
  induction l as [|[v e] l IH]; intros b r b' H P B; cbn [ef_rules] in H; [injection H as <- <-; split; [constructor|exact B]|].
  destruct (buf_add e b) as [e1 b1] eqn:E. destruct (ef_rules l b1) as [r1 b2] eqn:E2. injection H as <- <-.
  destruct (add_u _ _ _ _ E B) as [U B1]. inversion P as [|? ? P1 P2]; subst. destruct (IH _ _ _ E2 P2 B1) as [F B2].
  split; [constructor; [split; [exact P1|exact U]|exact F]|exact B2].
Qed.
Section Writable.
Variable K : compiler.
Hypothesis maps : forall p q, k_client K p = Some q \/ k_os K p = Some q \/ k_device K p = Some q \/ k_static K p = Some q -> raw_text q.
Lemma client1_u y k x k' : client_writable y -> one K y k = (x, k') -> kup k k' /\ (kgood k -> ksize k' -> kgood k' /\ client_fits x).
Proof.
  intros (R & V & En) H. unfold one, compile_client1 in H. destruct (add_match _ _ (yc_regex y) (k_buf k) (k_re k)) as [[[ri m64] b1] re1] eqn:E1.
  destruct (add_opt (yc_name y) b1) as [br64 b2] eqn:E2. destruct (client_version64 (yc_version y) b2) as [[vi v64] b3] eqn:E3.
  match type of H with (let (_, _) := ?t in _) = _ => destruct t as [[[[en64 fi] b4] ef4] eng4] eqn:E4 end.
  destruct (add_opt (yc_url y) b4) as [u b5] eqn:E5. destruct (add_opt (yc_type y) b5) as [t b6] eqn:E6. injection H as <- <-.
  assert (Up : length (k_ef k) <= length ef4).
  { destruct (yc_engine y) as [e|]; [|injection E4 as <- <- <- <- <-; lia]. destruct (add_opt (ye_default e) b3) as [d c1].
    destruct (ye_versions e) eqn:Ev; [injection E4 as <- <- <- <- <-; lia|]. destruct (ef e d c1). injection E4 as <- <- <- <- <-. rewrite app_length. lia. }
  assert (Up1 : length (k_re k) <= length re1).
  { unfold add_match in E1. destruct (is_regex (yc_regex y)); [destruct (k_valid K _); injection E1 as <- <- <- <-; rewrite ?app_length; lia|].
    destruct (buf_add (yc_regex y) (k_buf k)). injection E1 as <- <- <- <-. lia. }
  split; [split; assumption|]. intros (B & F1 & F2 & F3) (S1 & S2). cbn [k_re k_ef] in S1, S2.
  destruct (match_u _ _ _ _ _ _ _ _ _ E1 (fun p q X => maps p q (or_introl X)) R B F1) as (_ & Ri & Um & B1 & F1').
  destruct (add_opt_u _ _ _ _ E2 B1) as [Ubr B2]. destruct (version_u _ _ _ _ _ V E3 B2) as (Vi & Uv & B3).
  assert (X : u64 en64 /\ i32 fi /\ bufu b4 /\ Forall function_fits ef4 /\ Forall raw_text eng4).
  { destruct (yc_engine y) as [e|]; [|injection E4 as <- <- <- <- <-; split; [exact u64_0|]; split; [exact i32_m1|]; auto].
    destruct (En e eq_refl) as [Rd Fv]. destruct (add_opt (ye_default e) b3) as [d c1] eqn:Ed. destruct (add_opt_u _ _ _ _ Ed B3) as [Ud C1].
    assert (G1 : Forall raw_text (match ye_default e with [] => k_eng k | _ :: _ => ye_default e :: k_eng k end)).
    { destruct (ye_default e); [exact F3|constructor; [exact Rd|exact F3]]. }
    destruct (ye_versions e) as [|v0 vs] eqn:Ev; [injection E4 as <- <- <- <- <-; split; [exact Ud|]; split; [exact i32_m1|]; auto|].
    destruct (ef e d c1) as [fn c2] eqn:Ef. injection E4 as <- <- <- <- <-.
    unfold ef in Ef. destruct (ef_rules (sort_keys (ye_versions e)) c1) as [r b0] eqn:Er. injection Ef as <- <-.
    assert (P : Forall (fun ve => plain_text (fst ve)) (sort_keys (ye_versions e))).
    { apply Forall_forall. intros ve I. apply (Permutation_in _ (sort_perm _)) in I. rewrite Ev in I. rewrite Forall_forall in Fv. exact (proj1 (Fv _ I)). }
    destruct (rules_u _ _ _ _ Er P C1) as [Fr B0].
    split; [exact Ud|]. split; [unfold indexed in S2; rewrite app_length in S2; cbn [length] in S2; unfold i32; lia|].
    split; [exact B0|]. split.
    - apply Forall_app. split; [exact F2|]. constructor; [|constructor]. split; [exact Fr|exact Ud].
    - change (Forall raw_text (map snd (v0 :: vs) ++ match ye_default e with [] => k_eng k | _ :: _ => ye_default e :: k_eng k end)).
      apply Forall_app. split; [|exact G1]. apply Forall_map. rewrite Forall_forall in *. intros ve I. exact (proj2 (Fv _ I)). }
  destruct X as (Ue & Ifi & B4 & F2' & F3'). destruct (add_opt_u _ _ _ _ E5 B4) as [Uu B5]. destruct (add_opt_u _ _ _ _ E6 B5) as [Ut B6].
  split; [split; [exact B6|]; split; [exact F1'|]; split; assumption|].
  exact (conj (Ri S1) (conj Um (conj Ubr (conj Uv (conj Vi (conj Ue (conj Ifi (conj Uu Ut)))))))).
Qed.
Lemma kup_refl k : kup k k.
Proof. split; lia. Qed.
Lemma kup_trans a b c : kup a b -> kup b c -> kup a c.
Proof. unfold kup. lia. Qed.
Lemma ksize_back a b : kup a b -> ksize b -> ksize a.
Proof. unfold kup, ksize, indexed. lia. Qed.
Lemma one_up y k : client_writable y -> kup k (snd (one K y k)).
Proof. intros W. destruct (one K y k) as [x k'] eqn:E. exact (proj1 (client1_u _ _ _ _ W E)). Qed.
Lemma one_fits y k : client_writable y -> kgood k -> ksize (snd (one K y k)) -> kgood (snd (one K y k)) /\ client_fits (fst (one K y k)).
Proof. intros W G S. destruct (one K y k) as [x k'] eqn:E. exact (proj2 (client1_u _ _ _ _ W E) G S). Qed.
Lemma Forall2_right {A B} (P : B -> Prop) (l : list A) l' : Forall2 (fun _ b => P b) l l' -> Forall P l'.
Proof. induction 1; constructor; assumption. Qed.
Lemma file_up f k : Forall client_writable f -> kup k (snd (compile_entries (one K) f k)).
Proof. apply (entries_ext (one K) kup client_writable kup_refl kup_trans one_up f k). Qed.
Lemma file_fits f k : Forall client_writable f -> kgood k -> ksize (snd (compile_entries (one K) f k)) ->
  kgood (snd (compile_entries (one K) f k)) /\ Forall client_fits (fst (compile_entries (one K) f k)).
Proof.
  intros W G S. destruct (entries_ok (one K) kup ksize kgood client_writable (fun _ _ x => client_fits x) kup_refl kup_trans ksize_back one_up one_fits
    (fun _ _ _ _ _ H => H) f k W G S) as [A B]. split; [exact A|exact (Forall2_right _ _ _ B)].
Qed.
Lemma files_fits fs k : Forall (Forall client_writable) fs -> kgood k -> ksize (snd (compile_entries (compile_entries (one K)) fs k)) ->
  kgood (snd (compile_entries (compile_entries (one K)) fs k)) /\ Forall (Forall client_fits) (fst (compile_entries (compile_entries (one K)) fs k)).
Proof.
  intros W G S. destruct (entries_ok (compile_entries (one K)) kup ksize kgood (Forall client_writable) (fun _ _ x => Forall client_fits x)
    kup_refl kup_trans ksize_back file_up file_fits (fun _ _ _ _ _ H => H) fs k W G S) as [A B]. split; [exact A|exact (Forall2_right _ _ _ B)].
Qed.
Lemma ev_u l : forall i b ev b', compile_ev l i b = (ev, b') -> bufu b -> (0 <= i)%Z -> (i + Z.of_nat (length ev) <= 2147483647)%Z ->
  Forall (fun kv => u64 (fst kv) /\ i32 (snd kv)) ev.
Proof.
  induction l as [|e l IH]; intros i b ev b' H B L0 L; cbn [compile_ev] in H; [injection H as <- <-; constructor|].
  destruct (buf_add e b) as [e64 b1] eqn:E. destruct (compile_ev l (i + 1) b1) as [r b2] eqn:E2. injection H as <- <-. cbn [length] in L.
  destruct (add_u _ _ _ _ E B) as [U B1]. constructor; [split; [exact U|cbn [snd]; unfold i32; lia]|]. apply (IH _ _ _ _ E2 B1); lia.
Qed.
Lemma ev_distinct l b ev b' : compile_ev l 0 b = (ev, b') -> buf_ok b' -> NoDup l -> NoDup (map fst ev).
Proof.
  intros H Kb ND. destruct (compile_ev_spec _ _ _ _ _ H) as (_ & _ & Len & F). apply (NoDup_nth _ 0%N). rewrite map_length, Len. intros i j Li Lj E.
  destruct (nth_error l i) as [x|] eqn:Ei; [|apply nth_error_None in Ei; lia]. destruct (nth_error l j) as [y|] eqn:Ej; [|apply nth_error_None in Ej; lia].
  destruct (F i x Ei) as (ei & Ni & Ii). destruct (F j y Ej) as (ej & Nj & Ij).
  assert (X : forall n v p, nth_error ev n = Some (v, p) -> nth n (map fst ev) 0%N = v).
  { intros n v p Hn. apply nth_error_nth. rewrite nth_error_map, Hn. reflexivity. }
  rewrite (X _ _ _ Ni), (X _ _ _ Nj) in E. subst ej. pose proof (interned_inj _ _ _ _ Kb Ii Ij) as ->.
  apply (proj1 (NoDup_nth_error l) ND); [lia|congruence].
Qed.
Lemma engine_raw e : raw_text e -> raw_text (ci (engine_pattern e)).
Proof.
  intros R. unfold ci, engine_pattern. apply raw_app; [raw_const|]. destruct (beqs e (bs "Gecko")); [raw_const|].
  apply raw_app; [|raw_const]. destruct (beqs e (bs "Blink")); [raw_const|exact R].
Qed.
Lemma client_out_ok files : Forall (Forall client_writable) files ->
  let o := compile_client (k_valid K) (k_client K) files in
  fits_32 (co_buf o) -> indexed (co_re o) -> indexed (co_ef o) -> indexed (co_ev o) -> client_out_fits o.
Proof.
  intros W. unfold compile_client. fold (one K).
  pose proof (files_fits files (mkK buf_empty [] [] []) W) as X.
  assert (Pr : Forall (Forall proper1) files).
  { eapply Forall_impl; [|exact W]. intros f. apply Forall_impl. intros y (_ & P & _). exact P. }
  pose proof (files_step K files (mkK buf_empty [] [] []) Pr buf_empty_ok) as Y.
  destruct (compile_entries (compile_entries (one K)) files (mkK buf_empty [] [] [])) as [idx k]. cbn [fst snd] in X, Y.
  destruct (compile_ev (engine_names (k_eng k)) 0 (k_buf k)) as [ev b] eqn:E. cbv zeta. intros Fb Sr Se Sv.
  change (indexed (map client_re (k_re k))) in Sr. change (indexed (k_ef k)) in Se. change (indexed ev) in Sv. change (fits_32 (b_buf b)) in Fb.
  destruct X as [(B & F1 & F2 & F3) Fi].
  { split; [constructor|]. split; [constructor|]. split; constructor. }
  { split; [|exact Se]. revert Sr. unfold indexed. rewrite map_length. trivial. }
  split; [exact Fi|]. split; [|split; [exact F2|split; [|split]]].
  - apply Forall_map. eapply Forall_impl; [|exact F1]. intros p R. unfold client_re. apply raw_app; [raw_const|]. apply raw_app; [exact R|raw_const].
  - apply (ev_u _ 0 _ _ _ E B); [lia|exact Sv].
  - destruct (compile_ev_spec _ _ _ _ _ E) as (L & Kb & _). apply (ev_distinct _ _ _ _ E); [|apply engine_names_nodup].
    apply Kb; [|exact Fb]. apply Y. exact (bfit_back _ _ L Fb).
  - apply Forall_map. apply Forall_forall. intros e I. apply engine_names_in in I as [_ I]. apply engine_raw. rewrite Forall_forall in F3. exact (F3 e I).
Qed.

(** ** Operating systems *)
Definition oup (o o' : otables) : Prop := length (o_re o) <= length (o_re o').
Definition osize (o : otables) : Prop := indexed (o_re o).
Definition ogood (o : otables) : Prop := bufu (o_buf o) /\ Forall raw_text (o_re o) /\ Forall os_version_fits (o_ov o).
Lemma oup_refl o : oup o o.
Proof. unfold oup. lia. Qed.
Lemma oup_trans a b c : oup a b -> oup b c -> oup a c.
Proof. unfold oup. lia. Qed.
Lemma osize_back a b : oup a b -> osize b -> osize a.
Proof. unfold oup, osize, indexed. lia. Qed.
Lemma match_up valid repl rs b re ri m b' re' : add_match valid repl rs b re = (ri, m, b', re') -> length re <= length re'.
Proof.
  unfold add_match. destruct (is_regex rs); [destruct (valid _); intros [= <- <- <- <-]; rewrite ?app_length; lia|].
  destruct (buf_add rs b). intros [= <- <- <- <-]. lia.
Qed.
Definition ov_writable (v : yosver) : Prop := raw_text (yv_regex v) /\ proper_ref (yv_version v).
Lemma ov1_u y o x o' : ov_writable y -> compile_ov1 (k_valid K) y o = (x, o') ->
  oup o o' /\ (ogood o -> osize o' -> ogood o' /\ os_version_fits x).
Proof.
  intros (R & V) H. unfold compile_ov1 in H. destruct (add_match _ _ (yv_regex y) (o_buf o) (o_re o)) as [[[ri m64] b1] re1] eqn:E1.
  destruct (parse_inx (yv_version y) b1) as [[vi v64] b2] eqn:E2. injection H as <- <-. split; [exact (match_up _ _ _ _ _ _ _ _ _ E1)|].
  intros (B & F1 & F2) S. change (indexed re1) in S.
  destruct (match_u _ _ _ _ _ _ _ _ _ E1 (fun p q (X : None = Some q) => ltac:(discriminate X)) R B F1) as (_ & Ri & Um & B1 & F1').
  destruct (inx_u _ _ _ _ _ V E2 B1) as (Vi & Uv & B2).
  assert (Fx : os_version_fits (mkOV ri m64 vi v64)) by exact (conj (Ri S) (conj Um (conj Vi Uv))).
  split; [|exact Fx]. split; [exact B2|]. split; [exact F1'|]. apply Forall_app. split; [exact F2|]. constructor; [exact Fx|constructor].
Qed.
Lemma ov_up y o : ov_writable y -> oup o (snd (compile_ov1 (k_valid K) y o)).
Proof. intros W. destruct (compile_ov1 (k_valid K) y o) as [x o'] eqn:E. exact (proj1 (ov1_u _ _ _ _ W E)). Qed.
Lemma ov_fits y o : ov_writable y -> ogood o -> osize (snd (compile_ov1 (k_valid K) y o)) ->
  ogood (snd (compile_ov1 (k_valid K) y o)) /\ os_version_fits (fst (compile_ov1 (k_valid K) y o)).
Proof. intros W G S. destruct (compile_ov1 (k_valid K) y o) as [x o'] eqn:E. exact (proj2 (ov1_u _ _ _ _ W E) G S). Qed.
Lemma os1_u y o x o' : os_writable y -> compile_os1 (k_valid K) (k_os K) y o = (x, o') ->
  oup o o' /\ (ogood o -> osize o' -> ogood o' /\ os_fits x).
Proof.
  intros (R & Nm & V & Vs) H. unfold compile_os1 in H. destruct (parse_inx (yo_name y) (o_buf o)) as [[ni n64] b1] eqn:E1.
  destruct (add_match _ _ (yo_regex y) b1 (o_re o)) as [[[ri m64] b2] re2] eqn:E2. cbv zeta in H.
  pose proof (match_up _ _ _ _ _ _ _ _ _ E2) as U2.
  destruct (yo_versions y) as [|v0 vs] eqn:Ev.
  - destruct (parse_inx (yo_version y) b2) as [[vi v64] b3] eqn:E3. injection H as <- <-. split; [exact U2|].
    intros (B & F1 & F2) S. change (indexed re2) in S. destruct (inx_u _ _ _ _ _ Nm E1 B) as (Ni & Un & B1).
    destruct (match_u _ _ _ _ _ _ _ _ _ E2 (fun p q X => maps p q (or_intror (or_introl X))) R B1 F1) as (_ & Ri & Um & B2 & F1').
    destruct (inx_u _ _ _ _ _ V E3 B2) as (Vi & Uv & B3). split; [split; [exact B3|]; split; assumption|].
    exact (conj Un (conj Ni (conj (Ri S) (conj Um (conj Vi (conj Uv u64_0)))))).
  - set (l := v0 :: vs) in *. set (o2 := mkO b2 re2 (o_ov o)) in *. injection H as <- <-.
    pose proof (entries_ext (compile_ov1 (k_valid K)) oup ov_writable oup_refl oup_trans ov_up l o2 Vs) as U3.
    split; [exact (oup_trans o o2 _ U2 U3)|]. intros (B & F1 & F2) S. destruct (inx_u _ _ _ _ _ Nm E1 B) as (Ni & Un & B1).
    destruct (match_u _ _ _ _ _ _ _ _ _ E2 (fun p q X => maps p q (or_intror (or_introl X))) R B1 F1) as (_ & Ri & Um & B2 & F1').
    assert (G2 : ogood o2) by (split; [exact B2|]; split; assumption).
    destruct (entries_ok (compile_ov1 (k_valid K)) oup osize ogood ov_writable (fun _ _ x => os_version_fits x) oup_refl oup_trans osize_back ov_up ov_fits
      (fun _ _ _ _ _ H => H) l o2 Vs G2 S) as [G3 _].
    split; [exact G3|].
    exact (conj Un (conj Ni (conj (Ri (osize_back o2 _ U3 S)) (conj Um (conj i8_m1 (conj u64_0 (encode_u64 _ _))))))).
Qed.
Lemma os_up y o : os_writable y -> oup o (snd (compile_os1 (k_valid K) (k_os K) y o)).
Proof. intros W. destruct (compile_os1 (k_valid K) (k_os K) y o) as [x o'] eqn:E. exact (proj1 (os1_u _ _ _ _ W E)). Qed.
Lemma os_fit y o : os_writable y -> ogood o -> osize (snd (compile_os1 (k_valid K) (k_os K) y o)) ->
  ogood (snd (compile_os1 (k_valid K) (k_os K) y o)) /\ os_fits (fst (compile_os1 (k_valid K) (k_os K) y o)).
Proof. intros W G S. destruct (compile_os1 (k_valid K) (k_os K) y o) as [x o'] eqn:E. exact (proj2 (os1_u _ _ _ _ W E) G S). Qed.
Lemma ci_raw p : raw_text p -> raw_text (ci p).
Proof. intros R. unfold ci. apply raw_app; [raw_const|exact R]. Qed.
Lemma os_out_ok l : Forall os_writable l -> let o := compile_os (k_valid K) (k_os K) l in indexed (oo_re o) -> os_out_fits o.
Proof.
  intros W. unfold compile_os.
  pose proof (entries_ok (compile_os1 (k_valid K) (k_os K)) oup osize ogood os_writable (fun _ _ x => os_fits x) oup_refl oup_trans osize_back os_up os_fit
    (fun _ _ _ _ _ H => H) l (mkO buf_empty [] []) W) as X.
  destruct (compile_entries (compile_os1 (k_valid K) (k_os K)) l (mkO buf_empty [] [])) as [os o]. cbn [fst snd] in X. cbv zeta. intros S.
  change (indexed (map ci (o_re o))) in S. destruct X as [(_ & F1 & F2) F].
  { split; [constructor|]. split; constructor. }
  { revert S. unfold osize, indexed. rewrite map_length. trivial. }
  split; [exact (Forall2_right _ _ _ F)|]. split; [exact F2|]. apply Forall_map. eapply Forall_impl; [|exact F1]. exact ci_raw.
Qed.

(** ** Devices *)
Definition dup (d d' : dtables) : Prop := length (d_re d) <= length (d_re d') /\ length (d_dm d) <= length (d_dm d').
Definition dsize (d : dtables) : Prop := indexed (d_re d) /\ indexed (d_dm d).
Definition dgood (d : dtables) : Prop := bufu (d_buf d) /\ Forall raw_text (d_re d) /\ Forall model_fits (d_dm d).
Lemma dup_refl d : dup d d.
Proof. unfold dup. lia. Qed.
Lemma dup_trans a b c : dup a b -> dup b c -> dup a c.
Proof. unfold dup. lia. Qed.
Lemma dsize_back a b : dup a b -> dsize b -> dsize a.
Proof. unfold dup, dsize, indexed. lia. Qed.
Definition model_writable (m : ymodel) : Prop := raw_text (ym_regex m).
Lemma model1_u y d x d' : model_writable y -> compile_model1 (k_valid K) (k_device K) y d = (x, d') ->
  dup d d' /\ (dgood d -> dsize d' -> dgood d' /\ model_fits x).
Proof.
  intros R H. unfold compile_model1 in H. destruct (add_match _ _ (ym_regex y) (d_buf d) (d_re d)) as [[[ri m64] b1] re1] eqn:E1.
  destruct (buf_add (ym_device y) b1) as [t64 b2] eqn:E2. destruct (buf_add (ym_model y) b2) as [n64 b3] eqn:E3. injection H as <- <-.
  split. { split; [exact (match_up _ _ _ _ _ _ _ _ _ E1)|]. change (length (d_dm d) <= length (d_dm d ++ [mkModel t64 ri m64 n64])). rewrite app_length. lia. }
  intros (B & F1 & F2) (S & _). change (indexed re1) in S.
  destruct (match_u _ _ _ _ _ _ _ _ _ E1 (fun p q X => maps p q (or_intror (or_intror (or_introl X)))) R B F1) as (_ & Ri & Um & B1 & F1').
  destruct (add_u _ _ _ _ E2 B1) as [Ut B2]. destruct (add_u _ _ _ _ E3 B2) as [Un B3].
  assert (Fx : model_fits (mkModel t64 ri m64 n64)) by exact (conj Ut (conj (Ri S) (conj Um Un))).
  split; [|exact Fx]. split; [exact B3|]. split; [exact F1'|]. apply Forall_app. split; [exact F2|]. constructor; [exact Fx|constructor].
Qed.
Lemma model_up y d : model_writable y -> dup d (snd (compile_model1 (k_valid K) (k_device K) y d)).
Proof. intros W. destruct (compile_model1 (k_valid K) (k_device K) y d) as [x d'] eqn:E. exact (proj1 (model1_u _ _ _ _ W E)). Qed.
Lemma model_fit y d : model_writable y -> dgood d -> dsize (snd (compile_model1 (k_valid K) (k_device K) y d)) ->
  dgood (snd (compile_model1 (k_valid K) (k_device K) y d)) /\ model_fits (fst (compile_model1 (k_valid K) (k_device K) y d)).
Proof. intros W G S. destruct (compile_model1 (k_valid K) (k_device K) y d) as [x d'] eqn:E. exact (proj2 (model1_u _ _ _ _ W E) G S). Qed.
Lemma brand_match_up rs b re ri m b' re' : brand_match (k_valid K) (k_device K) (k_static K) rs b re = (ri, m, b', re') -> length re <= length re'.
Proof.
  unfold brand_match. destruct (is_regex _); [apply match_up|]. destruct (buf_add rs b). intros [= <- <- <- <-]. lia.
Qed.
Lemma brand_match_u rs b re ri m b' re' : brand_match (k_valid K) (k_device K) (k_static K) rs b re = (ri, m, b', re') -> raw_text rs -> bufu b ->
  Forall raw_text re -> (indexed re' -> i32 ri) /\ u64 m /\ bufu b' /\ Forall raw_text re'.
Proof.
  unfold brand_match. intros H R B F. destruct (is_regex _).
  - destruct (match_u _ _ _ _ _ _ _ _ _ H (fun p q X => maps p q (or_intror (or_intror (or_introl X))))) with (2 := B) (3 := F) as (_ & Y); [|exact Y].
    destruct (k_static K rs) as [x|] eqn:E; [exact (maps _ _ (or_intror (or_intror (or_intror E))))|exact R].
  - destruct (buf_add rs b) as [e b1] eqn:E. injection H as <- <- <- <-. destruct (add_u _ _ _ _ E B). split; [intros _; exact i32_m1|]. split; [assumption|]. split; assumption.
Qed.
Lemma brand1_u y d x d' : brand_writable y -> compile_brand1 (k_valid K) (k_device K) (k_static K) y d = (x, d') ->
  dup d d' /\ (dgood d -> dsize d' -> dgood d' /\ device_fits x).
Proof.
  intros (R & Ms) H. destruct y as [name y]. cbn [snd] in R, Ms. unfold compile_brand1 in H.
  destruct (buf_add name (d_buf d)) as [br b1] eqn:E1. destruct (buf_add (yb_device y) b1) as [t64 b2] eqn:E2.
  destruct (brand_match _ _ _ (yb_regex y) b2 (d_re d)) as [[[ri m64] b3] re3] eqn:E3. cbv zeta in H. set (d3 := mkD b3 re3 (d_dm d)) in *.
  pose proof (brand_match_up _ _ _ _ _ _ _ E3) as U3. assert (D3 : dup d d3) by (split; [exact U3|apply Nat.le_refl]).
  assert (G3 : dgood d -> (indexed re3 -> i32 ri) /\ u64 br /\ u64 t64 /\ u64 m64 /\ dgood d3).
  { intros (B & F1 & F2). destruct (add_u _ _ _ _ E1 B) as [Ub B1]. destruct (add_u _ _ _ _ E2 B1) as [Ut B2].
    destruct (brand_match_u _ _ _ _ _ _ _ E3 R B2 F1) as (Ri & Um & B3 & F1'). split; [exact Ri|]. split; [exact Ub|]. split; [exact Ut|]. split; [exact Um|].
    split; [exact B3|]. split; assumption. }
  destruct (yb_models y) as [|m0 ms] eqn:Em.
  - destruct (yb_model y) as [|c mo] eqn:Eo.
    + injection H as <- <-. split; [exact D3|]. intros G (S1 & S2). destruct (G3 G) as (Ri & Ub & Ut & Um & Gd). split; [exact Gd|].
      exact (conj Ut (conj Ub (conj (Ri S1) (conj Um (conj i32_m1 u64_0))))).
    + destruct (buf_add (c :: mo) b3) as [n64 b4] eqn:E4. injection H as <- <-.
      split. { split; [exact U3|]. change (length (d_dm d) <= length (d_dm d ++ [mkModel 0 (-1) 0 n64])). rewrite app_length. lia. }
      intros G (S1 & S2). change (indexed re3) in S1. change (indexed (d_dm d ++ [mkModel 0 (-1) 0 n64])) in S2.
      destruct (G3 G) as (Ri & Ub & Ut & Um & (B3 & F1 & F2)). destruct (add_u _ _ _ _ E4 B3) as [Un B4].
      split. { split; [exact B4|]. split; [exact F1|]. apply Forall_app. split; [exact F2|]. constructor; [|constructor].
               exact (conj u64_0 (conj i32_m1 (conj u64_0 Un))). }
      assert (Si : i32 (Z.of_nat (length (d_dm d)))) by (unfold indexed in S2; rewrite app_length in S2; cbn [length] in S2; unfold i32; lia).
      exact (conj Ut (conj Ub (conj (Ri S1) (conj Um (conj Si u64_0))))).
  - set (l := m0 :: ms) in *. injection H as <- <-.
    pose proof (entries_ext (compile_model1 (k_valid K) (k_device K)) dup model_writable dup_refl dup_trans model_up l d3 Ms) as U4.
    split; [exact (dup_trans d d3 _ D3 U4)|]. intros G S. destruct (G3 G) as (Ri & Ub & Ut & Um & Gd).
    destruct (entries_ok (compile_model1 (k_valid K) (k_device K)) dup dsize dgood model_writable (fun _ _ x => model_fits x) dup_refl dup_trans dsize_back
      model_up model_fit (fun _ _ _ _ _ H => H) l d3 Ms Gd S) as [G4 _].
    split; [exact G4|].
    exact (conj Ut (conj Ub (conj (Ri (proj1 (dsize_back d3 _ U4 S))) (conj Um (conj i32_m1 (encode_u64 _ _)))))).
Qed.
Lemma brand_up y d : brand_writable y -> dup d (snd (compile_brand1 (k_valid K) (k_device K) (k_static K) y d)).
Proof. intros W. destruct (compile_brand1 (k_valid K) (k_device K) (k_static K) y d) as [x d'] eqn:E. exact (proj1 (brand1_u _ _ _ _ W E)). Qed.
Lemma brand_fit y d : brand_writable y -> dgood d -> dsize (snd (compile_brand1 (k_valid K) (k_device K) (k_static K) y d)) ->
  dgood (snd (compile_brand1 (k_valid K) (k_device K) (k_static K) y d)) /\ device_fits (fst (compile_brand1 (k_valid K) (k_device K) (k_static K) y d)).
Proof. intros W G S. destruct (compile_brand1 (k_valid K) (k_device K) (k_static K) y d) as [x d'] eqn:E. exact (proj2 (brand1_u _ _ _ _ W E) G S). Qed.
Definition dfile := fun f => compile_entries (compile_brand1 (k_valid K) (k_device K) (k_static K)) (sort_keys f).
Lemma sorted_all {A} (P : bytes * A -> Prop) l : Forall P l -> Forall P (sort_keys l).
Proof. intros F. rewrite Forall_forall in *. intros x I. apply F. exact (Permutation_in _ (sort_perm _) I). Qed.
Lemma dfile_up f d : Forall brand_writable f -> dup d (snd (dfile f d)).
Proof. intros W. apply (entries_ext _ dup brand_writable dup_refl dup_trans brand_up). apply sorted_all. exact W. Qed.
Lemma dfile_fits f d : Forall brand_writable f -> dgood d -> dsize (snd (dfile f d)) -> dgood (snd (dfile f d)) /\ Forall device_fits (fst (dfile f d)).
Proof.
  intros W G S. destruct (entries_ok (compile_brand1 (k_valid K) (k_device K) (k_static K)) dup dsize dgood brand_writable (fun _ _ x => device_fits x) dup_refl dup_trans dsize_back brand_up brand_fit
    (fun _ _ _ _ _ H => H) (sort_keys f) d (sorted_all _ _ W) G S) as [A B]. split; [exact A|exact (Forall2_right _ _ _ B)].
Qed.
Lemma device_out_ok files : Forall (Forall brand_writable) files ->
  let o := compile_device (k_valid K) (k_device K) (k_static K) files in indexed (do_re o) -> indexed (do_dm o) -> device_out_fits o.
Proof.
  intros W. unfold compile_device. fold dfile.
  pose proof (entries_ok dfile dup dsize dgood (Forall brand_writable) (fun _ _ x => Forall device_fits x) dup_refl dup_trans dsize_back dfile_up dfile_fits
    (fun _ _ _ _ _ H => H) files (mkD buf_empty [] []) W) as X.
  destruct (compile_entries dfile files (mkD buf_empty [] [])) as [idx d]. cbn [fst snd] in X. cbv zeta. intros S1 S2.
  change (indexed (map ci (d_re d))) in S1. change (indexed (d_dm d)) in S2. destruct X as [(_ & F1 & F2) F].
  { split; [constructor|]. split; constructor. }
  { split; [|exact S2]. revert S1. unfold indexed. rewrite map_length. trivial. }
  split; [exact (Forall2_right _ _ _ F)|]. split; [exact F2|]. apply Forall_map. eapply Forall_impl; [|exact F1]. exact ci_raw.
Qed.
End Writable.

(** ** Vendors and hints *)
Lemma vendors_u l : forall b re, Forall (fun x => Forall raw_text (snd x)) l -> bufu b -> Forall raw_text re ->
  let '(idx, (b', re')) := compile_entries compile_vendor1 l (b, re) in
  Forall (fun t => u64 (vt_brand64 t) /\ u64 (vt_range64 t)) idx /\ Forall raw_text re'.
Proof.
  induction l as [|[name rs] l IH]; intros b re W B F; [split; [constructor|exact F]|]. cbn [compile_entries].
  inversion W as [|? ? W1 W2]; subst. cbn [snd] in W1. unfold compile_vendor1 at 1. cbn [fst snd].
  destruct (buf_add name b) as [b64 b1] eqn:E. destruct (add_u _ _ _ _ E B) as [U B1].
  assert (F' : Forall raw_text (re ++ map (fun r => r ++ bs "[^a-z0-9]+") rs)).
  { apply Forall_app. split; [exact F|]. apply Forall_map. eapply Forall_impl; [|exact W1]. intros r R. apply raw_app; [exact R|raw_const]. }
  specialize (IH b1 _ W2 B1 F'). destruct (compile_entries compile_vendor1 l (b1, re ++ map (fun r => r ++ bs "[^a-z0-9]+") rs)) as [idx [b' re']].
  destruct IH as [F1 F2]. split; [|exact F2]. constructor; [|exact F1]. exact (conj U (encode_u64 _ _)).
Qed.
Lemma vendor_out_ok l : Forall (fun x => Forall raw_text (snd x)) l -> vendor_out_fits (compile_vendor l).
Proof.
  intros W. unfold compile_vendor.
  pose proof (vendors_u (sort_keys l) buf_empty [] (sorted_all _ _ W) (Forall_nil _) (Forall_nil _)) as X.
  destruct (compile_entries compile_vendor1 (sort_keys l) (buf_empty, [])) as [idx [b re]]. exact X.
Qed.
Definition hgood (S : bytes -> Prop) (h : htables) : Prop :=
  bufu (h_buf h) /\ Forall (fun kv => u64 (fst kv) /\ u64 (snd kv)) (h_idx h) /\ Forall S (h_keys h) /\ Forall S (h_uniq h) /\
  NoDup (map fst (h_idx h)) /\ (forall f, In f (map fst (h_idx h)) -> exists k, In k (h_uniq h) /\ f = fnv1 k).
Lemma hint_keys_u (S : bytes -> Prop) tuples : (forall k k', S k -> S k' -> fnv1 k = fnv1 k' -> k = k') ->
  forall ks h, Forall S ks -> hgood S h -> hgood S (hint_keys tuples ks h).
Proof.
  intros Inj ks. induction ks as [|k ks IH]; intros h Fk (B & F & Fs & Fu & ND & Or); cbn [hint_keys]; [split; auto|].
  inversion Fk as [|? ? Sk Fk']; subst. destruct (existsb (beqs k) (h_uniq h)) eqn:Ex; [apply IH; [exact Fk'|split; auto]|].
  destruct (buf_add _ (h_buf h)) as [e b1] eqn:E. destruct (add_u _ _ _ _ E B) as [U B1]. apply IH; [exact Fk'|].
  split; [exact B1|]. split; [|split; [exact Fs|split; [|split]]].
  - apply Forall_app. split; [exact F|]. constructor; [|constructor]. split; [exact (fnv1_small k)|exact U].
  - constructor; assumption.
  - change (NoDup (map fst (h_idx h ++ [(fnv1 k, e)]))). rewrite map_app. cbn [map fst]. apply (Permutation_NoDup (Permutation_cons_append _ _)). constructor; [|exact ND].
    intros I. destruct (Or _ I) as (k' & Ik & Ek). rewrite Forall_forall in Fu. rewrite (Inj _ _ Sk (Fu _ Ik) Ek) in Ex.
    rewrite <- not_true_iff_false in Ex. apply Ex. apply existsb_exists. exists k'. split; [exact Ik|apply beqs_refl].
  - intros f I. change (In f (map fst (h_idx h ++ [(fnv1 k, e)]))) in I. rewrite map_app in I. apply in_app_or in I as [I|[<-|[]]].
    + destruct (Or f I) as (k' & Ik & ->). exists k'. split; [right; exact Ik|reflexivity].
    + exists k. split; [left; reflexivity|reflexivity].
Qed.
Lemma hint_keys_keys tuples ks : forall h, h_keys (hint_keys tuples ks h) = h_keys h.
Proof.
  induction ks as [|k ks IH]; intros h; [reflexivity|]. cbn [hint_keys]. destruct (existsb _ _); [apply IH|].
  destruct (buf_add _ _). rewrite IH. reflexivity.
Qed.
Lemma hint_out_ok files : (forall k k', In k (map fst (concat files)) -> In k' (map fst (concat files)) -> fnv1 k = fnv1 k' -> k = k') ->
  hint_out_fits (compile_hint files).
Proof.
  intros Inj. set (S := fun k => In k (map fst (concat files))).
  assert (X : forall fs h, (forall k, In k (map fst (concat fs)) -> S k) -> hgood S h -> hgood S (fold_left (fun h f => hint_file f h) fs h)).
  { induction fs as [|f fs IH]; intros h Sub G; [exact G|]. cbn [fold_left]. apply IH.
    { intros k I. apply Sub. cbn [concat]. rewrite map_app. apply in_or_app. right. exact I. }
    unfold hint_file. set (ks := map fst (sort_keys (map (fun k => (k, tt)) (h_keys h ++ map fst f)))).
    destruct G as (B & F & Fs & Fu & ND & Or).
    assert (Fk : Forall S ks).
    { unfold ks. apply Forall_forall. intros k I. apply in_map_iff in I as ((k' & u) & <- & I). apply (Permutation_in _ (sort_perm _)) in I.
      apply in_map_iff in I as (k & [= -> _] & I). cbn [fst]. apply in_app_or in I as [I|I]; [rewrite Forall_forall in Fs; exact (Fs _ I)|].
      apply Sub. cbn [concat]. rewrite map_app. apply in_or_app. left. exact I. }
    apply (hint_keys_u S f Inj); [exact Fk|]. split; [exact B|]. split; [exact F|]. split; [exact Fk|]. split; [exact Fu|]. split; assumption. }
  unfold compile_hint. destruct (X files (mkH buf_empty [] [] []) (fun k I => I)) as (_ & F & _ & _ & ND & _).
  { split; [constructor|]. split; [constructor|]. split; [constructor|]. split; [constructor|]. split; [constructor|]. intros f []. }
  split; assumption.
Qed.

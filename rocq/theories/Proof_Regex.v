(** The submatches returned by the regular expression engine are in bounds. *)
From Verif Require Import Model_Base Model_Ctx Model_Regex Proof_Base.

(** Total width of a list of runes. *)
Definition width (s : list (N * nat)) : Z := fold_right (fun x a => (Z.of_nat (snd x) + a)%Z) 0%Z s.

Lemma decode_rune_width : forall b s, 1 <= snd (decode_rune (b :: s)) <= length (b :: s).
Proof.
  intros b s. unfold decode_rune.
  repeat match goal with
  | |- context [if ?c then _ else _] => destruct c
  | |- context [match ?l with [] => _ | _ :: _ => _ end] => destruct l
  | |- context [let '(_, _) := ?x in _] => destruct x
  end; cbn [snd length]; lia.
Qed.

Lemma runes_fuel_width : forall f s, length s <= f -> width (runes_fuel f s) = Z.of_nat (length s).
Proof.
  induction f as [|f IH]; intros s L.
  - destruct s; [reflexivity | simpl in L; lia].
  - destruct s as [|b s]; [reflexivity|].
    pose proof (decode_rune_width b s) as W. cbn [runes_fuel].
    destruct (decode_rune (b :: s)) as [r w] eqn:D. cbn [snd] in W.
    cbn [width fold_right snd]. fold (width (runes_fuel f (skipn w (b :: s)))).
    rewrite IH; rewrite skipn_length; lia.
Qed.

Lemma runes_width : forall s, width (runes s) = Z.of_nat (length s).
Proof. intros s. apply runes_fuel_width. lia. Qed.

Lemma width_nonneg : forall s, (0 <= width s)%Z.
Proof. induction s as [|[r w] s IH]; [apply Z.le_refl|].
  cbn [width fold_right snd]. fold (width s). lia. Qed.

Definition cap_ok (L : Z) (x : nat * (Z * Z)) : Prop := (0 <= fst (snd x) <= snd (snd x) /\ snd (snd x) <= L)%Z.
Definition caps_ok (L : Z) (c : caps) : Prop := Forall (cap_ok L) c.

(** Every successful match goes through its continuation, at a later position and with captures in bounds. *)
Lemma mt_inv : forall L (Q : caps -> Prop) r s p c k res,
  (0 <= p)%Z -> (p + width s = L)%Z -> caps_ok L c ->
  (forall s' p' c' res', (p <= p')%Z -> (p' + width s' = L)%Z -> caps_ok L c' -> k s' p' c' = Some res' -> Q res') ->
  mt r s p c k = Some res -> Q res.
Proof.
  intros L Q r. induction r as [|neg rs| | |a IHa b IHb|a IHa b IHb|g a IHa|n a IHa];
    intros s p c k res P0 W C K E; cbn [mt] in E.
  - apply (K s p c res); auto; lia.
  - destruct s as [|[x w] s']; [discriminate|].
    destruct (cls_mem neg rs x); [|discriminate].
    cbn [width fold_right snd] in W. fold (width s') in W.
    apply (K s' (p + Z.of_nat w)%Z c res); auto; lia.
  - destruct (p =? 0)%Z; [|discriminate]. apply (K s p c res); auto; lia.
  - destruct s; [|discriminate]. apply (K [] p c res); auto; lia.
  - apply (IHa s p c _ res P0 W C) in E; auto.
    intros s' p' c' res' Lp W' C' E'.
    apply (IHb s' p' c' _ res') in E'; auto; try lia.
    intros s'' p'' c'' res'' Lp' W'' C'' E''. apply (K s'' p'' c'' res''); auto; lia.
  - unfold orelse in E. destruct (mt a s p c k) eqn:Ea.
    + rewrite E in Ea. apply (IHa s p c k res P0 W C K Ea).
    + apply (IHb s p c k res P0 W C K E).
  - remember (S (length s)) as f eqn:F. clear F.
    revert s p c res P0 W C K E. induction f as [|f IHf]; intros s p c res P0 W C K E.
    + cbn [star_loop] in E. apply (K s p c res); auto; lia.
    + cbn [star_loop] in E. unfold orelse in E.
      match type of E with context [mt a s p c ?k'] => set (kk := k') in E end.
      assert (KK : forall s' p' c' res', (p <= p')%Z -> (p' + width s' = L)%Z -> caps_ok L c' ->
                   kk s' p' c' = Some res' -> Q res').
      { intros s' p' c' res' Lp W' C' E'. unfold kk in E'.
        destruct (length s' <? length s); [|discriminate].
        apply (IHf s' p' c' res'); auto; try lia.
        intros s'' p'' c'' res'' Lp' W'' C'' E''. apply (K s'' p'' c'' res''); auto; lia. }
      destruct g.
      * destruct (mt a s p c kk) eqn:Ea.
        -- rewrite E in Ea. apply (IHa s p c kk res P0 W C KK Ea).
        -- apply (K s p c res); auto; lia.
      * destruct (k s p c) eqn:Ek.
        -- rewrite E in Ek. apply (K s p c res); auto; lia.
        -- apply (IHa s p c kk res P0 W C KK E).
  - apply (IHa s p c _ res P0 W C) in E; auto.
    intros s' p' c' res' Lp W' C' E'.
    apply (K s' p' ((n, (p, p')) :: c') res'); auto.
    pose proof (width_nonneg s'). constructor; [|assumption]. unfold cap_ok. cbn. lia.
Qed.

Definition found (L : Z) (c : caps) : Prop :=
  caps_ok L c /\ exists lo hi, cap_get c 0 = (lo, hi) /\ (0 <= lo <= hi)%Z /\ (hi <= L)%Z.

Lemma find_from_inv : forall L r s p c,
  (0 <= p)%Z -> (p + width s = L)%Z -> find_from r s p = Some c -> found L c.
Proof.
  intros L r s. induction s as [|[x w] s IH]; intros p c P0 W E; cbn [find_from] in E; unfold orelse in E.
  - destruct (mt r [] p [] _) eqn:M; [|discriminate]. injection E as ->.
    apply (mt_inv L (found L) r [] p [] _ c) in M; auto.
    + constructor.
    + intros s' p' c' res' Lp W' C' E'. injection E' as <-. pose proof (width_nonneg s').
      split.
      * constructor; [|assumption]. unfold cap_ok. cbn. lia.
      * exists p, p'. cbn. repeat split; lia.
  - destruct (mt r ((x, w) :: s) p [] _) eqn:M.
    + injection E as ->.
      apply (mt_inv L (found L) r ((x, w) :: s) p [] _ c) in M; auto.
      * constructor.
      * intros s' p' c' res' Lp W' C' E'. injection E' as <-. pose proof (width_nonneg s').
        split.
        -- constructor; [|assumption]. unfold cap_ok. cbn. lia.
        -- exists p, p'. cbn. repeat split; lia.
    + cbn [width fold_right snd] in W. fold (width s) in W. apply IH in E; auto; lia.
Qed.

(** The shape of a FindSubmatchIndex result on a text of length [L] for a pattern of [ng] groups: one pair per group
    and one for the whole match; a pair is (-1, -1) or in bounds, and the first one is in bounds. *)
Definition sub_ok (L : Z) (x : Z * Z) : Prop := (0 <= fst x <= snd x /\ snd x <= L)%Z.
Definition find_ok (ng : nat) (L : Z) (m : list Z) : Prop :=
  exists ps, m = flat_map (fun x => [fst x; snd x]) ps /\ length ps = S ng /\
             Forall (fun x => x = (-1, -1)%Z \/ sub_ok L x) ps /\ exists x ps', ps = x :: ps' /\ sub_ok L x.

Lemma cap_get_ok : forall L c n, caps_ok L c -> cap_get c n = (-1, -1)%Z \/ sub_ok L (cap_get c n).
Proof.
  intros L c n H. induction H as [|[m x] c Hx H IH]; [left; reflexivity|].
  cbn [cap_get]. destruct (m =? n); [right; exact Hx | exact IH].
Qed.

Lemma find_re_ok : forall a ng s m, find_re a ng s = Some m -> find_ok ng (Z.of_nat (length s)) m.
Proof.
  intros a ng s m E. unfold find_re in E. destruct (find_from a (runes s) 0) as [c|] eqn:F; [|discriminate].
  injection E as <-.
  apply (find_from_inv (Z.of_nat (length s))) in F; [|lia|rewrite runes_width; lia].
  destruct F as (C & lo & hi & G0 & B1 & B2).
  exists (map (cap_get c) (seq 0 (S ng))). split; [|split; [|split]].
  - unfold flat_caps. induction (seq 0 (S ng)) as [|n l IH]; [reflexivity|]. cbn. rewrite IH. reflexivity.
  - rewrite map_length, seq_length. reflexivity.
  - apply Forall_forall. intros x I. apply in_map_iff in I. destruct I as (n & <- & _). apply cap_get_ok. exact C.
  - cbn [seq map]. eexists. eexists. split; [reflexivity|]. rewrite G0. split; [exact B1|exact B2].
Qed.

(** A compiled pattern with [ng] groups. *)
Definition re_ok (ng : nat) (r : regex) : Prop :=
  forall s m, re_find r s = Some m -> find_ok ng (Z.of_nat (length s)) m.

Lemma compile_ok : forall src a ng, parse_re src = Some (a, ng) -> re_ok ng (compile src).
Proof. intros src a ng E s m F. cbn [compile re_find] in F. rewrite E in F. apply find_re_ok in F. exact F. Qed.

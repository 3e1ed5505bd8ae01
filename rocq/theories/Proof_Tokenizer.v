(** Proofs about tokenizer.go. *)
From Verif Require Import Proof_Base Model_Tokenizer Spec_Tokenizer.

Definition delimb (c : byte) : bool := existsb (beq c) ([x20; x09; x0a; x0d] ++ bs "/();,.[]{}:=+*").

Arguments delimb : simpl never.
Arguments isDelimiter : simpl never.

Lemma delimb_iff c : delimb c = true <-> Delim c.
Proof.
  unfold delimb, Delim. rewrite existsb_exists. split.
  - intros (x & H & E). apply beq_eq in E. congruence.
  - intros H. exists c. split; [exact H|apply beq_refl].
Qed.

Definition delimb_or_panic (c : byte) : res bool := if beq c xff then Panic else Ok (delimb c).

Lemma isDelimiter_spec c : isDelimiter c = delimb_or_panic c.
Proof. destruct c; vm_compute; reflexivity. Qed.

Lemma isDelimiter_ok c : c <> xff -> isDelimiter c = Ok (delimb c).
Proof.
  intros H. rewrite isDelimiter_spec. unfold delimb_or_panic.
  apply beq_neq in H. rewrite H. reflexivity.
Qed.

Lemma scan_run want w rest pos :
  (forall c, In c w -> c <> xff /\ delimb c = want) ->
  (match rest with [] => True | c :: _ => c <> xff /\ delimb c <> want end) ->
  scan want pos (w ++ rest) = (pos + length w, Ok tt).
Proof.
  revert pos; induction w as [|c w IH]; intros pos Hw Hr; cbn [app length].
  - rewrite Nat.add_0_r. destruct rest as [|c rest]; [reflexivity|]. destruct Hr as [H1 H2].
    cbn [scan]. rewrite isDelimiter_ok by exact H1.
    destruct (Bool.eqb (delimb c) want) eqn:E; [apply eqb_prop in E; congruence|reflexivity].
  - cbn [scan]. destruct (Hw c (or_introl eq_refl)) as [H1 H2].
    rewrite isDelimiter_ok by exact H1. rewrite H2, eqb_reflx.
    rewrite IH; [f_equal; lia| |exact Hr]. intros x Hx. apply Hw. now right.
Qed.

Lemma scan_panic want w rest pos :
  (forall c, In c w -> c <> xff /\ delimb c = want) ->
  scan want pos (w ++ xff :: rest) = (pos + length w, Panic).
Proof.
  revert pos; induction w as [|c w IH]; intros pos Hw; cbn [app length].
  - rewrite Nat.add_0_r. reflexivity.
  - cbn [scan]. destruct (Hw c (or_introl eq_refl)) as [H1 H2].
    rewrite isDelimiter_ok by exact H1. rewrite H2, eqb_reflx.
    rewrite IH; [f_equal; lia|]. intros x Hx. apply Hw. now right.
Qed.

Lemma span_delim (s : bytes) :
  exists a b, s = a ++ b /\ (forall c, In c a -> delimb c = true) /\
              (match b with [] => True | c :: _ => delimb c = false end).
Proof.
  induction s as [|c s (a & b & -> & Ha & Hb)].
  - exists [], []. cbn. tauto.
  - destruct (delimb c) eqn:E.
    + exists (c :: a), b. split; [reflexivity|]. split; [|exact Hb]. intros x [<-|Hx]; auto.
    + exists [], (c :: a ++ b). split; [reflexivity|]. split; [intros ? []|exact E].
Qed.

Lemma span_word (s : bytes) :
  exists a b, s = a ++ b /\ (forall c, In c a -> delimb c = false) /\
              (match b with [] => True | c :: _ => delimb c = true end).
Proof.
  induction s as [|c s (a & b & -> & Ha & Hb)].
  - exists [], []. cbn. tauto.
  - destruct (delimb c) eqn:E.
    + exists [], (c :: a ++ b). split; [reflexivity|]. split; [intros ? []|exact E].
    + exists (c :: a), b. split; [reflexivity|]. split; [|exact Hb]. intros x [<-|Hx]; auto.
Qed.

Lemma Runs_skip_delims a s ts : (forall c, In c a -> delimb c = true) -> Runs s ts -> Runs (a ++ s) ts.
Proof.
  induction a as [|c a IH]; intros Ha H; [exact H|]. cbn.
  constructor; [apply delimb_iff, Ha; now left|]. apply IH; [|exact H]. intros x Hx. apply Ha. now right.
Qed.

(** Existence, by length. *)
Lemma Runs_total s : exists ts, Runs s ts.
Proof.
  remember (length s) as n eqn:En. assert (H : length s <= n) by lia. clear En.
  revert s H; induction n as [|n IH]; intros s H.
  - destruct s; [|cbn in H; lia]. exists []. constructor.
  - destruct s as [|c s]; [exists []; constructor|]. cbn in H.
    destruct (delimb c) eqn:E.
    + destruct (IH s) as (ts & R); [lia|]. exists ts. constructor; [apply delimb_iff; exact E|exact R].
    + destruct (span_word (c :: s)) as (a & b & Es & Ha & Hb).
      assert (Wa : Word a).
      { split.
        - intros ->. cbn in Es. subst b. cbn in Hb. congruence.
        - intros x Hx Hd. apply delimb_iff in Hd. rewrite Ha in Hd by exact Hx. discriminate. }
      rewrite Es. destruct b as [|d b].
      * rewrite app_nil_r. exists [a]. now constructor.
      * assert (length (c :: s) = length a + S (length b)) by (rewrite Es, app_length; reflexivity).
        destruct a as [|a0 a]; [destruct Wa; congruence|]. cbn in H0.
        destruct (IH b) as (ts & R); [lia|].
        exists ((a0 :: a) :: ts). constructor; [exact Wa|apply delimb_iff; exact Hb|exact R].
Qed.

Lemma word_split_unique (w w' : bytes) c c' s s' :
  Word w -> Word w' -> Delim c -> Delim c' -> w ++ c :: s = w' ++ c' :: s' -> w = w' /\ s = s'.
Proof.
  intros [_ Hw] [_ Hw'] Dc Dc'. revert w' Hw'. induction w as [|x w IH]; intros [|y w'] Hw' E; cbn in *.
  - split; congruence.
  - injection E as -> _. exfalso. apply (Hw' y); [now left|exact Dc].
  - injection E as -> _. exfalso. apply (Hw c'); [now left|exact Dc'].
  - injection E as -> E. destruct (IH (fun c H => Hw c (or_intror H)) w' (fun c H => Hw' c (or_intror H)) E) as [-> ->]. tauto.
Qed.

Lemma Word_not_delim_inside w c s : Word (w ++ c :: s) -> ~ Delim c.
Proof. intros [_ H]. apply H. apply in_or_app. right. now left. Qed.

Lemma Runs_unique s ts : Runs s ts -> forall ts', Runs s ts' -> ts = ts'.
Proof.
  induction 1 as [|c s ts Hd H IH|w Hw|w c s ts Hw Hd H IH]; intros ts' H'.
  - inversion H' as [|c1 s1 ts1 D1 R1|w1 W1|w1 c1 s1 ts1 W1 D1 R1 E1]; subst; try reflexivity.
    + destruct W1. congruence.
    + destruct w1; discriminate.
  - inversion H' as [|c1 s1 ts1 D1 R1|w1 W1|w1 c1 s1 ts1 W1 D1 R1 E1]; subst.
    + apply IH. exact R1.
    + exfalso. destruct W1 as [_ W1]. apply (W1 c); [now left|exact Hd].
    + exfalso. destruct w1 as [|x w1]; [destruct W1; congruence|]. injection E1 as -> _.
      destruct W1 as [_ W1]. apply (W1 c); [now left|exact Hd].
  - inversion H' as [|c1 s1 ts1 D1 R1|w1 W1|w1 c1 s1 ts1 W1 D1 R1 E1]; subst; try reflexivity.
    + destruct Hw; congruence.
    + exfalso. destruct Hw as [_ Hw]. apply (Hw c1); [now left|exact D1].
    + exfalso. apply Word_not_delim_inside in Hw. contradiction.
  - inversion H' as [|c1 s1 ts1 D1 R1 E1|w1 W1|w1 c1 s1 ts1 W1 D1 R1 E1]; subst.
    + destruct w; discriminate.
    + exfalso. destruct w as [|x w]; [destruct Hw; congruence|]. injection E1 as -> _.
      destruct Hw as [_ Hw]. apply (Hw x); [now left|exact D1].
    + exfalso. apply Word_not_delim_inside in W1. contradiction.
    + apply word_split_unique in E1 as [-> ->]; try assumption. f_equal. apply IH. exact R1.
Qed.

(** One call. *)
Lemma skipn_at (ua a b : bytes) pos : skipn pos ua = a ++ b -> skipn (pos + length a) ua = b.
Proof.
  intros E. rewrite <- skipn_skipn, E, skipn_app, skipn_all, Nat.sub_diag. reflexivity.
Qed.

Lemma skipn_len_le {A} (l : list A) pos x t : skipn pos l = x :: t -> pos < length l.
Proof.
  intros E. destruct (Nat.lt_ge_cases pos (length l)) as [H|H]; [exact H|].
  rewrite skipn_all2 in E by exact H. discriminate.
Qed.

Lemma skipn_nil_ge {A} (l : list A) pos : skipn pos l = [] -> length l <= pos.
Proof. intros E. pose proof (skipn_length pos l). rewrite E in H. cbn in H. lia. Qed.

Lemma next_eof pos ua a :
  skipn pos ua = a -> (forall c, In c a -> c <> xff /\ delimb c = true) ->
  exists p, next pos ua = (p, Ok EOF) /\ skipn p ua = [].
Proof.
  intros E Ha. unfold next.
  destruct (Nat.leb_spec (length ua) pos) as [Hl|Hl].
  - exists pos. split; [reflexivity|]. apply skipn_all2. exact Hl.
  - rewrite E. rewrite <- (app_nil_r a), (scan_run true a [] pos Ha I).
    assert (Hp : pos + length a = length ua).
    { rewrite <- E, skipn_length. lia. }
    rewrite Hp. rewrite Nat.leb_refl. exists (length ua). split; [reflexivity|]. apply skipn_all.
Qed.

Lemma next_tok pos ua a w rest :
  skipn pos ua = a ++ w ++ rest -> (forall c, In c a -> c <> xff /\ delimb c = true) ->
  w <> [] -> (forall c, In c w -> c <> xff /\ delimb c = false) ->
  (match rest with [] => True | c :: _ => c <> xff /\ delimb c = true end) ->
  next pos ua = (pos + length a + length w, Ok (Tok w)) /\ skipn (pos + length a + length w) ua = rest.
Proof.
  intros E Ha Hne Hw Hr. unfold next.
  destruct w as [|x w]; [congruence|].
  assert (Hs : skipn (pos + length a) ua = (x :: w) ++ rest) by (apply skipn_at; exact E).
  assert (Hlt : pos + length a < length ua) by (cbn in Hs; eapply skipn_len_le, Hs).
  destruct (Nat.leb_spec (length ua) pos) as [Hl|Hl]; [lia|].
  rewrite E. rewrite (scan_run true a _ pos Ha).
  2:{ cbn. destruct (Hw x (or_introl eq_refl)) as [H1 H2]. split; [exact H1|congruence]. }
  destruct (Nat.leb_spec (length ua) (pos + length a)) as [Hl2|_]; [lia|].
  rewrite Hs. rewrite (scan_run false (x :: w) rest _ Hw).
  2:{ destruct rest as [|c rest]; [exact I|]. destruct Hr. split; [assumption|congruence]. }
  split; [|apply skipn_at; exact Hs].
  do 3 f_equal. replace (pos + length a + length (x :: w) - (pos + length a)) with (length (x :: w)) by lia.
  rewrite firstn_app, firstn_all, Nat.sub_diag, firstn_O, app_nil_r. reflexivity.
Qed.

Lemma next_panic_delim pos ua a rest :
  skipn pos ua = a ++ xff :: rest -> (forall c, In c a -> c <> xff /\ delimb c = true) ->
  exists p, next pos ua = (p, Panic).
Proof.
  intros E Ha. unfold next.
  assert (Hlt : pos < length ua) by (destruct a; cbn in E; eapply skipn_len_le, E).
  destruct (Nat.leb_spec (length ua) pos) as [Hl|Hl]; [lia|].
  rewrite E, (scan_panic true a rest pos Ha). eauto.
Qed.

Lemma next_panic_word pos ua a w rest :
  skipn pos ua = a ++ w ++ xff :: rest -> (forall c, In c a -> c <> xff /\ delimb c = true) ->
  w <> [] -> (forall c, In c w -> c <> xff /\ delimb c = false) ->
  exists p, next pos ua = (p, Panic).
Proof.
  intros E Ha Hne Hw. unfold next. destruct w as [|x w]; [congruence|].
  assert (Hs : skipn (pos + length a) ua = (x :: w) ++ xff :: rest) by (apply skipn_at; exact E).
  assert (Hlt : pos + length a < length ua) by (cbn in Hs; eapply skipn_len_le, Hs).
  destruct (Nat.leb_spec (length ua) pos) as [Hl|Hl]; [lia|].
  rewrite E. rewrite (scan_run true a _ pos Ha).
  2:{ cbn. destruct (Hw x (or_introl eq_refl)) as [H1 H2]. split; [exact H1|congruence]. }
  destruct (Nat.leb_spec (length ua) (pos + length a)) as [Hl2|_]; [lia|].
  rewrite Hs, (scan_panic false (x :: w) rest _ Hw). eauto.
Qed.

(** The head of a Runs derivation. *)
Lemma Runs_head s ts :
  Runs s ts ->
  match ts with
  | [] => forall c, In c s -> Delim c
  | w :: ts' => exists a rest, s = a ++ w ++ rest /\ (forall c, In c a -> Delim c) /\ Word w /\ Runs rest ts' /\
                 match rest with [] => True | c :: _ => Delim c end
  end.
Proof.
  induction 1 as [|c s ts Hd H IH|w Hw|w c s ts Hw Hd H IH].
  - intros c [].
  - destruct ts as [|w ts'].
    + intros x [<-|Hx]; auto.
    + destruct IH as (a & rest & -> & Ha & W & R & Hr). exists (c :: a), rest.
      split; [reflexivity|]. split; [intros x [<-|Hx]; auto|]. tauto.
  - exists [], []. rewrite app_nil_r. cbn. split; [reflexivity|]. split; [tauto|]. split; [exact Hw|]. split; [constructor|exact I].
  - exists [], (c :: s). cbn. split; [reflexivity|]. split; [tauto|]. split; [exact Hw|]. split; [now constructor|exact Hd].
Qed.

Lemma calls_runs n : forall pos ua ts,
  Runs (skipn pos ua) ts -> ~ In xff (skipn pos ua) ->
  calls n pos ua = map Ok (firstn n (map Tok ts ++ repeat EOF n)).
Proof.
  induction n as [|n IH]; intros pos ua ts R Hff; [reflexivity|].
  cbn [calls]. apply Runs_head in R. destruct ts as [|w ts'].
  - destruct (next_eof pos ua _ eq_refl) as (p & En & Ep).
    { intros c Hc. split; [intros ->; tauto|]. apply delimb_iff, R, Hc. }
    rewrite En. cbn [map app repeat firstn]. f_equal.
    rewrite (IH p ua []); [reflexivity| |].
    + rewrite Ep. constructor.
    + rewrite Ep. tauto.
  - destruct R as (a & rest & E & Ha & Hw & R & Hr). rewrite E in Hff.
    destruct (next_tok pos ua a w rest E) as [En Ep].
    + intros c Hc. split; [intros ->; apply Hff, in_or_app; now left|]. apply delimb_iff, Ha, Hc.
    + apply Hw.
    + intros c Hc. split; [intros ->; apply Hff, in_or_app; right; apply in_or_app; now left|].
      destruct (delimb c) eqn:D; [|reflexivity]. apply delimb_iff in D. destruct Hw as [_ Hw]. now apply Hw in D.
    + destruct rest as [|c rest]; [exact I|]. split; [|apply delimb_iff; exact Hr].
      intros ->. apply Hff, in_or_app; right; apply in_or_app. right. now left.
    + rewrite En. cbn [map app repeat firstn]. f_equal.
      rewrite (IH _ ua ts').
      * f_equal.
        assert (K : forall (A : Type) (l : list A) (e : A) k m, k <= m -> firstn k (l ++ repeat e (S m)) = firstn k (l ++ repeat e m)).
        { intros A l e. induction l as [|y l IHl]; intros k m Hkm; cbn [app].
          - clear IH. revert k Hkm. induction m as [|m IHm]; intros k Hkm.
            + assert (k = 0) by lia. subst. reflexivity.
            + destruct k; [reflexivity|]. cbn [repeat firstn]. f_equal. apply IHm. lia.
          - destruct k; [reflexivity|]. cbn [firstn]. f_equal. apply IHl. lia. }
        symmetry. apply (K token (map Tok ts') EOF n n). lia.
      * rewrite Ep. exact R.
      * rewrite Ep. intros Hi. apply Hff. apply in_or_app; right; apply in_or_app. now right.
Qed.

(** Panic exactly when the byte 0xFF occurs. *)
Lemma calls_panic : forall k pos ua, length (skipn pos ua) <= k -> In xff (skipn pos ua) -> exists n, In Panic (calls n pos ua).
Proof.
  induction k as [|k IH]; intros pos ua Hk Hi.
  - destruct (skipn pos ua); [destruct Hi|cbn in Hk; lia].
  - destruct (span_delim (skipn pos ua)) as (a & b & E & Ha & Hb).
    assert (Nff : delimb xff = false) by reflexivity.
    assert (Ha' : forall c, In c a -> c <> xff /\ delimb c = true).
    { intros c Hc. split; [|auto]. intros ->. apply Ha in Hc. congruence. }
    assert (Hib : In xff b).
    { rewrite E in Hi. apply in_app_or in Hi as [Hi|Hi]; [|exact Hi]. apply Ha in Hi. congruence. }
    destruct (span_word b) as (w & rest & Eb & Hw & Hr).
    destruct (in_dec Byte.byte_eq_dec xff w) as [Hx|Hx].
    + apply in_split in Hx as (w1 & w2 & ->).
      (* first occurrence *)
      assert (exists u v, w1 ++ xff :: w2 = u ++ xff :: v /\ ~ In xff u) as (u & v & Ew & Hu).
      { destruct (index_byte (w1 ++ xff :: w2) xff) as [j|] eqn:Ej.
        - apply index_byte_Some in Ej as (u & v & -> & _ & Hu). eauto.
        - apply index_byte_None in Ej. exfalso. apply Ej, in_or_app. right. now left. }
      rewrite Ew in *. clear Ew.
      assert (exists p, next pos ua = (p, Panic)) as (p & Ep).
      { destruct u as [|y u].
        - eapply (next_panic_delim pos ua a (v ++ rest)); [|exact Ha'].
          rewrite E, Eb. cbn. reflexivity.
        - eapply (next_panic_word pos ua a (y :: u) (v ++ rest)); [|exact Ha'|congruence|].
          + rewrite E, Eb. rewrite <- app_assoc. reflexivity.
          + intros c Hc. split; [intros ->; tauto|]. apply Hw. apply in_or_app. now left. }
      exists 1. cbn. rewrite Ep. now left.
    + assert (Hrest : In xff rest).
      { rewrite Eb in Hib. apply in_app_or in Hib as [?|?]; tauto. }
      destruct w as [|y w].
      { exfalso. cbn in Eb. subst b. destruct rest as [|c rest]; [destruct Hrest|]. congruence. }
      destruct (next_tok pos ua a (y :: w) rest) as [En Ep].
      * rewrite E, Eb. reflexivity.
      * exact Ha'.
      * congruence.
      * intros c Hc. split; [intros ->; tauto|auto].
      * destruct rest as [|c rest]; [exact I|]. split; [intros ->; congruence|exact Hr].
      * destruct (IH (pos + length a + length (y :: w)) ua) as (n & Hn).
        -- rewrite Ep. rewrite E, Eb, !app_length in Hk. cbn in Hk. lia.
        -- rewrite Ep. exact Hrest.
        -- exists (S n). cbn [calls]. rewrite En. now right.
Qed.

Lemma calls_ok_no_panic n pos ua : ~ In xff (skipn pos ua) -> ~ In Panic (calls n pos ua).
Proof.
  intros H. destruct (Runs_total (skipn pos ua)) as (ts & R). rewrite (calls_runs n pos ua ts R H).
  intros Hi. apply in_map_iff in Hi as (x & E & _). discriminate.
Qed.

Lemma panic_iff ua : (exists n, In Panic (calls n 0 ua)) <-> In xff ua.
Proof.
  split.
  - intros (n & H). destruct (in_dec Byte.byte_eq_dec xff ua) as [Hi|Hi]; [exact Hi|].
    exfalso. revert H. apply calls_ok_no_panic. exact Hi.
  - intros H. apply (calls_panic (length ua) 0 ua); [cbn; lia|exact H].
Qed.

Lemma Runs_length s ts : Runs s ts -> length ts <= length s /\ Forall (fun w => w <> []) ts.
Proof.
  induction 1 as [|c s ts Hd H [IH IHf]|w Hw|w c s ts Hw Hd H [IH IHf]]; cbn.
  - split; [lia|constructor].
  - split; [lia|exact IHf].
  - destruct Hw as [Hw _]. split; [destruct w; [congruence|cbn; lia]|repeat constructor; exact Hw].
  - destruct Hw as [Hw _]. rewrite app_length. cbn. split; [lia|constructor; assumption].
Qed.

Lemma calls_string_eq n pos ua :
  calls_string n pos ua =
  map (fun r => match r with Ok (Tok t) => Ok (t, false) | Ok EOF => Ok ([], true) | Panic => Panic end) (calls n pos ua).
Proof.
  revert pos; induction n as [|n IH]; intros pos; cbn; [reflexivity|].
  unfold next_string. destruct (next pos ua) as [p [[t|]|]]; cbn; rewrite IH; reflexivity.
Qed.

(** EOF is sticky, for every position and input (even with 0xFF bytes). *)
Lemma scan_end want : forall rest pos p, scan want pos rest = (p, Ok tt) -> pos <= p.
Proof.
  induction rest as [|c rest IH]; intros pos p; cbn; [intros [= <-]; lia|].
  destruct (isDelimiter c) as [d|]; [|congruence].
  destruct (Bool.eqb d want); [|intros [= <-]; lia]. intros H. apply IH in H. lia.
Qed.

Lemma eof_sticky pos ua p : next pos ua = (p, Ok EOF) -> next p ua = (p, Ok EOF).
Proof.
  unfold next at 1. destruct (Nat.leb_spec (length ua) pos) as [Hl|Hl].
  - intros [= <-]. unfold next. apply Nat.leb_le in Hl. rewrite Hl. reflexivity.
  - destruct (scan true pos (skipn pos ua)) as [q [[]|]] eqn:E1; [|congruence].
    destruct (Nat.leb_spec (length ua) q) as [Hq|Hq].
    + intros [= <-]. unfold next. apply Nat.leb_le in Hq. rewrite Hq. reflexivity.
    + destruct (scan false q (skipn q ua)) as [q' [[]|]]; congruence.
Qed.

Lemma eof_forever n pos ua p : next pos ua = (p, Ok EOF) -> calls n p ua = repeat (Ok EOF) n.
Proof.
  intros H. apply eof_sticky in H. revert H; induction n as [|n IH]; intros H; cbn; [reflexivity|].
  rewrite H. f_equal. apply IH. exact H.
Qed.

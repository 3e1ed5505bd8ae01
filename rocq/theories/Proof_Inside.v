(** Names inside words. *)
From Coq Require Import Lia ZifyBool ZifyNat ZifyN.
From Verif Require Import Model_Base Model_Blob Model_Ctx Model_Regex Model_Shipped Model_Parse Spec_Regex Spec_Select Spec_Dead Spec_Getters Spec_Android Spec_Inside
  Proof_Base Proof_Regex Proof_Pattern Proof_Select Proof_Word Proof_Covers Proof_Quick Proof_Dead Proof_Shadow Proof_Index
  Proof_Live Proof_Tables Proof_Fine Proof_Android Proof_AndroidDb.
Open Scope nat_scope.
Notation found := Proof_Covers.found.

(** ** Patterns that do not look back *)
Fixpoint nobol (a : re) : bool :=
  match a with
  | Bol => false
  | Cat a b | Alt a b => if nobol a then nobol b else false
  | Star _ a | Grp _ a => nobol a
  | _ => true
  end.
Lemma nobol_lang a u v w : lang a u v w -> nobol a = true -> forall u', lang a u' v w.
Proof.
  intros L. induction L as [ | | | |a b u v1 v2 w _ IH1 _ IH2|a b u v w _ IH|a b u v w _ IH| |g a u v1 v2 w _ IH1 _ IH2|n a u v w _ IH]; cbn [nobol]; intros N u'; try discriminate N.
  - constructor.
  - constructor. assumption.
  - constructor.
  - destruct (nobol a); [|discriminate N]. constructor; [apply IH1; reflexivity|apply IH2; exact N].
  - destruct (nobol a); [|discriminate N]. apply L_left. apply IH. reflexivity.
  - destruct (nobol a); [|discriminate N]. apply L_right. apply IH. exact N.
  - constructor.
  - apply L_more; [apply IH1; exact N|apply IH2; exact N].
  - constructor. apply IH. exact N.
Qed.

Section Before.
Variable T : tables.
Hypothesis CO : compiled (dr_re T).
Definition free (t : tree regex) (x : deviceTuple) : bool :=
  if (0 <=? dt_matchRI x)%Z then
    match look t (dt_matchRI x) with Some r => match parse_re (re_src r) with Some (a, _) => nobol a | None => false end | None => false end
  else true.
Lemma free_before x ua a c : free (numbered (dr_re T)) x = true -> (bn c < 128)%N -> device_applies T (c :: ua) x -> device_applies T (a ++ c :: ua) x.
Proof.
  unfold free, device_applies. intros F C [(L & r & N & M)|(L & s & X & O)].
  - destruct (Z.leb_spec 0 (dt_matchRI x)); [|lia]. destruct (look _ _) as [r'|] eqn:LK; [|discriminate F]. apply (look_nth _ _ _ L) in LK. rewrite N in LK. injection LK as <-.
    destruct (parse_re (re_src r)) as [[e ng]|] eqn:P; [|discriminate F].
    assert (E : r = compile (re_src r)) by (apply CO; exact (nth_error_In _ _ N)).
    left. split; [exact L|]. exists r. split; [exact N|]. rewrite E in M |- *. apply (compile_lang _ e ng _ P) in M. apply (compile_lang _ e ng _ P).
    destruct M as (u & v & w & R & M). pose proof (runes_more c ua C (length a) a (le_n _)) as RM. unfold bytes in *. rewrite RM, R.
    exists (runes a ++ u), v, w. split; [rewrite !app_assoc; reflexivity|]. exact (nobol_lang _ _ _ _ M F _).
  - right. split; [exact L|]. exists s. split; [exact X|]. destruct O as (NE & p & q & E). split; [exact NE|]. exists (a ++ p), q. rewrite E, <- app_assoc. reflexivity.
Qed.
(** Entry by entry. *)
Fixpoint all_free (t : tree regex) (k n : nat) (l : list deviceTuple) : bool :=
  match l with
  | [] => true
  | x :: l' => if (if free t x then true else (k =? fst next_box) && (n =? snd next_box)) then all_free t k (S n) l' else false
  end.
Lemma all_free_nth t k l : forall n i x, all_free t k n l = true -> nth_error l i = Some x -> (k, n + i) <> next_box -> free t x = true.
Proof.
  induction l as [|y l IH]; intros n i x H N D; [destruct i; discriminate N|]. cbn [all_free] in H. destruct i as [|i]; cbn in N.
  - injection N as ->. destruct (free t x); [reflexivity|]. destruct ((k =? fst next_box) && (n =? snd next_box)) eqn:E; [|discriminate H].
    apply andb_prop in E. destruct E as [E1 E2]. apply PeanoNat.Nat.eqb_eq in E1, E2. exfalso. apply D. rewrite E1, PeanoNat.Nat.add_0_r, E2. reflexivity.
  - apply (IH (S n) i x); [|exact N|replace (S n + i) with (n + S i) by lia; exact D]. destruct (if free t y then true else _); [exact H|discriminate H].
Qed.
Fixpoint every_free (t : tree regex) (k : nat) (ls : list (list deviceTuple)) : bool :=
  match ls with [] => true | l :: ls' => if all_free t k 0 l then every_free t (S k) ls' else false end.
Lemma every_free_nth t ls : forall k j l i x, every_free t k ls = true -> nth_error ls j = Some l -> nth_error l i = Some x -> (k + j, i) <> next_box -> free t x = true.
Proof.
  induction ls as [|m ls IH]; intros k j l i x H N I D; [destruct j; discriminate N|]. cbn [every_free] in H. destruct (all_free t k 0 m) eqn:A; [|discriminate H].
  destruct j as [|j]; cbn in N.
  - injection N as ->. apply (all_free_nth t k l 0 i x A I). rewrite PeanoNat.Nat.add_0_r in D. exact D.
  - apply (IH (S k) j l i x H N I). replace (S k + j) with (k + S j) by lia. exact D.
Qed.
Lemma before_all : every_free (numbered (dr_re T)) 0 (dr_idx T) = true -> forall k l i x, nth_error (dr_idx T) k = Some l -> nth_error l i = Some x -> (k, i) <> next_box ->
  forall a c ua, (bn c < 128)%N -> device_applies T (c :: ua) x -> device_applies T (a ++ c :: ua) x.
Proof. intros H k l i x K I D a c ua C. apply free_before; [|exact C]. exact (every_free_nth _ _ 0 k l i x H K I D). Qed.

(** ** Words *)
Definition caseless (s : bytes) : list re :=
  map (fun c => let n := bn c in Cls false (if (97 <=? n)%N then if (n <=? 122)%N then [(n, n); (n - 32, n - 32)%N] else [(n, n)] else [(n, n)])) s.
Lemma spelled_langs s : forall w u v k, spelled w s -> langs (lits w) u v k -> langs (caseless s) u v k.
Proof.
  induction s as [|c s IH]; intros w u v k SP L; inversion SP as [|x y w' s' E F]; subst; [exact L|]. cbn [lits map] in L. apply langs_cls in L. destruct L as (r & wd & v2 & -> & M & L).
  cbn [caseless map]. apply langs_cls. exists r, wd, v2. split; [reflexivity|]. split; [|apply (IH w'); [exact F|exact L]].
  assert (R : r = bn x).
  { unfold cls_mem, in_rng in M. rewrite Bool.xorb_false_l in M. cbn [existsb fst snd] in M. lia. }
  subst r. cbv zeta. unfold cls_mem, in_rng. rewrite Bool.xorb_false_l.
  destruct E as [->|(E1 & E2)]; destruct (N.leb_spec 97 (bn c)); try destruct (N.leb_spec (bn c) 122); cbn [existsb fst snd]; lia.
Qed.
Lemma spelled_ascii w s : asciib s = true -> spelled w s -> asciib w = true.
Proof.
  intros A SP. induction SP as [|x c w s E _ IH]; [reflexivity|]. unfold asciib in A |- *. cbn [forallb] in A |- *. apply andb_prop in A. destruct A as [A1 A2]. unfold asciib in IH. rewrite (IH A2), Bool.andb_true_r.
  destruct E as [->|(E1 & E2)]; [exact A1|lia].
Qed.
Variable l : list deviceTuple.
Hypothesis EL : nth_error (dr_idx T) phones = Some l.
Definition has_word (t : tree regex) (s : bytes) (x : deviceTuple) : bool :=
  if asciib s then
  if (0 <=? dt_matchRI x)%Z then
    match look t (dt_matchRI x) with Some r => match parse_re (re_src r) with Some (a, _) => has 300 (caseless s) [a] | None => false end | None => false end
  else false else false.
Lemma has_word_ok s x ua : s <> [] -> has_word (numbered (dr_re T)) s x = true -> says s ua -> device_applies T ua x.
Proof.
  unfold has_word. intros NE H (a & w & b & -> & SP). destruct (asciib s) eqn:A; [|discriminate H]. destruct (Z.leb_spec 0 (dt_matchRI x)) as [L|]; [|discriminate H].
  destruct (look _ _) as [r|] eqn:LK; [|discriminate H]. apply (look_nth _ _ _ L) in LK. destruct (parse_re (re_src r)) as [[e ng]|] eqn:P; [|discriminate H].
  destruct (occurs_langs w (a ++ w ++ b) (spelled_ascii w s A SP)) as (u & v & k & R & LG).
  { split; [intros ->; inversion SP; subst; exact (NE eq_refl)|]. exists a, b. reflexivity. }
  apply (spelled_langs s w) in LG; [|exact SP]. destruct (has_found _ _ _ H u v k LG) as (q & [<-|[]] & F). rewrite <- R in F.
  left. split; [exact L|]. exists r. split; [exact LK|]. rewrite (CO r (nth_error_In _ _ LK)). apply (compile_lang _ e ng _ P). exact F.
Qed.
Definition words_check (ws : list (bytes * nat)) : bool :=
  let t := numbered (dr_re T) in
  forallb (fun p => match fst p with [] => false | _ => match nth_error l (snd p) with Some x => has_word t (fst p) x | None => false end end) ws.
Lemma words_known ws s n ua : words_check ws = true -> In (s, n) ws -> says s ua -> known T l n ua.
Proof.
  unfold words_check. cbv zeta. intros H I SA. rewrite forallb_forall in H. specialize (H (s, n) I). cbn [fst snd] in H.
  assert (NE : s <> []) by (intros ->; discriminate H). destruct s as [|c s]; [contradiction|]. unfold known. destruct (nth_error l n) as [x|]; [|discriminate H].
  exists x. split; [reflexivity|]. exact (has_word_ok (c :: s) x ua NE H SA).
Qed.
End Before.

Definition inside (T : tables) (ws : list (bytes * nat)) : bool :=
  match nth_error (dr_idx T) phones with Some l => words_check T l ws | None => false end.
Lemma words_first T ws : compiled (dr_re T) -> inside T ws = true ->
  forall s n ua, In (s, n) ws -> says s ua -> exists l i, nth_error (dr_idx T) phones = Some l /\ i <= n /\ picked (device_applies T ua) l i.
Proof.
  unfold inside. intros CO H s n ua I SA. destruct (nth_error (dr_idx T) phones) as [l|] eqn:E; [|discriminate H]. destruct (words_known T CO l ws s n ua H I SA) as (x & N & X).
  destruct (some_picked (device_applies T ua) (fun y => applies_dec _ _ _ _ _) l n x N X) as (i & L & P). exists l, i. auto.
Qed.
Lemma words_brand T ws : compiled (dr_re T) -> device_sane T -> inside T ws = true ->
  forall w n mC mD h ua s, In (w, n) ws -> says w ua -> short ua -> on mD 2 -> alone T mC mD h ua GBrand = Ok (VB s) ->
  exists k l i x, nth_error (dr_idx T) k = Some l /\ nth_error l i = Some x /\ brand_is T x s /\ (k = phones -> i <= n) /\ k <> 4.
Proof.
  unfold inside. intros CO SA H w n mC mD h ua s I SY L M. destruct (nth_error (dr_idx T) phones) as [l|] eqn:E; [|discriminate H].
  exact (known_brand T l n E mC mD h ua s SA L (words_known T CO l ws w n ua H I SY) M).
Qed.
Lemma shipped_words_ok : inside shipped names_inside = true.
Proof. vm_cast_no_check (eq_refl true). Qed.
Lemma shipped_free : every_free (numbered (dr_re shipped)) 0 (dr_idx shipped) = true.
Proof. vm_cast_no_check (eq_refl true). Qed.
Lemma requests_taken : taken shipped 250 requests 250 (bs "CUBOT") (bs "CUBOT") = true.
Proof. vm_cast_no_check (eq_refl true). Qed.
Lemma shipped_before k l i x : nth_error (dr_idx shipped) k = Some l -> nth_error l i = Some x -> (k, i) <> next_box ->
  forall a c ua, (bn c < 128)%N -> device_applies shipped (c :: ua) x -> device_applies shipped (a ++ c :: ua) x.
Proof. exact (before_all shipped dr_compiled shipped_free k l i x). Qed.
Lemma shipped_first s n ua : In (s, n) names_inside -> says s ua -> exists l i, nth_error (dr_idx shipped) phones = Some l /\ i <= n /\ picked (device_applies shipped ua) l i.
Proof. exact (words_first shipped names_inside dr_compiled shipped_words_ok s n ua). Qed.
Lemma shipped_word_brand w n mC mD h ua s : In (w, n) names_inside -> says w ua -> short ua -> on mD 2 -> alone shipped mC mD h ua GBrand = Ok (VB s) ->
  exists k l i x, nth_error (dr_idx shipped) k = Some l /\ nth_error l i = Some x /\ brand_is shipped x s /\ (k = phones -> i <= n) /\ k <> 4.
Proof. exact (words_brand shipped names_inside dr_compiled shipped_device_sane shipped_words_ok w n mC mD h ua s). Qed.
Lemma requests_short : short requests.
Proof. unfold short. vm_compute. reflexivity. Qed.
Lemma taken_only T n ua m right wrong : compiled (dr_re T) -> device_sane T -> short ua -> (forall mC mD h, alone T mC mD h ua GBrand <> Panic) ->
  (exists l, nth_error (dr_idx T) phones = Some l) -> taken T n ua m right wrong = true ->
  forall mC mD h, on mD 2 -> alone T mC mD h ua GBrand = Ok (VB wrong).
Proof. intros CO SA L NP [l E] K mC mD h M. exact (taken_brand T CO l n E ua m right wrong mC mD h SA L (NP mC mD h) K M). Qed.
Lemma requests_cubot : forall mC mD h, on mD 2 -> alone shipped mC mD h requests GBrand = Ok (VB (bs "CUBOT")).
Proof.
  exact (taken_only shipped 250 requests 250 (bs "CUBOT") (bs "CUBOT") dr_compiled shipped_device_sane requests_short
    (fun mC mD h => shipped_device_no_panic mC mD h requests GBrand requests_short (or_intror (or_introl eq_refl)))
    (phones_some shipped motorola some_phones_ok) requests_taken).
Qed.

(** "requests" has "quest" inside a word only. *)
Definition same_letter (x c : byte) : bool :=
  if (bn x =? bn c)%N then true else ((65 <=? bn x) && (bn x <=? 90) && (bn x + 32 =? bn c))%N.
Fixpoint spellsb (ua s : bytes) : bool :=
  match s, ua with [], _ => true | c :: s', x :: ua' => if same_letter x c then spellsb ua' s' else false | _ :: _, [] => false end.
Lemma spelled_spellsb w s b : spelled w s -> spellsb (w ++ b) s = true.
Proof.
  intros SP. induction SP as [|x c w s E _ IH]; [destruct b; reflexivity|]. cbn [app spellsb]. unfold same_letter.
  destruct E as [->|(E1 & E2)]; [rewrite N.eqb_refl; exact IH|]. replace ((65 <=? bn x) && (bn x <=? 90) && (bn x + 32 =? bn c))%N with true by lia.
  destruct (bn x =? bn c)%N; exact IH.
Qed.
Definition in_wordb (c : byte) : bool := (((48 <=? bn c) && (bn c <=? 57)) || ((65 <=? bn c) && (bn c <=? 90)) || ((97 <=? bn c) && (bn c <=? 122)))%N.
Fixpoint insideb (s : bytes) (p : bool) (ua : bytes) : bool :=
  (if p then true else negb (spellsb ua s)) && match ua with [] => true | c :: ua' => insideb s (in_wordb c) ua' end.
Lemma insideb_ok s : forall a p w b c, insideb s p ((a ++ [c]) ++ w ++ b) = true -> spelled w s -> in_word c.
Proof.
  induction a as [|x a IH]; intros p w b c H SP; cbn [app insideb] in H; apply andb_prop in H; destruct H as [_ H].
  - destruct (in_wordb c) eqn:C; [unfold in_wordb, in_word in *; lia|]. pose proof (spelled_spellsb w s b SP) as Q. destruct (w ++ b); cbn [insideb negb] in H; rewrite Q in H; discriminate H.
  - exact (IH _ w b c H SP).
Qed.
Lemma insideb_not s ua : insideb s false ua = true -> ~ starts_word s ua.
Proof.
  intros H (a & w & b & -> & SP & [->|(a' & c & -> & C)]).
  - pose proof (spelled_spellsb w s b SP) as Q. cbn [app] in H. destruct (w ++ b); cbn [insideb negb] in H; rewrite Q in H; discriminate H.
  - exact (C (insideb_ok s a' false w b c H SP)).
Qed.
Lemma requests_inside : ~ starts_word (bs "quest") requests.
Proof. apply insideb_not. reflexivity. Qed.
Lemma requests_says : says (bs "quest") requests.
Proof. exists (bs "python-re"), (bs "quest"), (bs "s/2.25.1"). split; [reflexivity|]. unfold spelled. vm_compute. repeat constructor. Qed.
Lemma word_entry T ws : compiled (dr_re T) -> inside T ws = true -> forall s n ua, In (s, n) ws -> says s ua ->
  exists l x, nth_error (dr_idx T) phones = Some l /\ nth_error l n = Some x /\ device_applies T ua x.
Proof.
  unfold inside. intros CO H s n ua I SA. destruct (nth_error (dr_idx T) phones) as [l|] eqn:E; [|discriminate H].
  destruct (words_known T CO l ws s n ua H I SA) as (x & N & X). exists l, x. auto.
Qed.
Lemma quest_says : says (bs "quest") (bs "quest").
Proof. exists [], (bs "quest"), []. split; [reflexivity|]. unfold spelled. vm_compute. repeat (constructor; [left; reflexivity|]). constructor. Qed.
Lemma before_case : exists l x, nth_error (dr_idx shipped) phones = Some l /\ nth_error l 250 = Some x /\ device_applies shipped (bs "quest") x.
Proof. exact (word_entry shipped names_inside dr_compiled shipped_words_ok (bs "quest") 250 (bs "quest") (or_introl eq_refl) quest_says). Qed.
Lemma before_other : (phones, 250) <> next_box.
Proof. intros H. apply (f_equal snd) in H. cbn [snd next_box] in H. apply PeanoNat.Nat.eqb_eq in H. vm_compute in H. discriminate H. Qed.

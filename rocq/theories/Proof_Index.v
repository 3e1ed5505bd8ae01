(** Many patterns at once: an index on the first two characters, to test quickly that none of them matches. *)
From Coq Require Import Lia ZifyBool ZifyNat ZifyN.
From Verif Require Import Model_Base Model_Ctx Model_Parse Model_Regex Spec_Regex Spec_Select Spec_Dead
  Proof_Base Proof_Regex Proof_Pattern Proof_Word Proof_Select Proof_Covers Proof_Quick Proof_Dead Proof_Shadow.
Open Scope nat_scope.

(** ** Sequences that begin with a character *)
Fixpoint norm (n : nat) (p : list re) {struct n} : list (list re) :=
  match n with
  | 0 => [p]
  | S n' => match p with
      | Eps :: l => norm n' l
      | Grp _ a :: l => norm n' (a :: l)
      | Cat a b :: l => norm n' (a :: b :: l)
      | Alt a b :: l => norm n' (a :: l) ++ norm n' (b :: l)
      | _ => [p]
      end
  end.
Lemma norm_ok n : forall p u v w, langs p u v w -> exists q, In q (norm n p) /\ langs q u v w.
Proof.
  induction n as [|n IH]; intros p u v w L; [exists p; split; [left; reflexivity|exact L]|].
  destruct p as [|a l]; [exists []; split; [left; reflexivity|exact L]|]. cbn [norm]. destruct a as [ |neg rs| | |a b|a b|g a|m a].
  - apply IH. apply langs_eps. exact L.
  - eexists. split; [left; reflexivity|exact L].
  - eexists. split; [left; reflexivity|exact L].
  - eexists. split; [left; reflexivity|exact L].
  - apply IH. apply langs_cat. exact L.
  - apply langs_alt in L. destruct L as [L|L]; apply IH in L; destruct L as (q & I & L); exists q; (split; [apply in_app_iff; auto|exact L]).
  - eexists. split; [left; reflexivity|exact L].
  - apply IH. apply (proj1 (langs_grp _ _ _ _ _ _) L).
Qed.

(** The ASCII characters of a small class. *)
Fixpoint upto (a : N) (n : nat) : list N := match n with 0 => [] | S n' => a :: upto (a + 1)%N n' end.
Lemma upto_in n : forall a x, (a <= x)%N -> (x < a + N.of_nat n)%N -> In x (upto a n).
Proof. induction n as [|n IH]; intros a x L U; [lia|]. cbn. destruct (N.eq_dec a x) as [E|E]; [left; exact E|right; apply IH; lia]. Qed.
Definition chars (neg : bool) (rs : list (N * N)) : option (list N) :=
  if neg then None else
  if forallb (fun r => if (fst r <? 128)%N then (snd r <? fst r + 30)%N else true) rs then
    Some (flat_map (fun r => if (fst r <? 128)%N then upto (fst r) (N.to_nat (snd r + 1 - fst r)) else []) rs)
  else None.
Lemma chars_in neg rs l x : chars neg rs = Some l -> cls_mem neg rs x = true -> (x < 128)%N -> In x l.
Proof.
  unfold chars, cls_mem. destruct neg; [discriminate|]. destruct (forallb _ rs); [|discriminate]. intros H. injection H as <-. intros M S.
  rewrite Bool.xorb_false_l in M. apply mem_rng in M. destruct M as (a & I & M).
  apply in_flat_map. exists a. split; [exact I|]. destruct (N.ltb_spec (fst a) 128); [|lia]. apply upto_in; lia.
Qed.

(** ** The index *)
Inductive trie := Leaf | Node (here : list (list re)) (l r : trie).
Fixpoint tadd (k : positive) (x : list re) (t : trie) : trie :=
  let '(h, l, r) := match t with Leaf => ([], Leaf, Leaf) | Node h l r => (h, l, r) end in
  match k with
  | xH => Node (x :: h) l r
  | xO k' => Node h (tadd k' x l) r
  | xI k' => Node h l (tadd k' x r)
  end.
Fixpoint tget (k : positive) (t : trie) : list (list re) :=
  match t with
  | Leaf => []
  | Node h l r => match k with xH => h | xO k' => tget k' l | xI k' => tget k' r end
  end.
Lemma tget_same k : forall x t, In x (tget k (tadd k x t)).
Proof. induction k as [k IH|k IH| ]; intros x [|h l r]; cbn; try (apply IH); left; reflexivity. Qed.
Lemma tget_keep k' : forall k x y t, In y (tget k t) -> In y (tget k (tadd k' x t)).
Proof.
  induction k' as [k' IH|k' IH| ]; intros k x y t H; (destruct t as [|h l r]; [destruct k; destruct H|]);
    destruct k; cbn in *; try exact H; try (apply IH; exact H); right; exact H.
Qed.
Definition key (a b : N) : positive := N.succ_pos (a * 128 + b)%N.
Record index := mkIndex { ix_trie : trie; ix_rest : list (list re) }.
Definition grows (i j : index) : Prop := (forall k, incl (tget k (ix_trie i)) (tget k (ix_trie j))) /\ incl (ix_rest i) (ix_rest j).

Definition put_pairs (p : list re) (xs ys : list N) (i : index) : index :=
  mkIndex (fold_left (fun t x => fold_left (fun t y => tadd (key x y) p t) ys t) xs (ix_trie i)) (ix_rest i).
Definition put_rest (p : list re) (i : index) : index := mkIndex (ix_trie i) (p :: ix_rest i).
Lemma fold_keep p x ys : forall t k q, In q (tget k t) -> In q (tget k (fold_left (fun t y => tadd (key x y) p t) ys t)).
Proof. induction ys as [|y ys IH]; intros t k q H; [exact H|]. cbn. apply IH. apply tget_keep. exact H. Qed.
Lemma fold2_keep p xs ys : forall t k q, In q (tget k t) -> In q (tget k (fold_left (fun t x => fold_left (fun t y => tadd (key x y) p t) ys t) xs t)).
Proof. induction xs as [|x xs IH]; intros t k q H; [exact H|]. cbn. apply IH. apply fold_keep. exact H. Qed.
Lemma fold_put p x ys : forall t y, In y ys -> In p (tget (key x y) (fold_left (fun t y => tadd (key x y) p t) ys t)).
Proof. induction ys as [|z ys IH]; intros t y Y; [destruct Y|]; destruct Y; cbn; [subst; apply fold_keep, tget_same|apply IH; assumption]. Qed.
Lemma fold2_put p xs ys : forall t x y, In x xs -> In y ys -> In p (tget (key x y) (fold_left (fun t x => fold_left (fun t y => tadd (key x y) p t) ys t) xs t)).
Proof. induction xs as [|z xs IH]; intros t x y X Y; [destruct X|]; destruct X; cbn; [subst; apply fold2_keep, fold_put; exact Y|apply IH; assumption]. Qed.
Lemma put_pairs_grows p xs ys i : grows i (put_pairs p xs ys i).
Proof. split; [intros k q H; apply fold2_keep; exact H|intros q H; exact H]. Qed.
Lemma put_rest_grows p i : grows i (put_rest p i).
Proof. split; [intros k q H; exact H|intros q H; right; exact H]. Qed.

(** One sequence. *)
Definition depth : nat := 2000.
Definition put_tail (neg : bool) (rs : list (N * N)) (i : index) (q : list re) : index :=
  let p := Cls neg rs :: q in
  match q with
  | Cls neg' rs' :: _ => match chars neg rs, chars neg' rs' with Some xs, Some ys => put_pairs p xs ys i | _, _ => put_rest p i end
  | _ => put_rest p i
  end.
Definition put_one (i : index) (p : list re) : index :=
  match p with
  | Cls neg rs :: q => fold_left (put_tail neg rs) (norm depth q) i
  | _ => put_rest p i
  end.
Definition put (p : list re) (i : index) : index := fold_left put_one (norm depth p) i.
Lemma put_tail_grows neg rs i q : grows i (put_tail neg rs i q).
Proof.
  unfold put_tail. destruct q as [|a q]; [apply put_rest_grows|]. destruct a; try apply put_rest_grows.
  destruct (chars neg rs); [|apply put_rest_grows]. destruct (chars neg0 rs0); [apply put_pairs_grows|apply put_rest_grows].
Qed.
Lemma fold_grows {A} (f : index -> A -> index) : (forall i x, grows i (f i x)) -> forall l i, grows i (fold_left f l i).
Proof.
  intros H l. induction l as [|x l IH]; intros i; [split; [intros k q K; exact K|intros q K; exact K]|]. cbn. destruct (H i x) as [H1 H2], (IH (f i x)) as [I1 I2].
  split; [intros k q K; apply I1, H1, K|intros q K; apply I2, H2, K].
Qed.
Lemma put_one_grows i p : grows i (put_one i p).
Proof. destruct p as [|a p]; [apply put_rest_grows|]. destruct a; try apply put_rest_grows. apply fold_grows. intros. apply put_tail_grows. Qed.
Lemma put_grows p i : grows i (put p i).
Proof. apply fold_grows. apply put_one_grows. Qed.

(** ** Looking up *)
Fixpoint bms (p : list re) (s : Spec_Regex.text) (b : bool) : bool :=
  match p with [] => true | a :: p' => bm a s b (fun s' b' => bms p' s' b') end.
Lemma bms_complete p : forall u v w, langs p u v w -> bms p (v ++ w) (nilb u) = true.
Proof.
  induction p as [|a p IH]; intros u v w L; [reflexivity|]. destruct L as (v1 & v2 & -> & L1 & L2). cbn [bms]. rewrite <- app_assoc.
  apply (bm_complete a _ _ _ _ L1). exact (IH _ _ _ L2).
Qed.
Definition try_at (i : index) (pl : bool * Spec_Regex.text) : bool :=
  if match snd pl with (x, _) :: (y, _) :: _ => existsb (fun p => bms p (snd pl) (fst pl)) (tget (key x y) (ix_trie i)) | _ => false end then true
  else existsb (fun p => bms p (snd pl) (fst pl)) (ix_rest i).
Definition index_hit (i : index) (s : Spec_Regex.text) : bool := existsb (try_at i) (places true s).
Definition ascii_text (s : Spec_Regex.text) : bool := forallb (fun r => (fst r <? 128)%N) s.
(** The index knows a sequence: it finds it in any ASCII text. *)
Definition knows (i : index) (p : list re) : Prop := forall u v w, ascii_text (u ++ v ++ w) = true -> langs p u v w -> index_hit i (u ++ v ++ w) = true.

(** ... by entries of the index. *)
Definition has_entry (i : index) (q : list re) (v : Spec_Regex.text) : Prop :=
  In q (ix_rest i) \/ exists a b wa wb v', v = (a, wa) :: (b, wb) :: v' /\ In q (tget (key a b) (ix_trie i)).
Definition entry (i : index) (p : list re) : Prop := forall u v w, ascii_text v = true -> langs p u v w -> exists q, langs q u v w /\ has_entry i q v.
Lemma has_entry_grows i j q v : grows i j -> has_entry i q v -> has_entry j q v.
Proof. intros [G1 G2] [H|(a & b & wa & wb & v' & E & H)]; [left; apply G2, H|right; exists a, b, wa, wb, v'; split; [exact E|apply G1, H]]. Qed.
Lemma entry_grows i j p : grows i j -> entry i p -> entry j p.
Proof. intros G E u v w A L. destruct (E u v w A L) as (q & LQ & K). exists q. split; [exact LQ|exact (has_entry_grows i j q v G K)]. Qed.
Lemma entry_knows i p : entry i p -> knows i p.
Proof.
  intros E u v w A L. assert (AV : ascii_text v = true) by (unfold ascii_text in *; rewrite !forallb_app in A; apply andb_prop in A; destruct A as [_ A]; apply andb_prop in A; exact (proj1 A)).
  destruct (E u v w AV L) as (q & LQ & K). unfold index_hit. apply existsb_exists. exists (nilb u, v ++ w). split.
  { pose proof (places_in (v ++ w) u true) as I. destruct (nilb u); exact I. }
  pose proof (bms_complete q u v w LQ) as B. unfold try_at. cbn [fst snd].
  destruct K as [K|(a & b & wa & wb & v' & -> & K)].
  - replace (existsb _ (ix_rest i)) with true; [destruct (match v ++ w with [] => false | _ => _ end); reflexivity|].
    symmetry. apply existsb_exists. exists q. split; assumption.
  - cbn [app] in *. replace (existsb _ (tget (key a b) (ix_trie i))) with true; [reflexivity|]. symmetry. apply existsb_exists. exists q. split; assumption.
Qed.

Lemma put_rest_entry p i : entry (put_rest p i) p.
Proof. intros u v w _ L. exists p. split; [exact L|left; left; reflexivity]. Qed.
Lemma put_tail_entry neg rs i q : entry (put_tail neg rs i q) (Cls neg rs :: q).
Proof.
  unfold put_tail. destruct q as [|a q]; [apply put_rest_entry|]. destruct a as [ |neg' rs'| | | | | | ]; try apply put_rest_entry.
  destruct (chars neg rs) as [xs|] eqn:X; [|apply put_rest_entry]. destruct (chars neg' rs') as [ys|] eqn:Y; [|apply put_rest_entry].
  intros u v w A L. exists (Cls neg rs :: Cls neg' rs' :: q). split; [exact L|]. right.
  apply langs_cls in L. destruct L as (x & wx & v1 & -> & MX & L). apply langs_cls in L. destruct L as (y & wy & v2 & -> & MY & L).
  exists x, y, wx, wy, v2. split; [reflexivity|]. cbn in A. apply andb_prop in A. destruct A as [AX A]. apply andb_prop in A. destruct A as [AY _].
  apply fold2_put; [exact (chars_in _ _ _ _ X MX ltac:(lia))|exact (chars_in _ _ _ _ Y MY ltac:(lia))].
Qed.
Lemma fold_entry {A} (f : index -> A -> index) (g : A -> list re) : (forall i x, grows i (f i x)) -> (forall i x, entry (f i x) (g x)) ->
  forall l i x, In x l -> entry (fold_left f l i) (g x).
Proof.
  intros G E l. induction l as [|y l IH]; intros i x X; [destruct X|]; destruct X; cbn; [subst; exact (entry_grows _ _ _ (fold_grows f G l (f i x)) (E i x))|apply IH; assumption].
Qed.
Lemma put_one_entry i p : entry (put_one i p) p.
Proof.
  destruct p as [|a p]; [apply put_rest_entry|]. destruct a as [ |neg rs| | | | | | ]; try apply put_rest_entry. cbn [put_one].
  intros u v w A L. pose proof L as L0. apply langs_cls in L. destruct L as (x & wx & v1 & -> & M & L).
  destruct (norm_ok depth p _ _ _ L) as (q & I & LQ).
  apply (fold_entry (put_tail neg rs) (fun q => Cls neg rs :: q) (put_tail_grows neg rs) (put_tail_entry neg rs) _ i q I); [exact A|].
  apply langs_cls. exists x, wx, v1. auto.
Qed.
Lemma put_entry p i : entry (put p i) p.
Proof.
  intros u v w A L. destruct (norm_ok depth p _ _ _ L) as (q & I & LQ).
  apply (fold_entry put_one (fun q => q) put_one_grows put_one_entry _ i q I); [exact A|exact LQ].
Qed.

(** ** The matcher says yes only when there is a match *)
Lemma loop_sound a : (forall u s k, bm a s (nilb u) k = true -> exists v w, s = v ++ w /\ lang a u v w /\ k w (nilb (u ++ v)) = true) ->
  forall g n u s k, loop (bm a) k n s (nilb u) = true -> exists v w, s = v ++ w /\ lang (Star g a) u v w /\ k w (nilb (u ++ v)) = true.
Proof.
  intros IH g n. induction n as [|n IHn]; intros u s k H; cbn [loop] in H; destruct (k s (nilb u)) eqn:K.
  - exists [], s. split; [reflexivity|]. split; [constructor|rewrite app_nil_r; exact K].
  - discriminate H.
  - exists [], s. split; [reflexivity|]. split; [constructor|rewrite app_nil_r; exact K].
  - apply IH in H. destruct H as (v & w & -> & L & H). destruct (length w <? length (v ++ w)); [|discriminate H].
    apply IHn in H. destruct H as (v' & w' & -> & L' & H). exists (v ++ v'), w'. split; [apply app_assoc|]. split; [apply L_more; assumption|].
    rewrite app_assoc. exact H.
Qed.
Lemma bm_sound a : forall u s k, bm a s (nilb u) k = true -> exists v w, s = v ++ w /\ lang a u v w /\ k w (nilb (u ++ v)) = true.
Proof.
  induction a as [ |neg rs| | |a IHa c IHc|a IHa c IHc|g a IHa|n a IHa]; intros u s k H; cbn [bm] in H.
  - exists [], s. split; [reflexivity|]. split; [constructor|rewrite app_nil_r; exact H].
  - destruct s as [|[x wd] s]; [discriminate H|]. destruct (cls_mem neg rs x) eqn:M; [|discriminate H]. exists [(x, wd)], s. split; [reflexivity|].
    split; [constructor; exact M|]. rewrite nilb_app. exact H.
  - destruct u as [|r u]; cbn [nilb] in H; [|discriminate H]. exists [], s. split; [reflexivity|]. split; [constructor|exact H].
  - destruct s; [|discriminate H]. exists [], []. split; [reflexivity|]. split; [constructor|rewrite app_nil_r; exact H].
  - apply IHa in H. destruct H as (v & w & -> & L & H). apply IHc in H. destruct H as (v' & w' & -> & L' & H).
    exists (v ++ v'), w'. split; [apply app_assoc|]. split; [constructor; assumption|rewrite app_assoc; exact H].
  - destruct (bm a s (nilb u) k) eqn:B0; [apply IHa in B0; destruct B0 as (v & w & E & L & B)|apply IHc in H; destruct H as (v & w & E & L & B)];
      exists v, w; (split; [exact E|]; split; [|exact B]); [apply L_left|apply L_right]; exact L.
  - exact (loop_sound a IHa g _ _ _ _ H).
  - apply IHa in H. destruct H as (v & w & E & L & H). exists v, w. split; [exact E|]. split; [constructor; exact L|exact H].
Qed.
Lemma places_from : forall s b pl, In pl (places b s) -> exists u, s = u ++ snd pl /\ fst pl = (if nilb u then b else false).
Proof.
  induction s as [|x s IH]; intros b pl [<-|I]; cbn [snd fst].
  - exists []. auto.
  - destruct I.
  - exists []. auto.
  - destruct (IH _ _ I) as (u & E & F). exists (x :: u). cbn. split; [f_equal; exact E|rewrite F; destruct (nilb u); reflexivity].
Qed.
Lemma tries_found a s : tries a (places true s) = true -> found a s.
Proof.
  intros H. apply existsb_exists in H. destruct H as (pl & I & B). destruct (places_from s true pl I) as (u & E & F).
  rewrite F in B. replace (if nilb u then true else false) with (nilb u) in B by (destruct (nilb u); reflexivity).
  apply bm_sound in B. destruct B as (v & w & E' & L & _). exists u, v, w. split; [rewrite E, E'; reflexivity|exact L].
Qed.

(** ** A list as a tree, to find its elements faster *)
Inductive tree (B : Type) := TLeaf | TNode (here : option B) (l r : tree B).
Arguments TLeaf {B}. Arguments TNode {B}.
Definition parts {B} (t : tree B) := match t with TLeaf => (None, TLeaf, TLeaf) | TNode h l r => (h, l, r) end.
Fixpoint tset {B} (k : positive) (x : B) (t : tree B) : tree B :=
  let '(h, l, r) := parts t in
  match k with xH => TNode (Some x) l r | xO k' => TNode h (tset k' x l) r | xI k' => TNode h l (tset k' x r) end.
Fixpoint tfind {B} (k : positive) (t : tree B) : option B :=
  match t with TLeaf => None | TNode h l r => match k with xH => h | xO k' => tfind k' l | xI k' => tfind k' r end end.
Lemma tfind_set {B} k : forall k' (x : B) t y, tfind k' (tset k x t) = Some y -> (k' = k /\ y = x) \/ tfind k' t = Some y.
Proof.
  induction k as [k IH|k IH| ]; intros k' x t y H; destruct t as [|h l r]; destruct k' as [k'|k'| ]; cbn in H |- *;
    try (right; exact H); try discriminate H; try (destruct k'; discriminate H);
    try (apply IH in H; destruct H as [[-> ->]|H]; [left; split; reflexivity|right; try exact H; destruct k'; discriminate H]);
    (left; split; [reflexivity|congruence]).
Qed.
Fixpoint fill {B} (k : positive) (l : list B) (t : tree B) : tree B :=
  match l with [] => t | x :: l' => fill (Pos.succ k) l' (tset k x t) end.
Lemma tfind_fill {B} (l : list B) : forall k t k' y, tfind k' (fill k l t) = Some y ->
  tfind k' t = Some y \/ exists i, nth_error l i = Some y /\ Pos.to_nat k' = Pos.to_nat k + i.
Proof.
  induction l as [|x l IH]; intros k t k' y H; [left; exact H|]. cbn [fill] in H. apply IH in H. destruct H as [H|(i & E & K)].
  - apply tfind_set in H. destruct H as [[-> ->]|H]; [right; exists 0; split; [reflexivity|lia]|left; exact H].
  - right. exists (S i). split; [exact E|lia].
Qed.
Definition numbered {B} (l : list B) : tree B := fill xH l TLeaf.
Definition look {B} (t : tree B) (z : Z) : option B := tfind (N.succ_pos (Z.to_N z)) t.
Lemma look_nth {B} (l : list B) z y : (0 <= z)%Z -> look (numbered l) z = Some y -> nth_error l (Z.to_nat z) = Some y.
Proof.
  intros Z0 H. apply tfind_fill in H. destruct H as [H|(i & E & K)]; [destruct (N.succ_pos _); discriminate H|]. replace (Z.to_nat z) with i; [exact E|].
  revert K. destruct z as [|p|p]; cbn; lia.
Qed.

(** A piece of a list. *)
Fixpoint reads {B} (t : tree B) (k : positive) (n : nat) : option (list B) :=
  match n with
  | 0 => Some []
  | S n' => match tfind k t with Some x => match reads t (Pos.succ k) n' with Some s => Some (x :: s) | None => None end | None => None end
  end.
Lemma reads_nth {B} (l : list B) n : forall k s, reads (numbered l) k n = Some s ->
  length s = n /\ forall i x, nth_error s i = Some x -> nth_error l (Pos.to_nat k - 1 + i) = Some x.
Proof.
  induction n as [|n IH]; intros k s H; cbn [reads] in H; [injection H as <-; split; [reflexivity|intros [|i] x X; discriminate X]|].
  destruct (tfind k (numbered l)) as [y|] eqn:F; [|discriminate H]. destruct (reads _ (Pos.succ k) n) as [s'|] eqn:R; [|discriminate H]. injection H as <-.
  destruct (IH _ _ R) as [L N]. split; [cbn; rewrite L; reflexivity|]. intros [|i] x X; cbn in X.
  - injection X as <-. apply tfind_fill in F. destruct F as [F|(i & E & K)]; [destruct k; discriminate F|]. replace (Pos.to_nat k - 1 + 0) with i by lia. exact E.
  - specialize (N i x X). replace (Pos.to_nat k - 1 + S i) with (Pos.to_nat (Pos.succ k) - 1 + i) by lia. exact N.
Qed.
Lemma piece {B} (s : list B) : s <> [] -> forall n l, (forall i x, nth_error s i = Some x -> nth_error l (n + i) = Some x) -> exists a b, l = a ++ s ++ b /\ length a = n.
Proof.
  intros NE. induction n as [|n IH]; intros l H.
  - assert (P : exists b, l = s ++ b).
    { clear NE. revert l H. induction s as [|x s IH]; intros l H; [exists l; reflexivity|]. destruct l as [|y l]; [discriminate (H 0 x eq_refl)|].
      pose proof (H 0 x eq_refl) as E. cbn in E. injection E as ->. destruct (IH l (fun i z Z => H (S i) z Z)) as [b ->]. exists b. reflexivity. }
    destruct P as [b ->]. exists [], b. split; reflexivity.
  - destruct l as [|y l]; [destruct s as [|x s]; [contradiction (NE eq_refl)|discriminate (H 0 x eq_refl)]|].
    destruct (IH l H) as (a & b & -> & L). exists (y :: a), b. split; [reflexivity|cbn; rewrite L; reflexivity].
Qed.
Definition slice_at (t : tree byte) (e : N) : option bytes :=
  if (e / two32 <? e mod two32)%N then reads t (N.succ_pos (e / two32)) (N.to_nat (e mod two32 - e / two32)) else None.
Lemma slice_at_ok buf e s : slice_at (numbered buf) e = Some s -> slice64 buf e = Ok s.
Proof.
  unfold slice_at. destruct (N.ltb_spec (e / two32) (e mod two32)) as [L|L]; [|discriminate]. intros H. apply reads_nth in H. destruct H as [LS N].
  apply text_slice. destruct (piece s ltac:(intros ->; cbn in LS; lia) _ _ N) as (a & b & E & LA). exists a, b. split; [exact E|].
  fold two32. replace (Pos.to_nat (N.succ_pos (e / two32)) - 1) with (N.to_nat (e / two32)) in LA by (destruct (e / two32)%N; cbn; lia). lia.
Qed.

(** ** Witnesses, again *)
Section Alive.
Variable A : Type.
Variables (res : list regex) (buf : bytes) (ri : A -> Z) (m64 : A -> N).
Hypothesis CO : compiled res.
(** Seen through trees: what an entry looks for, and whether it is there. *)
Definition seq_at (t : tree regex) (bt : tree byte) (x : A) : option (list re * option bytes) :=
  if (0 <=? ri x)%Z then
    match look t (ri x) with Some r => match parse_re (re_src r) with Some (a, _) => Some ([a], None) | None => None end | None => None end
  else match slice_at bt (m64 x) with Some s => if asciib s then Some (lits s, Some s) else None | None => None end.
Definition own (p : list re * option bytes) (w : bytes) (s : Spec_Regex.text) : bool :=
  match snd p with
  | Some l => substr_hit w l
  | None => match fst p with a :: _ => tries a (places true s) | [] => false end
  end.
Lemma seq_at_of x p o w : seq_at (numbered res) (numbered buf) x = Some (p, o) ->
  seq_of A res buf ri m64 x = Some p /\ (own (p, o) w (runes w) = true -> applies res buf (ri x) (m64 x) w).
Proof.
  unfold seq_at, seq_of. destruct (Z.leb_spec 0 (ri x)) as [L|L].
  - destruct (look _ _) as [r|] eqn:E; [|discriminate]. apply (look_nth _ _ _ L) in E. rewrite E.
    destruct (parse_re (re_src r)) as [[a ng]|] eqn:P; [|discriminate]. intros H. injection H as <- <-. split; [reflexivity|]. intros O.
    assert (R : In a (re_of A res ri x)) by (unfold re_of; destruct (Z.leb_spec 0 (ri x)); [|lia]; rewrite E, P; left; reflexivity).
    destruct (re_hit A res buf ri m64 CO w x a R (tries_found _ _ O)) as [T _]. exact (proj1 (hit_applies _ _ _ _ _ _ T) eq_refl).
  - destruct (slice_at _ _) as [s|] eqn:E; [|discriminate]. apply slice_at_ok in E. rewrite E.
    destruct (asciib s); [|discriminate]. intros H. injection H as <- <-. split; [reflexivity|]. intros O. right. split; [exact L|]. exists s.
    split; [apply text_slice; exact E|apply substr_occurs; exact O].
Qed.
Fixpoint alive_index (t : tree regex) (bt : tree byte) (i : index) (l : list A) (ws : list bytes) : bool :=
  match l, ws with
  | [], [] => true
  | x :: l', w :: ws' =>
      match seq_at t bt x with
      | Some p =>
          if match w with
             | [] => true
             | _ => let s := runes w in if ascii_text s then if index_hit i s then false else own p w s else false
             end
          then alive_index t bt (put (fst p) i) l' ws' else false
      | None => false
      end
  | _, _ => false
  end.
Lemma alive_index_from l : forall done i ws, (forall x, In x done -> exists p, seq_of A res buf ri m64 x = Some p /\ entry i p) -> alive_index (numbered res) (numbered buf) i l ws = true ->
  length ws = length l /\ forall j w, nth_error ws j = Some w -> w <> [] -> picked (fun x => applies res buf (ri x) (m64 x) w) (done ++ l) (length done + j).
Proof.
  induction l as [|x l IH]; intros done i ws D H; destruct ws as [|w ws]; try discriminate H.
  - split; [reflexivity|]. intros [|j]; discriminate.
  - cbn [alive_index] in H. destruct (seq_at (numbered res) (numbered buf) x) as [[p o]|] eqn:P0; [|discriminate H]. cbn [fst] in H. destruct (seq_at_of x p o w P0) as [P OW].
    destruct (match w with [] => true | _ => _ end) eqn:W; [|discriminate H].
    assert (D' : forall y, In y (done ++ [x]) -> exists q, seq_of A res buf ri m64 y = Some q /\ entry (put p i) q).
    { intros y I. apply in_app_iff in I. destruct I as [I|[<-|[]]]; [|exists p; split; [exact P|apply put_entry]].
      destruct (D y I) as (q & Q & E). exists q. split; [exact Q|exact (entry_grows _ _ _ (put_grows p i) E)]. }
    destruct (IH (done ++ [x]) _ ws D' H) as [L K]. split; [cbn; rewrite L; reflexivity|].
    intros [|j] v E N; cbn in E.
    + injection E as <-. rewrite PeanoNat.Nat.add_0_r. destruct w as [|b w]; [contradiction (N eq_refl)|]. cbv zeta in W.
      destruct (ascii_text (runes (b :: w))) eqn:AT; [|discriminate W]. destruct (index_hit i (runes (b :: w))) eqn:IX; [discriminate W|].
      exists x. split; [rewrite nth_error_app2, PeanoNat.Nat.sub_diag by lia; reflexivity|]. split; [exact (OW W)|].
      intros k y KL Y AP. rewrite nth_error_app1 in Y by exact KL. apply nth_error_In in Y. destruct (D y Y) as (q & Q & E).
      destruct (seq_hit A res buf ri m64 CO (b :: w) y q Q) as (c & C & CL). apply (hit_applies _ _ _ _ _ _ C) in AP.
      destruct (CL AP) as (u & vv & ww & R & LQ). rewrite R in *. rewrite (entry_knows i q E u vv ww AT LQ) in IX. discriminate IX.
    + specialize (K j v E N). rewrite <- app_assoc, app_length in K. cbn [app length] in K. replace (length done + S j) with (length done + 1 + j) by lia. exact K.
Qed.
Lemma alive_index_ok l ws : alive_index (numbered res) (numbered buf) (mkIndex Leaf []) l ws = true ->
  length ws = length l /\ forall j w, nth_error ws j = Some w -> w <> [] -> picked (fun x => applies res buf (ri x) (m64 x) w) l j.
Proof. intros H. apply (alive_index_from l [] (mkIndex Leaf []) ws); [intros x []|exact H]. Qed.
End Alive.

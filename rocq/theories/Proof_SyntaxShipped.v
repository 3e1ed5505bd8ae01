(** Every shipped pattern is written in the syntax of Spec_Syntax: a reader, whose result is checked. *)
From Verif Require Import Model_Base Model_Blob Model_Ctx Model_Regex Spec_Regex Spec_Syntax Data_Client Data_OS Data_Device Data_DeviceRe0 Data_DeviceRe1
  Model_Shipped Proof_Parses Proof_Syntax.
From Coq Require Import Lia ZifyBool ZifyNat ZifyN.
Open Scope nat_scope.

(** ** The reader *)
Definition rd_cchar (l : list N) : option (cchar * list N) :=
  match l with
  | c :: l' => if (c =? 92)%N then match l' with e :: l'' => Some (Escaped e, l'') | [] => None end else Some (Bare c, l')
  | [] => None
  end.
Definition is_perl (c : N) : bool := if (c =? 100)%N then true else if (c =? 119)%N then true else (c =? 115)%N.
Fixpoint rd_items (fuel : nat) (first : bool) (l : list N) : option (list item * list N) :=
  match fuel with
  | 0 => None
  | S f =>
      match l with
      | [] => None
      | c :: l1 =>
          if (if first then false else (c =? 93)%N) then Some ([], l1)
          else
            match (if (c =? 92)%N then match l1 with e :: l2 => if is_perl e then Some (e, l2) else None | [] => None end else None) with
            | Some (e, l2) => match rd_items f false l2 with Some (r, t) => Some (IPerl e :: r, t) | None => None end
            | None =>
                match rd_cchar l with
                | None => None
                | Some (a, t) =>
                    match (match t with d :: x :: _ => if (d =? 45)%N then if (x =? 93)%N then None else rd_cchar (tl t) else None | _ => None end) with
                    | Some (b, t') => match rd_items f false t' with Some (r, z) => Some (IRange a b :: r, z) | None => None end
                    | None => match rd_items f false t with Some (r, z) => Some (IChar a :: r, z) | None => None end
                    end
                end
            end
      end
  end.
Fixpoint rd_digits (l : list N) : list N * list N :=
  match l with
  | c :: l' => if in_rng 48 57 c then let '(d, t) := rd_digits l' in ((c - 48)%N :: d, t) else ([], l)
  | [] => ([], l)
  end.
Definition rd_count (l : list N) : count * list N :=
  match l with
  | c :: l' =>
      if (c =? 42)%N then (ZeroMore, l') else if (c =? 43)%N then (OneMore, l') else if (c =? 63)%N then (ZeroOne, l')
      else if (c =? 123)%N then
        let '(d, t) := rd_digits l' in
        match t with
        | x :: t' => if (x =? 125)%N then (Exactly d, t')
                     else let '(e, t2) := rd_digits t' in
                          match t2 with _ :: t3 => match e with [] => (AtLeast d, t3) | _ => (Between d e, t3) end | [] => (Once, l) end
        | [] => (Once, l)
        end
      else (Once, l)
  | [] => (Once, l)
  end.
Fixpoint rd_alts (fuel : nat) (l : list N) : option (alts * list N) :=
  match fuel with
  | 0 => None
  | S f =>
      match rd_sequ f l with
      | Some (s, c :: l1) =>
          if (c =? 124)%N then match rd_alts f l1 with Some (a, t) => Some (Or s a, t) | None => None end else Some (One s, c :: l1)
      | Some (s, []) => Some (One s, [])
      | None => None
      end
  end
with rd_sequ (fuel : nat) (l : list N) : option (sequ * list N) :=
  match fuel with
  | 0 => None
  | S f =>
      match l with
      | [] => Some (Empty, [])
      | c :: l1 =>
          if (if (c =? 124)%N then true else (c =? 41)%N) then Some (Empty, l)
          else
            match
              (if (c =? 40)%N then
                 let '(cap, l2) := match l1 with q :: _ :: t => if (q =? 63)%N then (false, t) else (true, l1) | _ => (true, l1) end in
                 match rd_alts f l2 with Some (a, _ :: t) => Some (AGroup cap a, t) | _ => None end
               else if (c =? 91)%N then
                 let '(neg, l2) := match l1 with q :: t => if (q =? 94)%N then (true, t) else (false, l1) | [] => (false, l1) end in
                 match rd_items f true l2 with Some (i, t) => Some (ASet neg i, t) | None => None end
               else if (c =? 92)%N then
                 match l1 with e :: t => if is_perl e then Some (APerl e, t) else Some (AEsc e, t) | [] => None end
               else if (c =? 46)%N then Some (AAny, l1)
               else if (c =? 94)%N then Some (ABegin, l1)
               else if (c =? 36)%N then Some (AEnd, l1)
               else Some (AChar c, l1))
            with
            | None => None
            | Some (x, t) =>
                let '(k, t1) := rd_count t in
                let '(z, t2) := match k with Once => (false, t1) | _ => match t1 with q :: t2 => if (q =? 63)%N then (true, t2) else (false, t1) | [] => (false, t1) end end in
                match rd_sequ f t2 with Some (s, r) => Some (Then x k z s, r) | None => None end
            end
      end
  end.

(** ** The check *)
Fixpoint same (a b : list N) : bool :=
  match a, b with
  | [], [] => true
  | x :: a', y :: b' => if (x =? y)%N then same a' b' else false
  | _, _ => false
  end.
Lemma same_ok a : forall b, same a b = true -> a = b.
Proof.
  induction a as [|x a IH]; intros [|y b]; cbn [same]; try discriminate; [reflexivity|].
  destruct (x =? y)%N eqn:E; [|discriminate]. intros H. apply N.eqb_eq in E. subst. f_equal. auto.
Qed.
Fixpoint memN (x : N) (l : list N) : bool := match l with [] => false | y :: l' => if (x =? y)%N then true else memN x l' end.
Lemma memN_ok x l : memN x l = false -> ~ In x l.
Proof.
  induction l as [|y l IH]; cbn [memN In]; [tauto|]. destruct (x =? y)%N eqn:E; [discriminate|]. intros H [->|I]; [lia|exact (IH H I)].
Qed.
Definition punct_b (x : N) : bool :=
  if in_rng 33 47 x then true else if in_rng 58 64 x then true else if in_rng 91 96 x then true else in_rng 123 127 x.
Lemma punct_b_ok x : punct_b x = true -> punct x.
Proof.
  unfold punct_b, punct, in_rng. destruct ((33 <=? x)%N && (x <=? 47)%N) eqn:A; [lia|]. destruct ((58 <=? x)%N && (x <=? 64)%N) eqn:B; [lia|].
  destruct ((91 <=? x)%N && (x <=? 96)%N) eqn:C; lia.
Qed.
Lemma is_perl_ok c : is_perl c = true -> perl c.
Proof. unfold is_perl, perl. destruct (c =? 100)%N eqn:A; [lia|]. destruct (c =? 119)%N eqn:B; lia. Qed.
Definition cchar_b (c : cchar) : bool := match c with Bare x => if (x =? 91)%N then false else if (x =? 92)%N then false else negb (x =? 93)%N | Escaped x => punct_b x end.
Lemma cchar_b_ok c : cchar_b c = true -> ok_cchar c.
Proof.
  destruct c as [x|x]; cbn [cchar_b ok_cchar]; [|apply punct_b_ok]. cbn [In]. destruct (x =? 91)%N eqn:A; [discriminate|]. destruct (x =? 92)%N eqn:B; [discriminate|]. lia.
Qed.
Fixpoint items_b (fold first : bool) (l : list item) : bool :=
  match l with
  | [] => true
  | i :: l' =>
      if match i with
         | IChar c =>
             if (if cchar_b c then true else match c with Bare x => if first then (x =? 93)%N else false | _ => false end)
             then match l' with [IChar (Bare x)] => true | _ => negb (hd 0%N (w_items l') =? 45)%N end
             else false
         | IRange a b => if cchar_b a then if cchar_b b then if (char_of a <=? char_of b)%N then if fold then (char_of b <? 128)%N else true else false else false else false
         | IPerl c => is_perl c
         end then items_b fold false l' else false
  end.
Lemma items_b_ok l : forall fold first, items_b fold first l = true -> ok_items fold first l.
Proof.
  induction l as [|i l IH]; intros fold first; cbn [items_b ok_items]; [auto|].
  intros H. match type of H with (if ?b then _ else _) = _ => destruct b eqn:E; [|discriminate H] end. split; [|apply IH; exact H]. clear H IH.
  destruct i as [c|a b|c].
  - match type of E with (if ?b then _ else _) = _ => destruct b eqn:E1; [|discriminate E] end. split.
    + destruct (cchar_b c) eqn:E2; [left; apply cchar_b_ok; exact E2|right]. destruct c as [x|x]; [|discriminate E1]. destruct first; [|discriminate E1].
      apply N.eqb_eq in E1. subst. auto.
    + destruct l as [|[[y|y]|a b|p] [|j l]]; try (right; lia). destruct (N.eq_dec y 45) as [->|Ny]; [left; reflexivity|right; cbn; lia].
  - destruct (cchar_b a) eqn:E1; [|discriminate E]. destruct (cchar_b b) eqn:E2; [|discriminate E]. destruct (char_of a <=? char_of b)%N eqn:E3; [|discriminate E].
    split; [apply cchar_b_ok; exact E1|]. split; [apply cchar_b_ok; exact E2|]. split; [lia|]. intros ->. lia.
  - apply is_perl_ok. exact E.
Qed.
Definition number_b (d : list N) : bool :=
  match d with
  | [] => false
  | x :: d' => if forallb (fun x => (x <? 10)%N) d then if (if (x =? 0)%N then match d' with [] => true | _ => false end else true) then value d <=? 1000 else false else false
  end.
Lemma number_b_ok d : number_b d = true -> ok_number d.
Proof.
  unfold number_b. destruct d as [|x d]; [discriminate|]. intros H. destruct (forallb (fun x => (x <? 10)%N) (x :: d)) eqn:E; [|discriminate H].
  split; [discriminate|]. split.
  - apply Forall_forall. intros y I. rewrite forallb_forall in E. specialize (E y I). lia.
  - cbn [hd]. destruct (x =? 0)%N eqn:Z.
    + destruct d; [|discriminate H]. split; [reflexivity|apply Nat.leb_le; exact H].
    + split; [intros ->; discriminate Z|apply Nat.leb_le; exact H].
Qed.
Definition count_b (c : count) : bool :=
  match c with
  | Once | ZeroMore | OneMore | ZeroOne => true
  | Exactly d | AtLeast d => number_b d
  | Between d e => if number_b d then if number_b e then value d <=? value e else false else false
  end.
Lemma count_b_ok c : count_b c = true -> ok_count c.
Proof.
  destruct c as [| | | |d|d|d e]; cbn [count_b ok_count]; intros H; try exact I; try (apply number_b_ok; exact H).
  destruct (number_b d) eqn:A; [|discriminate H]. destruct (number_b e) eqn:B; [|discriminate H].
  split; [apply number_b_ok; exact A|]. split; [apply number_b_ok; exact B|apply Nat.leb_le; exact H].
Qed.
Fixpoint alts_b (fold : bool) (a : alts) : bool := match a with One s => sequ_b fold s | Or s a => if sequ_b fold s then alts_b fold a else false end
with sequ_b (fold : bool) (s : sequ) : bool := match s with Empty => true | Then x c _ s => if atom_b fold x then if count_b c then sequ_b fold s else false else false end
with atom_b (fold : bool) (x : atom) : bool :=
  match x with
  | AChar x => negb (memN x meta) | AEsc x => punct_b x | APerl c => is_perl c
  | AAny | ABegin | AEnd => true
  | ASet neg l => match l with [] => false | _ => if items_b fold true l then if neg then true else negb (hd 0%N (w_items l) =? 94)%N else false end
  | AGroup _ a => alts_b fold a
  | ALook _ _ => false
  end.
Lemma syntax_b_ok fold :
  (forall a, alts_b fold a = true -> ok_alts fold a /\ go_alts a) /\ (forall s, sequ_b fold s = true -> ok_sequ fold s /\ go_sequ s) /\
  (forall x, atom_b fold x = true -> ok_atom fold x /\ go_atom x).
Proof.
  apply syntax_ind; cbn [alts_b sequ_b atom_b ok_alts ok_sequ ok_atom go_alts go_sequ go_atom]; auto.
  - intros s IHs a IHa H. destruct (sequ_b fold s); [|discriminate H]. destruct (IHs eq_refl), (IHa H). auto.
  - intros x IHx c _ s IHs H. destruct (atom_b fold x); [|discriminate H]. destruct (count_b c) eqn:C; [|discriminate H].
    destruct (IHx eq_refl), (IHs H). pose proof (count_b_ok c C). auto.
  - intros x H. split; [|exact I]. apply memN_ok. destruct (memN x meta); [discriminate H|reflexivity].
  - intros x H. split; [apply punct_b_ok; exact H|exact I].
  - intros x H. split; [apply is_perl_ok; exact H|exact I].
  - intros neg l H. split; [|exact I]. destruct l as [|i l]; [discriminate H|]. destruct (items_b fold true (i :: l)) eqn:E; [|discriminate H].
    split; [discriminate|]. split; [apply items_b_ok; exact E|]. intros ->. lia.
  - discriminate.
Qed.

(** [Some fold] when the pattern is written so. *)
Definition scalar_b (r : N) : bool := if (r <? 55296)%N then true else if (57344 <=? r)%N then (r <? 1114112)%N else false.
Lemma scalar_b_ok r : scalar_b r = true -> scalar r.
Proof. unfold scalar_b, scalar. destruct (r <? 55296)%N eqn:A; [lia|]. destruct (57344 <=? r)%N eqn:B; [lia|discriminate]. Qed.
Definition in_syntax (src : bytes) : bool :=
  let l := map fst (runes src) in
  let fold := match l with a :: b :: c :: _ => if (a =? 40)%N then if (b =? 63)%N then (c =? 105)%N else false else false | _ => false end in
  let body := if fold then skipn 4 l else l in
  match rd_alts (2 * length body + 2) body with
  | Some (a, _) =>
      if alts_b fold a then if same (written fold a) l then if forallb scalar_b l then same (map bn src) (flat_map utf8 l) else false else false else false
  | None => false
  end.
Lemma in_syntax_ok src : in_syntax src = true -> exists fold a, encodes src (written fold a) /\ ok_alts fold a /\ go_alts a.
Proof.
  unfold in_syntax. set (l := map fst (runes src)). set (fold := match l with a :: b :: c :: _ => _ | _ => _ end).
  destruct (rd_alts _ _) as [[a t]|]; [|discriminate]. intros H. destruct (alts_b fold a) eqn:A; [|discriminate H].
  destruct (same (written fold a) l) eqn:B; [|discriminate H]. destruct (forallb scalar_b l) eqn:C; [|discriminate H].
  exists fold, a. split; [|apply syntax_b_ok; exact A]. apply same_ok in B. rewrite B. split.
  - apply Forall_forall. intros x I. apply scalar_b_ok. rewrite forallb_forall in C. exact (C x I).
  - apply same_ok. exact H.
Qed.
Lemma shipped_syntax src : In src shipped_patterns -> exists fold a, encodes src (written fold a) /\ ok_alts fold a /\ go_alts a.
Proof.
  assert (H : forallb in_syntax shipped_patterns = true) by (vm_cast_no_check (eq_refl true)).
  intros I. apply in_syntax_ok. rewrite forallb_forall in H. exact (H src I).
Qed.
Lemma shipped_listed r : In r (patterns_of shipped) -> exists src, In src shipped_patterns /\ r = compile src.
Proof.
  assert (Z : forall l, (forall b, In b l -> In b (d_cr_re ++ d_cr_evre ++ d_or_re ++ d_vr_re ++ d_dr_re0 ++ d_dr_re1)) ->
    In r (compile_all l) -> exists src, In src shipped_patterns /\ r = compile src).
  { intros l H I. unfold compile_all in I. apply in_map_iff in I as (b & <- & I). exists (unblob b). split; [|reflexivity].
    unfold shipped_patterns. apply in_or_app. right. apply in_map. apply H. exact I. }
  unfold patterns_of. cbn [shipped re_tablet re_mobile re_blink cr_re cr_evre or_re vr_re dr_re In].
  intros [H|[H|[H|H]]].
  - exists src_tablet. split; [unfold shipped_patterns; apply in_or_app; left; cbn [In]; auto|symmetry; exact H].
  - exists src_mobile. split; [unfold shipped_patterns; apply in_or_app; left; cbn [In]; auto|symmetry; exact H].
  - exists src_blink. split; [unfold shipped_patterns; apply in_or_app; left; cbn [In]; auto|symmetry; exact H].
  - repeat (apply in_app_or in H as [H|H]); (eapply Z; [|exact H]); intros b I; repeat first [exact I|apply in_or_app; first [left; exact I|right]].
Qed.
Lemma shipped_meaning r : In r (patterns_of shipped) -> exists fold a, encodes (re_src r) (written fold a) /\ ok_alts fold a /\ go_alts a /\
  forall s, re_find r s <> None <-> occurs fold a (runes s).
Proof.
  intros I. destruct (shipped_listed r I) as (src & J & ->). destruct (shipped_syntax src J) as (fold & a & En & O & G).
  exists fold, a. split; [exact En|]. split; [exact O|]. split; [exact G|]. intros s. apply finds_meaning; assumption.
Qed.

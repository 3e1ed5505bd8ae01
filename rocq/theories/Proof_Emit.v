(** The generated files declare the tables. *)
From Coq Require Import ZifyBool ZifyNat ZifyN.
From Verif Require Import Model_Base Model_Version Model_Ctx Model_Compiler Model_Emit Spec_Version Spec_Compiler Spec_Go.
From Verif Require Import Proof_Base Proof_Version Proof_Compiler Proof_Structured.

(** ** Lexing *)
Definition run (l : list token) (s : bytes) : lexer := lex_from (mkLex l Start) s.
(** The text gives these tokens: wherever it stands; where a newline means nothing; before a separator. *)
Definition lexes (s : bytes) (ts : list token) : Prop := forall l rest, run l (s ++ rest) = run (rev ts ++ l) rest.
Definition lexes0 (s : bytes) (ts : list token) : Prop := forall l rest, ends l = false -> run l (s ++ rest) = run (rev ts ++ l) rest.
Definition separated (s : bytes) : bool := match s with c :: _ => negb (letter c || decimal c) | [] => false end.
Definition lexesN (s : bytes) (ts : list token) : Prop := forall l rest, separated rest = true -> run l (s ++ rest) = run (rev ts ++ l) rest.

Lemma lexes_app s ts s' ts' : lexes s ts -> lexes s' ts' -> lexes (s ++ s') (ts ++ ts').
Proof. intros H H' l rest. rewrite <- app_assoc, H, H', rev_app_distr, app_assoc. reflexivity. Qed.
Lemma lexesN_app s ts s' ts' : lexesN s ts -> lexes s' ts' -> separated s' = true -> lexes (s ++ s') (ts ++ ts').
Proof.
  intros H H' E l rest. rewrite <- app_assoc, H, H', rev_app_distr, app_assoc; [reflexivity|].
  destruct s'; [discriminate E|exact E].
Qed.
Lemma lexes_0 s ts : lexes s ts -> lexes0 s ts.
Proof. intros H l rest _. apply H. Qed.
Lemma lexes0_app s ts s' ts' : lexes0 s ts -> lexes s' ts' -> lexes0 (s ++ s') (ts ++ ts').
Proof. intros H H' l rest E. rewrite <- app_assoc, (H _ _ E), H', rev_app_distr, app_assoc. reflexivity. Qed.
Definition openers : list token := [Op (bs "{"); Op (bs ","); Op (bs "(")].
Lemma open_ends ts t l : In t openers -> ends (rev (ts ++ [t]) ++ l) = false.
Proof. intros I. rewrite rev_app_distr. destruct I as [<-|[<-|[<-|[]]]]; reflexivity. Qed.
(** After a brace, a parenthesis or a comma a newline means nothing. *)
Lemma lexes_open s ts t s' ts' : In t openers -> lexes s (ts ++ [t]) -> lexes0 s' ts' -> lexes (s ++ s') ((ts ++ [t]) ++ ts').
Proof.
  intros I H H' l rest. rewrite <- app_assoc, H, H', (rev_app_distr (ts ++ [t])), app_assoc; [reflexivity|]. apply open_ends. exact I.
Qed.
Lemma lexes0_open s ts t s' ts' : In t openers -> lexes0 s (ts ++ [t]) -> lexes0 s' ts' -> lexes0 (s ++ s') ((ts ++ [t]) ++ ts').
Proof.
  intros I H H' l rest E. rewrite <- app_assoc, (H _ _ E), H', (rev_app_distr (ts ++ [t])), app_assoc; [reflexivity|]. apply open_ends. exact I.
Qed.
Lemma lexes0_nil : lexes0 [] [].
Proof. intros l rest _. reflexivity. Qed.
Lemma lexes0_nl : lexes0 [x0a] [].
Proof. intros l rest E. unfold run, lex_from. cbn [app fold_left]. unfold step at 2. cbn [lx_mode lx_toks]. change (step_start l x0a) with (mkLex (newline l) Start). unfold newline. rewrite E. reflexivity. Qed.
Lemma lexes_space : lexes [x20] [].
Proof. intros l rest. reflexivity. Qed.

(** Comments. *)
Lemma in_comment s : forall l rest, ~ In x0a s -> lex_from (mkLex l Comment) (s ++ rest) = lex_from (mkLex l Comment) rest.
Proof.
  induction s as [|c s IH]; intros l rest N; [reflexivity|]. cbn [app lex_from fold_left]. unfold step at 2. cbn [lx_mode lx_toks].
  destruct (beq_spec c x0a) as [->|_]; [exfalso; apply N; left; reflexivity|]. apply IH. intros I. apply N. right. exact I.
Qed.
Lemma lexes0_comment s : ~ In x0a s -> lexes0 (bs "// " ++ s ++ [x0a]) [].
Proof.
  intros N l rest E. unfold run. change (lex_from (mkLex l Start) ((bs "// " ++ s ++ [x0a]) ++ rest))
    with (lex_from (mkLex l Comment) ((x20 :: s ++ [x0a]) ++ rest)).
  rewrite <- app_comm_cons, <- app_assoc. change (lex_from (mkLex l Comment) (x20 :: s ++ [x0a] ++ rest)) with (lex_from (mkLex l Comment) (s ++ [x0a] ++ rest)).
  rewrite in_comment by exact N. cbn [app lex_from fold_left]. unfold step at 2. cbn [lx_mode lx_toks]. unfold newline. rewrite E. reflexivity.
Qed.

(** Numbers and strings. *)
Definition word (c : byte) : bool := letter c || decimal c.
Lemma in_number s : forall l a rest, forallb word s = true -> separated rest = true ->
  lex_from (mkLex l (InNum a)) (s ++ rest) = run (Int (rev a ++ s) :: l) rest.
Proof.
  induction s as [|c s IH]; intros l a rest F S.
  - rewrite app_nil_r. destruct rest as [|c rest]; [discriminate S|]. cbn [separated] in S. cbn [app lex_from fold_left]. unfold step at 2.
    cbn [lx_mode lx_toks]. destruct (letter c || decimal c); [discriminate S|]. unfold run. reflexivity.
  - cbn [forallb] in F. apply andb_true_iff in F as [Fc F]. cbn [app lex_from fold_left]. unfold step at 2. cbn [lx_mode lx_toks].
    unfold word in Fc. rewrite Fc. fold (lex_from (mkLex l (InNum (c :: a))) (s ++ rest)). rewrite IH by assumption. cbn [rev].
    rewrite <- app_assoc. reflexivity.
Qed.
Lemma lexesN_digits d s : decimal d = true -> forallb word s = true -> lexesN (d :: s) [Int (d :: s)].
Proof.
  intros D F l rest S. unfold run. cbn [app lex_from fold_left]. unfold step at 2. cbn [lx_mode lx_toks]. unfold step_start.
  assert (letter d = false) as -> by (revert D; clear; destruct d; intros D; try reflexivity; discriminate D). rewrite D.
  fold (lex_from (mkLex l (InNum [d])) (s ++ rest)). rewrite in_number by assumption. reflexivity.
Qed.
Lemma hex_word c d : hex_value c = Some d -> word c = true.
Proof. destruct c; intros H; try reflexivity; discriminate H. Qed.
Lemma hex_words s : forall a n, hex_digits_value s a = Some n -> forallb word s = true.
Proof.
  induction s as [|c s IH]; intros a n; [reflexivity|]. cbn [hex_digits_value forallb]. destruct (hex_value c) eqn:E; [|discriminate].
  intros H. rewrite (hex_word _ _ E). exact (IH _ _ H).
Qed.
Lemma nat_literal_shape s n : nat_literal s = Some n -> exists r, s = x30 :: r /\ forallb word r = true.
Proof.
  unfold nat_literal. destruct s as [|c s]; [discriminate|]. destruct c; try discriminate. destruct s as [|c s]; [discriminate|].
  destruct c; try discriminate. destruct s as [|c r]; [discriminate|]. intros H. exists (x78 :: c :: r). split; [reflexivity|].
  apply hex_words in H. exact H.
Qed.

(** ** Reading *)
Definition takes {A} (p : reader A) (ts : list token) (a : A) : Prop := forall r, p (ts ++ r) = Some (a, r).
Definition reads {A} (p : reader A) (s : bytes) (a : A) : Prop := exists ts, lexes s ts /\ takes p ts a.
Definition reads0 {A} (p : reader A) (s : bytes) (a : A) : Prop := exists ts, lexes0 s ts /\ takes p ts a.
Definition readsN {A} (p : reader A) (s : bytes) (a : A) : Prop := exists ts, lexesN s ts /\ takes p ts a.

Lemma takes_bind {A B} (p : reader A) (f : A -> reader B) ts a ts' b :
  takes p ts a -> takes (f a) ts' b -> takes (rseq p f) (ts ++ ts') b.
Proof. intros H H' r. unfold rseq. rewrite <- app_assoc, H. apply H'. Qed.
Lemma reads_bind {A B} (p : reader A) (f : A -> reader B) s a s' b :
  reads p s a -> reads (f a) s' b -> reads (rseq p f) (s ++ s') b.
Proof. intros (ts & L & T) (ts' & L' & T'). exists (ts ++ ts'). split; [apply lexes_app; assumption|exact (takes_bind _ _ _ _ _ _ T T')]. Qed.
Lemma reads0_bind {A B} (p : reader A) (f : A -> reader B) s a s' b :
  reads0 p s a -> reads (f a) s' b -> reads0 (rseq p f) (s ++ s') b.
Proof. intros (ts & L & T) (ts' & L' & T'). exists (ts ++ ts'). split; [apply lexes0_app; assumption|exact (takes_bind _ _ _ _ _ _ T T')]. Qed.
Lemma readsN_bind {A B} (p : reader A) (f : A -> reader B) s a s' b :
  readsN p s a -> reads (f a) s' b -> separated s' = true -> reads (rseq p f) (s ++ s') b.
Proof.
  intros (ts & L & T) (ts' & L' & T') S. exists (ts ++ ts'). split; [apply lexesN_app; assumption|exact (takes_bind _ _ _ _ _ _ T T')].
Qed.
Lemma reads_ret {A} (a : A) : reads (rret a) [] a.
Proof. exists []. split; [intros l rest; reflexivity|intros r; reflexivity]. Qed.
Lemma reads_last {A B} (p : reader A) (f : A -> reader B) s a b : reads p s a -> reads (f a) [] b -> reads (rseq p f) s b.
Proof. intros H H'. rewrite <- (app_nil_r s). exact (reads_bind p f s a [] b H H'). Qed.

Lemma tok_eqb_refl t : tok_eqb t t = true.
Proof. destruct t; cbn; try apply beqs_refl; reflexivity. Qed.
Lemma takes_tokens ts : takes (the_tokens ts) ts tt.
Proof.
  induction ts as [|t ts IH]; intros r; [reflexivity|]. cbn [the_tokens app]. unfold rseq at 1. cbn [the_token]. rewrite tok_eqb_refl.
  apply IH.
Qed.
Lemma takes_the s : takes (the s) (pieces s) tt.
Proof. apply takes_tokens. Qed.
Lemma reads_the w s : lexes s (pieces w) -> reads (the w) s tt.
Proof. intros L. exists (pieces w). split; [exact L|apply takes_the]. Qed.
Lemma reads0_the w s : lexes0 s (pieces w) -> reads0 (the w) s tt.
Proof. intros L. exists (pieces w). split; [exact L|apply takes_the]. Qed.

Lemma readsN_number lo hi s z : literal s = Some z -> (lo <= z <= hi)%Z -> readsN (a_number lo hi) s z.
Proof.
  intros H R. assert (R' : ((lo <=? z) && (z <=? hi))%Z = true) by lia.
  destruct (nat_literal s) as [n|] eqn:E.
  - destruct (nat_literal_shape _ _ E) as (r & -> & W). exists [Int (x30 :: r)].
    split; [apply lexesN_digits; [reflexivity|exact W]|]. intros rest. cbn [app]. unfold a_number, rseq at 1.
    rewrite (literal_signed _ _ E) in H. injection H as <-.
    unfold a_natural, rseq, rret. rewrite E. rewrite R'. reflexivity.
  - destruct s as [|c r]; [discriminate H|]. assert (c = x2d).
    { unfold literal in H. destruct c; try reflexivity; rewrite E in H; discriminate H. }
    subst c. cbn [literal] in H. destruct (nat_literal r) as [n|] eqn:E'; [|discriminate H]. injection H as <-.
    destruct (nat_literal_shape _ _ E') as (r' & -> & W). exists [Op [x2d]; Int (x30 :: r')]. split.
    + intros l rest S. change (run l ((x2d :: x30 :: r') ++ rest)) with (run (Op [x2d] :: l) ((x30 :: r') ++ rest)).
      exact (lexesN_digits x30 r' eq_refl W (Op [x2d] :: l) rest S).
    + intros rest. cbn [app]. unfold a_number, rseq at 1. unfold a_natural, rseq, rret. rewrite E'. rewrite R'. reflexivity.
Qed.
Lemma readsN_map {A B} (p : reader A) (f : A -> B) s a : readsN p s a -> readsN (rseq p (fun x => rret (f x))) s (f a).
Proof. intros (ts & L & T). exists ts. split; [exact L|]. intros r. unfold rseq. rewrite T. reflexivity. Qed.
Lemma readsN_i32 z : i32 z -> readsN an_int32 (hex_i32 z) z.
Proof. intros H. apply readsN_number; [apply hex_i32_literal; exact H|unfold i32 in H; lia]. Qed.
Lemma readsN_i8 z : i8 z -> readsN an_int8 (hex_i8 z) z.
Proof. intros H. apply readsN_number; [apply hex_i8_literal; exact H|unfold i8 in H; lia]. Qed.
Lemma readsN_u64 n : u64 n -> readsN an_entry (hex_u64 n) n.
Proof.
  intros H. unfold an_entry. assert (E : n = Z.to_N (Z.of_N n)) by lia. rewrite E at 2. apply (readsN_map (a_number 0 18446744073709551615) Z.to_N).
  apply readsN_number; [apply hex_u64_literal; exact H|]. unfold u64, two64 in H. lia.
Qed.
Lemma readsN_byte b : readsN a_byte (bs "0x" ++ fmt_x 2 (Z.of_N (bn b))) b.
Proof.
  pose proof (bn_lt b) as L. unfold a_byte. assert (E : b = nb (Z.to_N (Z.of_N (bn b)))) by (rewrite N2Z.id, nb_bn; reflexivity).
  rewrite E at 2. apply (readsN_map (a_number 0 255) (fun z => nb (Z.to_N z))). apply readsN_number; [|lia].
  rewrite (literal_signed _ (bn b)); [reflexivity|]. rewrite fmt_x_literal; [f_equal; lia|lia|]. rewrite N2Z.id. apply big_lt.
  unfold two64. lia.
Qed.

(** Strings. *)
Lemma in_raw s : forall l a rest, ~ In x60 s -> lex_from (mkLex l (InRaw a)) (s ++ x60 :: rest) =
  run (Str (filter (fun b => negb (beq b x0d)) (rev a ++ s)) :: l) rest.
Proof.
  induction s as [|c s IH]; intros l a rest N.
  - cbn [app lex_from fold_left]. unfold step at 2. cbn [lx_mode lx_toks]. rewrite beq_refl, app_nil_r. reflexivity.
  - cbn [app lex_from fold_left]. unfold step at 2. cbn [lx_mode lx_toks].
    destruct (beq_spec c x60) as [->|_]; [exfalso; apply N; left; reflexivity|]. fold (lex_from (mkLex l (InRaw (c :: a))) (s ++ x60 :: rest)).
    rewrite IH by (intros I; apply N; right; exact I). cbn [rev]. rewrite <- app_assoc. reflexivity.
Qed.
Lemma no_cr s : ~ In x0d s -> filter (fun b => negb (beq b x0d)) s = s.
Proof.
  induction s as [|c s IH]; intros N; [reflexivity|]. cbn [filter]. destruct (beq_spec c x0d) as [->|_]; [exfalso; apply N; left; reflexivity|].
  cbn [negb]. rewrite IH by (intros I; apply N; right; exact I). reflexivity.
Qed.
Lemma takes_string s : takes a_string [Str s] s.
Proof. intros r. reflexivity. Qed.
Lemma reads_raw s : raw_text s -> reads a_string (tick ++ s ++ tick) s.
Proof.
  intros [N1 N2]. exists [Str s]. split; [|apply takes_string]. intros l rest. rewrite <- app_assoc.
  unfold run, tick. rewrite <- app_assoc. cbn [app]. change (lex_from (mkLex l Start) (x60 :: s ++ x60 :: rest)) with (lex_from (mkLex l (InRaw [])) (s ++ x60 :: rest)).
  rewrite in_raw by exact N1. cbn [rev app]. rewrite no_cr by exact N2. reflexivity.
Qed.
Lemma in_str s : forall l a rest, plain_text s -> lex_from (mkLex l (InStr a)) (s ++ x22 :: rest) = run (Str (rev a ++ s) :: l) rest.
Proof.
  induction s as [|c s IH]; intros l a rest (N1 & N2 & N3).
  - cbn [app lex_from fold_left]. unfold step at 2. cbn [lx_mode lx_toks]. rewrite beq_refl, app_nil_r. reflexivity.
  - cbn [app lex_from fold_left]. unfold step at 2. cbn [lx_mode lx_toks].
    destruct (beq_spec c x22) as [->|_]; [exfalso; apply N1; left; reflexivity|].
    destruct (beq_spec c x5c) as [->|_]; [exfalso; apply N2; left; reflexivity|].
    destruct (beq_spec c x0a) as [->|_]; [exfalso; apply N3; left; reflexivity|]. cbn [orb].
    fold (lex_from (mkLex l (InStr (c :: a))) (s ++ x22 :: rest)).
    rewrite IH by (repeat split; intros I; [apply N1|apply N2|apply N3]; right; exact I). cbn [rev]. rewrite <- app_assoc. reflexivity.
Qed.
Lemma reads_quoted s : plain_text s -> reads a_string (quote ++ s ++ quote) s.
Proof.
  intros P. exists [Str s]. split; [|apply takes_string]. intros l rest. rewrite <- app_assoc. unfold run, quote. rewrite <- app_assoc. cbn [app].
  change (lex_from (mkLex l Start) (x22 :: s ++ x22 :: rest)) with (lex_from (mkLex l (InStr [])) (s ++ x22 :: rest)).
  rewrite in_str by exact P. reflexivity.
Qed.

(** ** Lists *)
Definition comma : token := Op (bs ",").
Definition brace : token := Op (bs "}").
Definition elem_ok {A} (p : reader A) (s : bytes) (a : A) : Prop := exists ts, lexes0 s (ts ++ [comma]) /\ takes p ts a.
Definition no_brace {A} (p : reader A) : Prop := forall r, p (brace :: r) = None.
Lemma some_step {A} (p : reader A) f l : (forall l', l <> brace :: l') ->
  some_elements p (S f) l = (a <- p ;; the (bs ",") ;; r <- some_elements p f ;; rret (a :: r))%r l.
Proof.
  intros H. cbn [some_elements]. destruct l as [|t l']; [reflexivity|]. destruct t as [| | |w|]; try reflexivity.
  destruct w as [|c [|]]; try reflexivity; destruct c; try reflexivity. exfalso. exact (H l' eq_refl).
Qed.
Lemma elements_tokens {A} (p : reader A) : no_brace p -> forall ss l, Forall2 (elem_ok p) ss l ->
  exists ts, lexes0 (concat ss) ts /\ (ts = [] \/ exists ts', ts = ts' ++ [comma]) /\ length l <= length ts /\
    forall fuel r, length l < fuel -> some_elements p fuel (ts ++ brace :: r) = Some (l, r).
Proof.
  intros NB ss l F. induction F as [|s a ss l (ts & L & T) F (ts' & L' & E' & Len & S)].
  - exists []. split; [exact lexes0_nil|]. split; [left; reflexivity|]. split; [apply Nat.le_refl|].
    intros [|f] r H; [inversion H|]. reflexivity.
  - exists ((ts ++ [comma]) ++ ts'). split; [|split; [|split]].
    + cbn [concat]. apply lexes0_open; [right; left; reflexivity|exact L|exact L'].
    + right. destruct E' as [->|(ts'' & ->)]; [exists ts; rewrite app_nil_r; reflexivity|].
      exists ((ts ++ [comma]) ++ ts''). rewrite app_assoc. reflexivity.
    + rewrite !app_length. cbn [length]. lia.
    + intros [|f] r H; [inversion H|]. rewrite some_step.
      * unfold rseq at 1. rewrite <- !app_assoc, T. cbn [app]. unfold rseq at 1.
        change (the (bs ",") (comma :: ts' ++ brace :: r)) with (Some (tt, ts' ++ brace :: r)). cbv iota beta.
        unfold rseq. rewrite S by (cbn [length] in H; lia). reflexivity.
      * intros l' E. pose proof (T ([comma] ++ ts' ++ brace :: r)) as X. rewrite !app_assoc in X. rewrite <- app_assoc in E.
        rewrite !app_assoc in E. rewrite E, NB in X. discriminate X.
Qed.
Lemma takes_elements {A} (p : reader A) ts l : length l <= length ts ->
  (forall fuel r, length l < fuel -> some_elements p fuel (ts ++ brace :: r) = Some (l, r)) -> takes (elements_of p) (ts ++ [brace]) l.
Proof. intros Len H r. unfold elements_of. rewrite <- app_assoc. cbn [app]. apply H. rewrite app_length. cbn [length]. lia. Qed.
(** The elements and the text [c] that closes them, which gives the tokens [brace :: more]. *)
Lemma reads0_elements {A B} (p : reader A) (f : list A -> reader B) ss l c more b : no_brace p -> Forall2 (elem_ok p) ss l ->
  lexes0 c (brace :: more) -> takes (f l) more b -> reads0 (rseq (elements_of p) f) (concat ss ++ c) b.
Proof.
  intros NB F Lc Tf. destruct (elements_tokens p NB ss l F) as (ts & L & E & Len & S). exists ((ts ++ [brace]) ++ more). split.
  - rewrite <- app_assoc. cbn [app]. destruct E as [->|(ts' & ->)].
    + intros l0 rest E0. rewrite <- app_assoc, (L _ _ E0). exact (Lc l0 rest E0).
    + apply lexes0_open; [right; left; reflexivity|exact L|exact Lc].
  - apply (takes_bind _ _ _ l); [apply takes_elements; assumption|exact Tf].
Qed.
Lemma reads_open {B} (w : bytes) ts t (p : reader B) s s' b : pieces w = ts ++ [t] -> In t openers -> lexes s (pieces w) -> reads0 p s' b ->
  reads (rseq (the w) (fun _ => p)) (s ++ s') b.
Proof.
  intros E I L (ts' & L' & T'). rewrite E in L. exists ((ts ++ [t]) ++ ts'). split; [apply lexes_open; assumption|].
  apply (takes_bind _ _ _ tt); [rewrite <- E; apply takes_the|exact T'].
Qed.
Lemma reads0_open {B} (w : bytes) ts t (p : reader B) s s' b : pieces w = ts ++ [t] -> In t openers -> lexes0 s (pieces w) -> reads0 p s' b ->
  reads0 (rseq (the w) (fun _ => p)) (s ++ s') b.
Proof.
  intros E I L (ts' & L' & T'). rewrite E in L. exists ((ts ++ [t]) ++ ts'). split; [apply lexes0_open; assumption|].
  apply (takes_bind _ _ _ tt); [rewrite <- E; apply takes_the|exact T'].
Qed.
Lemma reads_0 {A} (p : reader A) s a : reads p s a -> reads0 p s a.
Proof. intros (ts & L & T). exists ts. split; [apply lexes_0; exact L|exact T]. Qed.
(** An element followed by a comma. *)
Lemma elem_of {A} (p : reader A) s c a : reads p s a -> lexes c [comma] -> elem_ok p (s ++ c) a.
Proof. intros (ts & L & T) C. exists ts. split; [apply lexes_0, lexes_app; assumption|exact T]. Qed.
Lemma elem_of0 {A} (p : reader A) s c a : reads0 p s a -> lexes c [comma] -> elem_ok p (s ++ c) a.
Proof. intros (ts & L & T) C. exists ts. split; [apply lexes0_app; assumption|exact T]. Qed.
Lemma lexes_comma : lexes (bs "," ++ nl) [comma].
Proof. intros l rest. reflexivity. Qed.

(** A declared list. *)
Lemma reads_variable {A} (p : reader A) w ts s ss c l : no_brace p -> pieces w = ts ++ [Op (bs "{")] -> lexes s (pieces w) ->
  Forall2 (elem_ok p) ss l -> lexes0 c [brace; Semi] -> reads (variable w p) (s ++ concat ss ++ c) l.
Proof.
  intros NB E L F C. unfold variable. apply (reads_open w ts (Op (bs "{"))); [exact E|left; reflexivity|exact L|].
  apply (reads0_elements p _ ss l c [Semi]); [exact NB|exact F|exact C|]. intros r. reflexivity.
Qed.
Lemma lexes0_end : lexes0 (bs "}" ++ nl) [brace; Semi].
Proof. apply lexes_0. intros l rest. reflexivity. Qed.

Ltac piece := apply reads_the; intros ? ?; reflexivity.
Ltac number := first [apply readsN_i32 | apply readsN_i8 | apply readsN_u64]; assumption.
Ltac fields := repeat first
  [ eapply reads_bind; [piece|]
  | eapply readsN_bind; [number| |reflexivity]
  | eapply reads_last; [piece|apply reads_ret] ].
Lemma no_brace_the {B} w t ts (f : unit -> reader B) : pieces w = t :: ts -> tok_eqb t brace = false -> no_brace (rseq (the w) f).
Proof. intros E N r. unfold rseq, the. rewrite E. cbn [the_tokens]. unfold rseq. cbn [the_token]. rewrite N. reflexivity. Qed.

(** ** The entries *)
(** The text of an entry with its comma, from the reader of the entry. *)
Ltac split_comma := eexists; split; [repeat first [rewrite app_assoc]; reflexivity|rewrite <- !app_assoc].
Definition element {A} (p : reader A) (s : bytes) (a : A) : Prop := exists s', s = s' ++ bs "," ++ nl /\ reads p s' a.
Lemma element_ok {A} (p : reader A) s a : element p s a -> elem_ok p s a.
Proof. intros (s' & -> & R). apply elem_of; [exact R|exact lexes_comma]. Qed.
Lemma element_client t : client_fits t -> element a_client (emit_client_tuple t ++ nl) t.
Proof.
  intros (H1 & H2 & H3 & H4 & H5 & H6 & H7 & H8 & H9). unfold element, emit_client_tuple. change (bs "},") with (bs "}" ++ bs ",").
  split_comma. unfold a_client. fields. destruct t. eapply reads_last; [piece|apply reads_ret].
Qed.
Lemma element_os_version t : os_version_fits t -> element an_os_version (emit_ov_tuple t ++ nl) t.
Proof.
  intros (H1 & H2 & H3 & H4). unfold element, emit_ov_tuple. change (bs "},") with (bs "}" ++ bs ",").
  split_comma. unfold an_os_version. fields. destruct t. eapply reads_last; [piece|apply reads_ret].
Qed.
Lemma element_os t : os_fits t -> element an_os (emit_os_tuple t ++ nl) t.
Proof.
  intros (H1 & H2 & H3 & H4 & H5 & H6 & H7). unfold element, emit_os_tuple. change (bs "},") with (bs "}" ++ bs ",").
  split_comma. unfold an_os. fields. destruct t. eapply reads_last; [piece|apply reads_ret].
Qed.
Lemma element_model t : model_fits t -> element a_model (emit_model_tuple t ++ bs "," ++ nl) t.
Proof.
  intros (H1 & H2 & H3 & H4). unfold element. eexists. split; [reflexivity|]. unfold emit_model_tuple, a_model. fields. destruct t. eapply reads_last; [piece|apply reads_ret].
Qed.
Lemma element_device t : device_fits t -> element a_device (emit_device_tuple t ++ nl) t.
Proof.
  intros (H1 & H2 & H3 & H4 & H5 & H6). unfold element, emit_device_tuple. change (bs "},") with (bs "}" ++ bs ",").
  split_comma. unfold a_device. fields. destruct t. eapply reads_last; [piece|apply reads_ret].
Qed.
Lemma element_vendor t : u64 (vt_brand64 t) /\ u64 (vt_range64 t) -> element a_vendor (emit_vendor_tuple t ++ bs "," ++ nl) t.
Proof.
  intros (H1 & H2). unfold element. eexists. split; [reflexivity|]. unfold emit_vendor_tuple, a_vendor. fields. destruct t. eapply reads_last; [piece|apply reads_ret].
Qed.
Lemma element_pattern p : raw_text p -> element a_pattern (bs "regexp.MustCompile(" ++ tick ++ p ++ tick ++ bs ")," ++ nl) p.
Proof.
  intros R. exists (bs "regexp.MustCompile(" ++ (tick ++ p ++ tick) ++ bs ")"). split.
  - rewrite <- !app_assoc. reflexivity.
  - unfold a_pattern. eapply reads_bind; [piece|]. apply (reads_bind _ _ _ p); [apply reads_raw; exact R|]. eapply reads_last; [piece|apply reads_ret].
Qed.

(** ** The functions of engines *)
Lemma u64_token n : u64 n -> exists w, lexesN (hex_u64 n) [Int w] /\ takes an_entry [Int w] n.
Proof.
  intros H. assert (E : nat_literal (hex_u64 n) = Some n).
  { unfold hex_u64. rewrite fmt_x_literal; [f_equal; lia|lia|]. rewrite N2Z.id. apply big_lt. exact H. }
  exists (hex_u64 n). split.
  - destruct (nat_literal_shape _ _ E) as (r & -> & W). apply lexesN_digits; [reflexivity|exact W].
  - intros r. unfold an_entry, a_number, a_natural, rseq, rret. cbn [app]. rewrite E. unfold u64, two64 in H.
    replace ((0 <=? Z.of_N n) && (Z.of_N n <=? 18446744073709551615))%Z with true by lia. rewrite N2Z.id. reflexivity.
Qed.
Definition rule_text (ve : bytes * N) : bytes := bs "if s>=" ++ quote ++ fst ve ++ quote ++ bs "{return " ++ hex_u64 (snd ve) ++ bs "}" ++ nl.
Definition a_rule : reader (bytes * N) :=
  (the (bs "if s>=") ;; t <- a_string ;; the (bs "{return ") ;; e <- an_entry ;; the (bs "};") ;; rret (t, e))%r.
Lemma reads_rule ve : plain_text (fst ve) /\ u64 (snd ve) -> reads a_rule (rule_text ve) ve.
Proof.
  intros [P U]. destruct ve as [t e]; cbn [fst snd] in *. unfold rule_text, a_rule. cbn [fst snd].
  replace (bs "if s>=" ++ quote ++ t ++ quote ++ bs "{return " ++ hex_u64 e ++ bs "}" ++ nl)
    with (bs "if s>=" ++ (quote ++ t ++ quote) ++ bs "{return " ++ hex_u64 e ++ bs "}" ++ nl) by (rewrite <- !app_assoc; reflexivity).
  eapply reads_bind; [piece|]. apply (reads_bind _ _ _ t); [apply reads_quoted; exact P|]. fields.
Qed.
Lemma rules_step f ts ve r : takes a_rule ts ve ->
  rules (S f) (ts ++ r) = (r <- rules f ;; rret (ve :: fst r, snd r))%r r.
Proof.
  intros T. specialize (T r). revert T. generalize (ts ++ r). intros l T. cbn [rules]. unfold a_rule in T.
  destruct l as [|t l]; [discriminate T|]. destruct t as [w| | | |]; try discriminate T.
  destruct (beqs w (bs "return")) eqn:E.
  - apply beqs_eq in E as ->. discriminate T.
  - unfold rseq at 1. unfold rseq at 1 in T. destruct (the (bs "if s>=") (Id w :: l)) as [[[] l1]|]; [|discriminate T].
    unfold rseq at 1. unfold rseq at 1 in T. destruct (a_string l1) as [[t l2]|]; [|discriminate T].
    unfold rseq at 1. unfold rseq at 1 in T. destruct (the (bs "{return ") l2) as [[[] l3]|]; [|discriminate T].
    unfold rseq at 1. unfold rseq at 1 in T. destruct (an_entry l3) as [[e l4]|]; [|discriminate T].
    unfold rseq at 1. unfold rseq at 1 in T. destruct (the (bs "};") l4) as [[[] l5]|]; [|discriminate T].
    unfold rret at 1 in T. injection T as <- ->. reflexivity.
Qed.
Lemma rules_tokens l d : Forall (fun ve => plain_text (fst ve) /\ u64 (snd ve)) l -> u64 d ->
  exists ts, lexes (flat_map rule_text l ++ bs "return " ++ hex_u64 d ++ nl ++ bs "}") ts /\ length l < length ts /\
    forall fuel r, length l < fuel -> rules fuel (ts ++ r) = Some ((l, d), r).
Proof.
  intros F U. induction F as [|ve l H F (ts & L & Len & S)].
  - destruct (u64_token d U) as (w & L & T). exists [Id (bs "return"); Int w; Semi; brace]. split; [|split].
    + cbn [flat_map app]. intros l0 rest. unfold run.
      change (lex_from (mkLex l0 Start) ((bs "return " ++ hex_u64 d ++ nl ++ bs "}") ++ rest))
        with (run (Id (bs "return") :: l0) ((hex_u64 d ++ nl ++ bs "}") ++ rest)).
      rewrite <- app_assoc, L by reflexivity. reflexivity.
    + cbn [length]. lia.
    + intros [|f] r Lt; [inversion Lt|]. cbn [app rules]. change (beqs (bs "return") (bs "return")) with true. cbv iota.
      unfold rseq at 1. pose proof (T (Semi :: brace :: r)) as X. cbn [app] in X. rewrite X. reflexivity.
  - destruct (reads_rule ve H) as (tv & Lv & Tv). exists (tv ++ ts). split; [|split].
    + cbn [flat_map]. rewrite <- app_assoc. apply lexes_app; assumption.
    + rewrite app_length. cbn [length]. destruct tv as [|t tv]; [|cbn [length]; lia]. exfalso.
      specialize (Tv []). discriminate Tv.
    + intros [|f] r Lt; [inversion Lt|]. rewrite <- app_assoc, (rules_step f tv ve _ Tv). unfold rseq.
      rewrite S by (cbn [length] in Lt; lia). reflexivity.
Qed.
Lemma element_function g : function_fits g -> element a_function (emit_ef g ++ bs "," ++ nl) g.
Proof.
  intros [F U]. unfold element. eexists. split; [reflexivity|]. unfold emit_ef, a_function.
  replace (bs "func(s string) entry.Entry64 {" ++ nl ++ flat_map (fun ve => bs "if s>=" ++ quote ++ fst ve ++ quote ++ bs "{return " ++ hex_u64 (snd ve) ++ bs "}" ++ nl) (fst g) ++
    bs "return " ++ hex_u64 (snd g) ++ nl ++ bs "}")
    with ((bs "func(s string) entry.Entry64 {" ++ nl) ++ flat_map rule_text (fst g) ++ bs "return " ++ hex_u64 (snd g) ++ nl ++ bs "}")
    by (rewrite <- !app_assoc; reflexivity).
  eapply reads_bind; [piece|]. destruct (rules_tokens (fst g) (snd g) F U) as (ts & L & Len & S). exists ts. split; [exact L|].
  intros r. rewrite S; [destruct g; reflexivity|]. rewrite app_length. lia.
Qed.

(** ** Lists of each kind *)
Lemma elems_flat {A} (p : reader A) (E : A -> bytes) (P : A -> Prop) l : (forall a, P a -> element p (E a) a) -> Forall P l ->
  Forall2 (elem_ok p) (map E l) l.
Proof. intros H F. induction F as [|a l Pa F IH]; constructor; [apply element_ok, H; exact Pa|exact IH]. Qed.
Lemma flat_concat {A} (E : A -> bytes) l : flat_map E l = concat (map E l).
Proof. rewrite flat_map_concat_map. reflexivity. Qed.
Lemma reads_list {A} (p : reader A) w ts s (E : A -> bytes) (P : A -> Prop) l rest : no_brace p -> pieces w = ts ++ [Op (bs "{")] ->
  lexes s (pieces w) -> (forall a, P a -> element p (E a) a) -> Forall P l ->
  s ++ flat_map E l ++ bs "}" ++ nl ++ rest = (s ++ concat (map E l) ++ bs "}" ++ nl) ++ rest /\
  reads (variable w p) (s ++ concat (map E l) ++ bs "}" ++ nl) l.
Proof.
  intros NB Ew L H F. split; [rewrite flat_concat, <- !app_assoc; reflexivity|].
  apply (reads_variable p w ts); [exact NB|exact Ew|exact L|exact (elems_flat p E P l H F)|exact lexes0_end].
Qed.
Lemma bind_list {A B} (p : reader A) (k : list A -> reader B) w ts s (E : A -> bytes) (P : A -> Prop) l rest b : no_brace p ->
  pieces w = ts ++ [Op (bs "{")] -> lexes s (pieces w) -> (forall a, P a -> element p (E a) a) -> Forall P l -> reads (k l) rest b ->
  reads (rseq (variable w p) k) (s ++ flat_map E l ++ bs "}" ++ nl ++ rest) b.
Proof.
  intros NB Ew L H F R. destruct (reads_list p w ts s E P l rest NB Ew L H F) as [-> X]. exact (reads_bind _ _ _ l _ _ X R).
Qed.
Lemma bind_patterns {B} (k : list bytes -> reader B) v ts l rest b : pieces (v ++ bs " = []*regexp.Regexp{") = ts ++ [Op (bs "{")] ->
  lexes (v ++ bs " = []*regexp.Regexp{" ++ nl) (pieces (v ++ bs " = []*regexp.Regexp{")) -> Forall raw_text l -> reads (k l) rest b ->
  reads (rseq (patterns v) k) (emit_patterns v l ++ rest) b.
Proof.
  intros Ev L F R. unfold emit_patterns, patterns.
  replace ((v ++ bs " = []*regexp.Regexp{" ++ nl ++ flat_map (fun p => bs "regexp.MustCompile(" ++ tick ++ p ++ tick ++ bs ")," ++ nl) l ++ bs "}" ++ nl) ++ rest)
    with ((v ++ bs " = []*regexp.Regexp{" ++ nl) ++ flat_map (fun p => bs "regexp.MustCompile(" ++ tick ++ p ++ tick ++ bs ")," ++ nl) l ++ bs "}" ++ nl ++ rest)
    by (rewrite <- !app_assoc; reflexivity).
  apply (bind_list a_pattern k _ ts _ _ raw_text); [|exact Ev|exact L|intros; apply element_pattern; assumption|exact F|exact R].
  unfold a_pattern. eapply no_brace_the; reflexivity.
Qed.

(** The buffer. *)
Fixpoint byte_texts (i : nat) (l : bytes) : list bytes :=
  match l with
  | [] => []
  | b :: r => ((if (0 <? i) && (i mod 16 =? 0) then [x0a] else []) ++ bs "0x" ++ fmt_x 2 (Z.of_N (bn b)) ++ bs ", ") :: byte_texts (S i) r
  end.
Lemma emit_bytes_concat l : forall i, emit_bytes i l = concat (byte_texts i l).
Proof. induction l as [|b l IH]; intros i; [reflexivity|]. cbn [emit_bytes byte_texts concat]. rewrite IH, <- !app_assoc. reflexivity. Qed.
Lemma byte_texts_ok l : forall i, Forall2 (elem_ok a_byte) (byte_texts i l) l.
Proof.
  induction l as [|b l IH]; intros i; [constructor|]. constructor; [|apply IH].
  destruct (readsN_byte b) as (ts & L & T). exists ts. split; [|exact T].
  assert (X : lexes ((bs "0x" ++ fmt_x 2 (Z.of_N (bn b))) ++ bs ", ") (ts ++ [comma])).
  { apply lexesN_app; [exact L|intros l0 rest; reflexivity|reflexivity]. }
  rewrite <- app_assoc in X. destruct ((0 <? i) && (i mod 16 =? 0)); [|apply lexes_0; exact X].
  exact (lexes0_app _ [] _ _ lexes0_nl X).
Qed.
Lemma no_brace_number lo hi {B} (k : Z -> reader B) : no_brace (rseq (a_number lo hi) k).
Proof. intros r. reflexivity. Qed.
Lemma no_brace_entry {B} (k : N -> reader B) : no_brace (rseq an_entry k).
Proof. intros r. reflexivity. Qed.
Lemma bind_buf {B} (k : list byte -> reader B) v ts l b : pieces (v ++ bs " = []byte{") = ts ++ [Op (bs "{")] ->
  lexes (v ++ bs " = []byte{" ++ nl) (pieces (v ++ bs " = []byte{")) -> reads (k l) (bs ")" ++ nl) b ->
  reads (rseq (variable (v ++ bs " = []byte{") a_byte) k) (emit_buf v l) b.
Proof.
  intros Ev L R. unfold emit_buf.
  replace (v ++ bs " = []byte{" ++ nl ++ emit_bytes 0 l ++ nl ++ bs "}" ++ nl ++ bs ")" ++ nl)
    with (((v ++ bs " = []byte{" ++ nl) ++ concat (byte_texts 0 l) ++ nl ++ bs "}" ++ nl) ++ bs ")" ++ nl)
    by (rewrite emit_bytes_concat, <- !app_assoc; reflexivity).
  refine (reads_bind _ _ _ l _ _ _ R).
  apply (reads_variable a_byte _ ts); [exact (no_brace_number _ _ _)|exact Ev|exact L|apply byte_texts_ok|].
  exact (lexes0_app nl [] (bs "}" ++ nl) [brace; Semi] lexes0_nl (fun l rest => eq_refl)).
Qed.

(** Maps. *)
Lemma element_pair {B} (q : reader B) (h : B -> bytes) kv : u64 (fst kv) -> readsN q (h (snd kv)) (snd kv) ->
  elem_ok (a_pair an_entry q) (hex_u64 (fst kv) ++ bs ":" ++ h (snd kv) ++ bs "," ++ nl) kv.
Proof.
  intros U R. destruct kv as [x y]; cbn [fst snd] in *. unfold a_pair.
  destruct (readsN_u64 x U) as (t1 & L1 & T1). destruct R as (t2 & L2 & T2).
  exists (t1 ++ [Op (bs ":")] ++ t2). split.
  - apply lexes_0. rewrite <- !app_assoc. apply lexesN_app; [exact L1| |reflexivity].
    apply (lexes_app (bs ":") [Op (bs ":")]); [intros l rest; reflexivity|]. apply lexesN_app; [exact L2|exact lexes_comma|reflexivity].
  - apply (takes_bind _ _ _ x); [exact T1|]. apply (takes_bind _ _ _ tt); [intros r; reflexivity|]. intros r. unfold rseq. rewrite T2. reflexivity.
Qed.
Lemma distinct_nodup l : NoDup l -> distinct l = true.
Proof.
  induction 1 as [|x l N H IH]; [reflexivity|]. cbn [distinct]. rewrite IH, andb_true_r. destruct (existsb (N.eqb x) l) eqn:E; [|reflexivity].
  exfalso. apply existsb_exists in E as (y & I & Ey). apply N.eqb_eq in Ey as ->. exact (N I).
Qed.
Lemma reads_check {A} (p : reader A) (t : A -> bool) s a : reads p s a -> t a = true ->
  reads (l <- p ;; if t l then rret l else rfail)%r s a.
Proof. intros (ts & L & T) E. exists ts. split; [exact L|]. intros r. unfold rseq. rewrite T, E. reflexivity. Qed.
Lemma bind_map {B C} (q : reader B) (k : list (N * B) -> reader C) w ts s ss l rest c : pieces w = ts ++ [Op (bs "{")] ->
  lexes s (pieces w) -> Forall2 (elem_ok (a_pair an_entry q)) ss l -> NoDup (map fst l) -> reads (k l) rest c ->
  reads (rseq (go_map w q) k) (s ++ concat ss ++ bs "}" ++ nl ++ rest) c.
Proof.
  intros Ew L F ND R. replace (s ++ concat ss ++ bs "}" ++ nl ++ rest) with ((s ++ concat ss ++ bs "}" ++ nl) ++ rest) by (rewrite <- !app_assoc; reflexivity).
  refine (reads_bind _ _ _ l _ _ _ R). unfold go_map. apply (reads_check _ (fun l => distinct (map fst l))); [|apply distinct_nodup; exact ND].
  apply (reads_variable _ w ts); [exact (no_brace_entry _)|exact Ew|exact L|exact F|exact lexes0_end].
Qed.

(** Arrays of lists. *)
Lemma dec_snoc s c : forall a, dec_value (s ++ [c]) a =
  match dec_value s a with Some n => if decimal c then Some (10 * n + N.to_nat (bn c - 48)) else None | None => None end.
Proof. induction s as [|x s IH]; intros a; [reflexivity|]. cbn [app dec_value]. destruct (decimal x); [apply IH|reflexivity]. Qed.
Lemma digit_char c k : Digit c k -> decimal c = true /\ N.to_nat (bn c - 48) = k.
Proof.
  unfold Digit. intros H. do 10 (destruct k as [|k]; [cbn in H; injection H as <-; split; reflexivity|]). destruct k; discriminate H.
Qed.
Lemma decimal_value s z : Decimal s z -> dec_value s 0 = Some (Z.to_nat z).
Proof.
  induction 1 as [c k D|s n c k D IH Dc].
  - destruct (digit_char c k D) as [E V]. cbn [dec_value]. rewrite E, V. f_equal. lia.
  - rewrite dec_snoc, IH. destruct (digit_char c k Dc) as [E V]. rewrite E, V. f_equal. pose proof (Decimal_nonneg _ _ D). lia.
Qed.
Lemma decimal_word c : decimal c = true -> word c = true.
Proof. intros H. unfold word. rewrite H. apply orb_true_r. Qed.
Lemma itoa_lead z : (0 <= z)%Z -> itoa z = bs "0" \/ forall d', itoa z <> x30 :: d'.
Proof.
  intros P. destruct (Z.eqb_spec z 0) as [->|Z0]; [left; reflexivity|]. right. unfold itoa.
  assert ((z <? 0)%Z = false) as -> by lia. cbn [app]. apply ndigits_lead. split; [lia|]. apply size_nat_bound.
Qed.
Lemma readsN_length n : readsN a_length (itoa (Z.of_nat n)) n.
Proof.
  set (d := itoa (Z.of_nat n)). assert (D : Decimal d (Z.of_nat n)) by (apply itoa_Decimal; lia).
  assert (W : forall c, In c d -> decimal c = true).
  { intros c I. destruct (Decimal_digits _ _ D c I) as (k & Dk). exact (proj1 (digit_char _ _ Dk)). }
  pose proof (decimal_value _ _ D) as V. rewrite Nat2Z.id in V. pose proof (itoa_lead (Z.of_nat n) ltac:(lia)) as Ld. fold d in Ld.
  exists [Int d]. split.
  - destruct d as [|c r]; [destruct (Decimal_nonempty _ _ D eq_refl)|]. apply lexesN_digits; [apply W; left; reflexivity|].
    apply forallb_forall. intros x I. apply decimal_word, W. right. exact I.
  - intros r. cbn [app]. destruct Ld as [E|Ld].
    + rewrite E in V |- *. cbn in V. injection V as <-. reflexivity.
    + cbn [a_length]. destruct d as [|c d']; [destruct (Decimal_nonempty _ _ D eq_refl)|].
      destruct c; try (rewrite V; reflexivity). exfalso. exact (Ld d' eq_refl).
Qed.
Definition file_text {A} (entry : A -> bytes) (nf : bytes * list A) : bytes :=
  bs "// " ++ fst nf ++ nl ++ bs "{" ++ nl ++ flat_map (fun t => entry t ++ nl) (snd nf) ++ bs "}," ++ nl.
Lemma file_elem {A} (p : reader A) (entry : A -> bytes) (P : A -> Prop) name l : no_brace p ->
  (forall a, P a -> element p (entry a ++ nl) a) -> one_line name -> Forall P l ->
  elem_ok (the (bs "{") ;; elements_of p)%r (file_text entry (name, l)) l.
Proof.
  intros NB H O F. unfold file_text. cbn [fst snd].
  replace (bs "// " ++ name ++ nl ++ bs "{" ++ nl ++ flat_map (fun t => entry t ++ nl) l ++ bs "}," ++ nl)
    with ((((bs "// " ++ name ++ nl) ++ bs "{" ++ nl) ++ concat (map (fun t => entry t ++ nl) l) ++ bs "}") ++ bs "," ++ nl)
    by (rewrite flat_concat, <- !app_assoc; reflexivity).
  apply elem_of0; [|exact lexes_comma]. apply (reads0_open (bs "{") [] (Op (bs "{"))); [reflexivity|left; reflexivity| |].
  - apply (lexes0_app _ [] _ [Op (bs "{")]); [apply lexes0_comment; exact O|intros l0 rest; reflexivity].
  - destruct (elements_tokens p NB (map (fun t => entry t ++ nl) l) l (elems_flat p (fun t => entry t ++ nl) P l H F)) as (ts & L & E & Len & S).
    exists (ts ++ [brace]). split; [|apply takes_elements; assumption].
    assert (Lc : lexes (bs "}") [brace]) by (intros l0 rest; reflexivity).
    apply lexes0_app; assumption.
Qed.
Lemma files_elems {A} (p : reader A) (entry : A -> bytes) (P : A -> Prop) : no_brace p ->
  (forall a, P a -> element p (entry a ++ nl) a) ->
  forall names l, length names = length l -> Forall one_line names -> Forall (Forall P) l ->
  Forall2 (elem_ok (the (bs "{") ;; elements_of p)%r) (map (file_text entry) (combine names l)) l.
Proof.
  intros NB H names. induction names as [|n names IH]; intros [|f l] E O F; try discriminate E; [constructor|].
  cbn [combine map]. injection E as E. inversion O; inversion F; subst. constructor; [apply (file_elem p entry P); assumption|apply IH; assumption].
Qed.
Lemma bind_array {A C} (p : reader A) (k : list (list A) -> reader C) h h' (entry : A -> bytes) (P : A -> Prop) names l ts s' rest c :
  no_brace p -> (forall a, P a -> element p (entry a ++ nl) a) -> length names = length l -> Forall one_line names -> Forall (Forall P) l ->
  lexes h (pieces h) -> pieces h' = ts ++ [Op (bs "{")] -> lexes s' (pieces h') -> separated s' = true -> reads (k l) rest c ->
  reads (rseq (array h h' (the (bs "{") ;; elements_of p)%r) k)
        (h ++ itoa (Z.of_nat (length l)) ++ s' ++ emit_files entry names l ++ bs "}" ++ nl ++ rest) c.
Proof.
  intros NB H En O F Lh E' L' S' R.
  replace (h ++ itoa (Z.of_nat (length l)) ++ s' ++ emit_files entry names l ++ bs "}" ++ nl ++ rest)
    with ((h ++ itoa (Z.of_nat (length l)) ++ s' ++ concat (map (file_text entry) (combine names l)) ++ bs "}" ++ nl) ++ rest).
  2: { unfold emit_files. rewrite flat_concat, <- !app_assoc. reflexivity. }
  refine (reads_bind _ _ _ l _ _ _ R). unfold array. eapply reads_bind; [apply reads_the; exact Lh|].
  refine (readsN_bind a_length _ _ (length l) _ _ (readsN_length _) _ _); [|destruct s'; [discriminate S'|exact S']].
  apply (reads_open h' ts (Op (bs "{"))); [exact E'|left; reflexivity|exact L'|].
  apply (reads0_elements _ _ (map (file_text entry) (combine names l)) l (bs "}" ++ nl) [Semi]).
  - eapply no_brace_the; reflexivity.
  - exact (files_elems p entry P NB H names l En O F).
  - exact lexes0_end.
  - intros r. change (([Semi] ++ r)) with (Semi :: r). unfold rseq. change (the (bs ";") (Semi :: r)) with (Some (tt, r)). cbv iota beta.
    rewrite Nat.leb_refl, Nat.sub_diag. cbn [repeat]. rewrite app_nil_r. reflexivity.
Qed.

(** ** Files *)
Lemma head_lexes args : Forall one_line args -> lexes0 (emit_head args) [Id (bs "package"); Id (bs "uaxpl"); Semi].
Proof.
  intros O. unfold emit_head.
  set (text := bs "Code generated by " ++ quote ++ bs "uaxplc" ++ flat_map (fun a => x20 :: a) args ++ quote ++ bs ". DO NOT EDIT.").
  assert (N : ~ In x0a text).
  { assert (C : forall s, forallb (fun b => negb (beq b x0a)) s = true -> ~ In x0a s).
    { intros s F I. rewrite forallb_forall in F. specialize (F _ I). discriminate F. }
    intros I. unfold text in I. repeat (apply in_app_or in I as [I|I]; [try (revert I; apply C; reflexivity)|]).
    - apply in_flat_map in I as (a & Ia & I). destruct I as [I|I]; [discriminate I|]. rewrite Forall_forall in O. exact (O a Ia I).
    - revert I. apply C. reflexivity. }
  replace (bs "// Code generated by " ++ quote ++ bs "uaxplc" ++ flat_map (fun a => x20 :: a) args ++ quote ++ bs ". DO NOT EDIT." ++ nl ++ nl ++ bs "package uaxpl" ++ nl ++ nl)
    with ((bs "// " ++ text ++ [x0a]) ++ nl ++ bs "package uaxpl" ++ nl ++ nl)
    by (unfold text; rewrite <- !app_assoc; reflexivity).
  intros l rest E. rewrite <- app_assoc, (lexes0_comment _ N l _ E). cbn [rev app]. rewrite <- app_assoc, (lexes0_nl l _ E). reflexivity.
Qed.
(** A whole file: the tokens of the imports are [ti], those of the declarations [tb]. *)
Lemma file_declares {A} (p : reader A) l ti args body a : Forall one_line args ->
  lexes (emit_imports l) (pieces (bs "import (") ++ ti ++ pieces (bs "); var (")) -> takes (imports l) ti tt ->
  reads (a <- p ;; the (bs ");") ;; rret a)%r body a -> declares (a_file l p) (emit_head args ++ emit_imports l ++ body) a.
Proof.
  intros O Li Ti (tb & Lb & Tb). set (th := [Id (bs "package"); Id (bs "uaxpl"); Semi]).
  exists (th ++ (pieces (bs "import (") ++ ti ++ pieces (bs "); var (")) ++ tb). split.
  - assert (X : run [] (emit_head args ++ emit_imports l ++ body) =
                mkLex (rev tb ++ rev (pieces (bs "import (") ++ ti ++ pieces (bs "); var (")) ++ rev th) Start).
    { rewrite (head_lexes args O [] _ eq_refl), Li. rewrite <- (app_nil_r body) at 1. rewrite Lb, app_nil_r. reflexivity. }
    unfold lex. fold (run [] (emit_head args ++ emit_imports l ++ body)). rewrite X. cbv iota beta delta [lx_mode lx_toks]. f_equal.
    rewrite !rev_app_distr, !rev_involutive. rewrite <- !app_assoc. reflexivity.
  - unfold a_file. replace (th ++ (pieces (bs "import (") ++ ti ++ pieces (bs "); var (")) ++ tb)
      with (pieces (bs "package uaxpl; import (") ++ ti ++ pieces (bs "); var (") ++ tb)
      by (rewrite <- !app_assoc; reflexivity).
    unfold rseq at 1. rewrite takes_the. unfold rseq at 1. rewrite Ti. unfold rseq at 1. rewrite takes_the.
    rewrite <- (app_nil_r tb). exact (Tb []).
Qed.
Ltac lexing := intros ? ?; reflexivity.
Ltac imported := match goal with |- declares (a_file ?l ?p) _ ?a =>
  apply (file_declares p l (flat_map (fun i => [Str i; Semi]) l)); [assumption|lexing|intros ?; reflexivity|] end.
(** The reader of the declarations, then the end of the file. *)
Lemma seq_assoc {A B C} (p : reader A) (f : A -> reader B) (g : B -> reader C) s c :
  reads (x <- p ;; (y <- f x ;; g y))%r s c -> reads (y <- (x <- p ;; f x) ;; g y)%r s c.
Proof.
  intros (ts & L & T). exists ts. split; [exact L|]. intros r. specialize (T r). revert T. unfold rseq. destruct (p (ts ++ r)) as [[x l]|]; [|discriminate].
  intros T. exact T.
Qed.
Lemma seq_ret {A B} (a : A) (g : A -> reader B) s b : reads (g a) s b -> reads (y <- rret a ;; g y)%r s b.
Proof. intros (ts & L & T). exists ts. split; [exact L|]. intros r. exact (T r). Qed.
Ltac the_end := apply seq_ret; eapply reads_last; [piece|]; cbv beta.
Lemma client_declares args names o : Forall one_line args -> Forall one_line names -> length names = length (co_idx o) ->
  client_out_fits o -> declares go_client (emit_client args names o) o.
Proof.
  intros O On En (F1 & F2 & F3 & F4 & F5 & F6). unfold go_client, emit_client. imported.
  replace (bs "__cr_idx = [" ++ itoa (Z.of_nat (length (co_idx o))) ++ bs "][]clientTuple{" ++ nl ++ emit_files emit_client_tuple names (co_idx o) ++ bs "}" ++ nl ++
    emit_patterns (bs "__cr_re") (co_re o) ++
    bs "__cr_ef = []engineFn{" ++ nl ++ flat_map (fun f => emit_ef f ++ bs "," ++ nl) (co_ef o) ++ bs "}" ++ nl ++
    bs "__cr_ev = map[entry.Entry64]int32{" ++ nl ++
    flat_map (fun kv => hex_u64 (fst kv) ++ bs ":" ++ hex_i32 (snd kv) ++ bs "," ++ nl) (co_ev o) ++ bs "}" ++ nl ++
    emit_patterns (bs "__cr_evre") (co_evre o) ++ emit_buf (bs "__cr_buf") (co_buf o))
  with (bs "__cr_idx = [" ++ itoa (Z.of_nat (length (co_idx o))) ++ (bs "][]clientTuple{" ++ nl) ++ emit_files emit_client_tuple names (co_idx o) ++ bs "}" ++ nl ++
    emit_patterns (bs "__cr_re") (co_re o) ++
    (bs "__cr_ef = []engineFn{" ++ nl) ++ flat_map (fun f => emit_ef f ++ bs "," ++ nl) (co_ef o) ++ bs "}" ++ nl ++
    (bs "__cr_ev = map[entry.Entry64]int32{" ++ nl) ++
    concat (map (fun kv => hex_u64 (fst kv) ++ bs ":" ++ hex_i32 (snd kv) ++ bs "," ++ nl) (co_ev o)) ++ bs "}" ++ nl ++
    emit_patterns (bs "__cr_evre") (co_evre o) ++ emit_buf (bs "__cr_buf") (co_buf o))
    by (rewrite <- (flat_concat (fun kv => hex_u64 (fst kv) ++ bs ":" ++ hex_i32 (snd kv) ++ bs "," ++ nl)), <- !app_assoc; reflexivity).
  apply seq_assoc.
  apply (bind_array a_client _ _ _ emit_client_tuple client_fits names (co_idx o) (removelast (pieces (bs "][]clientTuple{"))));
    [eapply no_brace_the; reflexivity|exact element_client|exact En|exact On|exact F1|lexing|reflexivity|lexing|reflexivity|].
  apply seq_assoc. apply (bind_patterns _ (bs "__cr_re") (removelast (pieces (bs "__cr_re = []*regexp.Regexp{")))); [reflexivity|lexing|exact F2|].
  apply seq_assoc. apply (bind_list a_function _ _ (removelast (pieces (bs "__cr_ef = []engineFn{"))) _ _ function_fits);
    [eapply no_brace_the; reflexivity|reflexivity|lexing|exact element_function|exact F3|].
  apply seq_assoc. apply (bind_map an_int32 _ _ (removelast (pieces (bs "__cr_ev = map[entry.Entry64]int32{"))) _ _ (co_ev o)); [reflexivity|lexing| |exact F5|].
  { clear F5. induction F4 as [|kv l [U I] F IH]; constructor; [apply element_pair; [exact U|apply readsN_i32; exact I]|exact IH]. }
  apply seq_assoc. apply (bind_patterns _ (bs "__cr_evre") (removelast (pieces (bs "__cr_evre = []*regexp.Regexp{")))); [reflexivity|lexing|exact F6|].
  apply seq_assoc. apply (bind_buf _ (bs "__cr_buf") (removelast (pieces (bs "__cr_buf = []byte{")))); [reflexivity|lexing|].
  the_end. destruct o. apply reads_ret.
Qed.
Lemma os_declares args o : Forall one_line args -> os_out_fits o -> declares go_os (emit_os args o) o.
Proof.
  intros O (F1 & F2 & F3). unfold go_os, emit_os. imported.
  replace (bs "__or_os = []osTuple{" ++ nl ++ flat_map (fun t => emit_os_tuple t ++ nl) (oo_os o) ++ bs "}" ++ nl ++
    bs "__or_ov = []osVersionTuple{" ++ nl ++ flat_map (fun t => emit_ov_tuple t ++ nl) (oo_ov o) ++ bs "}" ++ nl ++
    emit_patterns (bs "__or_re") (oo_re o) ++ emit_buf (bs "__or_buf") (oo_buf o))
  with ((bs "__or_os = []osTuple{" ++ nl) ++ flat_map (fun t => emit_os_tuple t ++ nl) (oo_os o) ++ bs "}" ++ nl ++
    (bs "__or_ov = []osVersionTuple{" ++ nl) ++ flat_map (fun t => emit_ov_tuple t ++ nl) (oo_ov o) ++ bs "}" ++ nl ++
    emit_patterns (bs "__or_re") (oo_re o) ++ emit_buf (bs "__or_buf") (oo_buf o)) by (rewrite <- !app_assoc; reflexivity).
  apply seq_assoc. apply (bind_list an_os _ _ (removelast (pieces (bs "__or_os = []osTuple{"))) _ _ os_fits);
    [eapply no_brace_the; reflexivity|reflexivity|lexing|exact element_os|exact F1|].
  apply seq_assoc. apply (bind_list an_os_version _ _ (removelast (pieces (bs "__or_ov = []osVersionTuple{"))) _ _ os_version_fits);
    [eapply no_brace_the; reflexivity|reflexivity|lexing|exact element_os_version|exact F2|].
  apply seq_assoc. apply (bind_patterns _ (bs "__or_re") (removelast (pieces (bs "__or_re = []*regexp.Regexp{")))); [reflexivity|lexing|exact F3|].
  apply seq_assoc. apply (bind_buf _ (bs "__or_buf") (removelast (pieces (bs "__or_buf = []byte{")))); [reflexivity|lexing|].
  the_end. destruct o. apply reads_ret.
Qed.
Lemma device_declares args names o : Forall one_line args -> Forall one_line names -> length names = length (do_idx o) ->
  device_out_fits o -> declares go_device (emit_device args names o) o.
Proof.
  intros O On En (F1 & F2 & F3). unfold go_device, emit_device. imported.
  replace (bs "__dr_idx = [" ++ itoa (Z.of_nat (length (do_idx o))) ++ bs "][]deviceTuple{" ++ nl ++ emit_files emit_device_tuple names (do_idx o) ++ bs "}" ++ nl ++
    bs "__dr_dm = []modelTuple{" ++ nl ++ flat_map (fun t => emit_model_tuple t ++ bs "," ++ nl) (do_dm o) ++ bs "}" ++ nl ++
    emit_patterns (bs "__dr_re") (do_re o) ++ emit_buf (bs "__dr_buf") (do_buf o))
  with (bs "__dr_idx = [" ++ itoa (Z.of_nat (length (do_idx o))) ++ (bs "][]deviceTuple{" ++ nl) ++ emit_files emit_device_tuple names (do_idx o) ++ bs "}" ++ nl ++
    (bs "__dr_dm = []modelTuple{" ++ nl) ++ flat_map (fun t => emit_model_tuple t ++ bs "," ++ nl) (do_dm o) ++ bs "}" ++ nl ++
    emit_patterns (bs "__dr_re") (do_re o) ++ emit_buf (bs "__dr_buf") (do_buf o)) by (rewrite <- !app_assoc; reflexivity).
  apply seq_assoc.
  apply (bind_array a_device _ _ _ emit_device_tuple device_fits names (do_idx o) (removelast (pieces (bs "][]deviceTuple{"))));
    [eapply no_brace_the; reflexivity|exact element_device|exact En|exact On|exact F1|lexing|reflexivity|lexing|reflexivity|].
  apply seq_assoc. apply (bind_list a_model _ _ (removelast (pieces (bs "__dr_dm = []modelTuple{"))) _ _ model_fits);
    [eapply no_brace_the; reflexivity|reflexivity|lexing|exact element_model|exact F2|].
  apply seq_assoc. apply (bind_patterns _ (bs "__dr_re") (removelast (pieces (bs "__dr_re = []*regexp.Regexp{")))); [reflexivity|lexing|exact F3|].
  apply seq_assoc. apply (bind_buf _ (bs "__dr_buf") (removelast (pieces (bs "__dr_buf = []byte{")))); [reflexivity|lexing|].
  the_end. destruct o. apply reads_ret.
Qed.
Lemma vendor_declares args o : Forall one_line args -> vendor_out_fits o -> declares go_vendor (emit_vendor args o) o.
Proof.
  intros O (F1 & F2). unfold go_vendor, emit_vendor. imported.
  replace (bs "__vr_idx = []vendorTuple{" ++ nl ++ flat_map (fun t => emit_vendor_tuple t ++ bs "," ++ nl) (vo_idx o) ++ bs "}" ++ nl ++
    emit_patterns (bs "__vr_re") (vo_re o) ++ emit_buf (bs "__vr_buf") (vo_buf o))
  with ((bs "__vr_idx = []vendorTuple{" ++ nl) ++ flat_map (fun t => emit_vendor_tuple t ++ bs "," ++ nl) (vo_idx o) ++ bs "}" ++ nl ++
    emit_patterns (bs "__vr_re") (vo_re o) ++ emit_buf (bs "__vr_buf") (vo_buf o)) by (rewrite <- !app_assoc; reflexivity).
  apply seq_assoc. apply (bind_list a_vendor _ _ (removelast (pieces (bs "__vr_idx = []vendorTuple{"))) _ _ (fun t => u64 (vt_brand64 t) /\ u64 (vt_range64 t)));
    [eapply no_brace_the; reflexivity|reflexivity|lexing|exact element_vendor|exact F1|].
  apply seq_assoc. apply (bind_patterns _ (bs "__vr_re") (removelast (pieces (bs "__vr_re = []*regexp.Regexp{")))); [reflexivity|lexing|exact F2|].
  apply seq_assoc. apply (bind_buf _ (bs "__vr_buf") (removelast (pieces (bs "__vr_buf = []byte{")))); [reflexivity|lexing|].
  the_end. destruct o. apply reads_ret.
Qed.
(** Hints: a comment before the pairs of each file. *)
Lemma blank_app s s' ts : lexes0 s [] -> lexes0 s' ts -> lexes0 (s ++ s') ts.
Proof. intros H H' l rest E. rewrite <- app_assoc, (H _ _ E). exact (H' l rest E). Qed.
Definition pair_text (kv : N * N) : bytes := hex_u64 (fst kv) ++ bs ":" ++ hex_u64 (snd kv) ++ bs "," ++ nl.
Lemma pair_elem kv : u64 (fst kv) /\ u64 (snd kv) -> elem_ok (a_pair an_entry an_entry) (pair_text kv) kv.
Proof. intros [H H']. apply (element_pair an_entry hex_u64); [exact H|apply readsN_u64; exact H']. Qed.
Lemma pairs_texts files : forall l pre, Forall (fun kv => u64 (fst kv) /\ u64 (snd kv)) l -> Forall (fun f => one_line (fst f)) files ->
  list_sum (map snd files) = length l -> lexes0 pre [] ->
  exists ss c, pre ++ emit_pairs files l = concat ss ++ c /\ Forall2 (elem_ok (a_pair an_entry an_entry)) ss l /\ lexes0 c [].
Proof.
  induction files as [|[name n] files IH]; intros l pre F O E P.
  - destruct l; [|discriminate E]. exists [], pre. split; [rewrite app_nil_r; reflexivity|]. split; [constructor|exact P].
  - inversion O as [|? ? O1 O2]; subst. cbn [fst] in O1. cbn [map snd] in E. change (list_sum (n :: map snd files)) with (n + list_sum (map snd files)) in E.
    assert (Lc : lexes0 (pre ++ bs "// " ++ name ++ nl) []) by (apply blank_app; [exact P|apply lexes0_comment; exact O1]).
    assert (F2 : Forall (fun kv => u64 (fst kv) /\ u64 (snd kv)) (skipn n l)).
    { rewrite <- (firstn_skipn n l) in F. apply Forall_app in F as [_ F]. exact F. }
    assert (F1 : Forall (fun kv => u64 (fst kv) /\ u64 (snd kv)) (firstn n l)).
    { rewrite <- (firstn_skipn n l) in F. apply Forall_app in F as [F _]. exact F. }
    assert (E2 : list_sum (map snd files) = length (skipn n l)) by (rewrite skipn_length; lia).
    cbn [emit_pairs]. fold pair_text. pose proof (firstn_skipn n l) as Sp. destruct (firstn n l) as [|kv l1] eqn:E1.
    + destruct (IH (skipn n l) (pre ++ bs "// " ++ name ++ nl) F2 O2 E2 Lc) as (ss & c & Et & Fs & C).
      exists ss, c. split; [|split; [|exact C]].
      * rewrite <- Et. cbn [flat_map app]. rewrite <- !app_assoc. reflexivity.
      * cbn [app] in Sp. rewrite Sp in Fs. exact Fs.
    + destruct (IH (skipn n l) [] F2 O2 E2 lexes0_nil) as (ss & c & Et & Fs & C). cbn [app] in Et.
      exists ((((pre ++ bs "// " ++ name ++ nl) ++ pair_text kv) :: map pair_text l1) ++ ss), c. split; [|split; [|exact C]].
      * rewrite Et. cbn [flat_map]. rewrite flat_concat, concat_app. cbn [concat]. rewrite <- !app_assoc. reflexivity.
      * rewrite <- Sp. apply Forall2_app; [|exact Fs]. inversion F1 as [|? ? H1 H2]; subst. constructor.
        -- destruct (pair_elem kv H1) as (ts & L & T). exists ts. split; [apply blank_app; [exact Lc|exact L]|exact T].
        -- clear -H2. induction H2 as [|x l H F IH]; constructor; [apply pair_elem; exact H|exact IH].
Qed.
Lemma hint_declares args files o : Forall one_line args -> Forall (fun f => one_line (fst f)) files ->
  list_sum (map snd files) = length (ho_idx o) -> hint_out_fits o -> declares go_hint (emit_hint args files o) o.
Proof.
  intros O Of E (F & ND). unfold go_hint, emit_hint. imported.
  destruct (pairs_texts files (ho_idx o) [] F Of E lexes0_nil) as (ss & c & Et & Fs & C). cbn [app] in Et. rewrite Et.
  replace (bs "__hr_idx = map[uint64]entry.Entry64{" ++ nl ++ (concat ss ++ c) ++ bs "}" ++ nl ++ emit_buf (bs "__hr_buf") (ho_buf o))
    with (((bs "__hr_idx = map[uint64]entry.Entry64{" ++ nl) ++ concat ss ++ c ++ bs "}" ++ nl) ++ emit_buf (bs "__hr_buf") (ho_buf o))
    by (rewrite <- !app_assoc; reflexivity).
  apply seq_assoc. refine (reads_bind _ _ _ (ho_idx o) _ _ _ _).
  - unfold go_map. apply (reads_check _ (fun l => distinct (map fst l))); [|apply distinct_nodup; exact ND].
    apply (reads_variable _ _ (removelast (pieces (bs "__hr_idx = map[uint64]entry.Entry64{"))));
      [exact (no_brace_entry _)|reflexivity|lexing|exact Fs|]. apply blank_app; [exact C|exact lexes0_end].
  - apply seq_assoc. apply (bind_buf _ (bs "__hr_buf") (removelast (pieces (bs "__hr_buf = []byte{")))); [reflexivity|lexing|].
    the_end. destruct o. apply reads_ret.
Qed.

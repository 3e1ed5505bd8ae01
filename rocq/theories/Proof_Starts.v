(** Which patterns parse: (?i) does not matter, text may follow, and the tables built from a database start. *)
From Verif Require Import Model_Base Model_Version Model_Ctx Model_Regex Model_Shipped Model_Compiler Model_Built Data_Tiny Spec_Database Spec_Starts
  Proof_Base Proof_Regex Proof_Pattern Proof_Compiler Proof_Built Proof_Word Proof_Writable.
From Coq Require Import Lia ZifyBool ZifyNat ZifyN.
From Coq Require Import Strings.Byte.
Open Scope nat_scope.

(** ** Letter case does not decide what is a pattern *)
Lemma perl_fold fold fold' e : perl_class fold e = None -> perl_class fold' e = None.
Proof. unfold perl_class. destruct (e =? 100)%N; [discriminate|]. destruct (e =? 119)%N; [discriminate|]. destruct (e =? 115)%N; [discriminate|]. reflexivity. Qed.
Lemma perl_fold_some fold fold' e rs : perl_class fold e = Some rs -> exists rs', perl_class fold' e = Some rs'.
Proof.
  intros H. destruct (perl_class fold' e) as [x|] eqn:E; [exists x; reflexivity|]. apply (perl_fold fold' fold) in E. congruence.
Qed.
Lemma class_fold fold fold' : forall f first s acc acc' rs r, class_items f fold first s acc = Some (rs, r) ->
  exists rs', class_items f fold' first s acc' = Some (rs', r).
Proof.
  induction f as [|f IH]; intros first s acc acc' rs r H; [discriminate H|]. cbn [class_items] in H |- *. destruct s as [|c s]; [discriminate H|].
  destruct ((c =? 93)%N && negb first). { injection H as <- <-. eexists. reflexivity. }
  destruct (if (c =? 92)%N then match s with e :: _ => perl_class fold e | [] => None end else None) as [p|] eqn:E.
  - assert (E2 : exists p', (if (c =? 92)%N then match s with e :: _ => perl_class fold' e | [] => None end else None) = Some p').
    { destruct (c =? 92)%N; [|discriminate E]. destruct s as [|e s]; [discriminate E|]. exact (perl_fold_some _ fold' _ _ E). }
    destruct E2 as [p' ->]. exact (IH _ _ _ _ _ _ H).
  - assert (E2 : (if (c =? 92)%N then match s with e :: _ => perl_class fold' e | [] => None end else None) = None).
    { destruct (c =? 92)%N; [|reflexivity]. destruct s as [|e s]; [reflexivity|]. exact (perl_fold _ fold' _ E). }
    rewrite E2. destruct (class_char (c :: s)) as [[lo u]|]; [|discriminate H]. destruct u as [|d [|x u]]; try exact (IH _ _ _ _ _ _ H).
    destruct ((d =? 45)%N && negb (x =? 93)%N); [|exact (IH _ _ _ _ _ _ H)].
    destruct (class_char (tl (d :: x :: u))) as [[hi u']|]; [|discriminate H]. destruct (hi <? lo)%N; [discriminate H|]. exact (IH _ _ _ _ _ _ H).
Qed.
Lemma pclass_fold fold fold' s a r : parse_class fold s = Some (a, r) -> exists a', parse_class fold' s = Some (a', r).
Proof.
  unfold parse_class. destruct (match s with c :: s' => if (c =? 94)%N then (true, s') else (false, s) | [] => (false, s) end) as [neg s1].
  destruct (class_items (S (length s1)) fold true s1 []) as [[rs q]|] eqn:E; [|discriminate]. intros [= <- <-].
  destruct (class_fold _ fold' _ _ _ _ [] _ _ E) as [rs' ->]. eexists. reflexivity.
Qed.
Definition alt_fold f fold fold' : Prop := forall n s a n1 r, parse_alt f fold n s = Some (a, n1, r) -> exists a', parse_alt f fold' n s = Some (a', n1, r).
Definition seq_fold f fold fold' : Prop := forall n s acc acc' a n1 r, parse_seq f fold n s acc = Some (a, n1, r) -> exists a', parse_seq f fold' n s acc' = Some (a', n1, r).
Lemma atom_fold f fold fold' : alt_fold f fold fold' -> forall n c s a n1 r, atom f fold n c s = Some (a, n1, r) -> exists a', atom f fold' n c s = Some (a', n1, r).
Proof.
  intros A n c s a n1 r. unfold atom.
  assert (G : forall m s (b : re -> re), (match parse_alt f fold m s with Some (a, n1, e :: s3) => if (e =? 41)%N then Some (b a, n1, s3) else None | _ => None end) = Some (a, n1, r) ->
     exists a', (match parse_alt f fold' m s with Some (a, n1, e :: s3) => if (e =? 41)%N then Some (b a, n1, s3) else None | _ => None end) = Some (a', n1, r)).
  { intros m s0 b. destruct (parse_alt f fold m s0) as [[[x nx] [|e s3]]|] eqn:E; try discriminate. destruct (A _ _ _ _ _ E) as [x' ->].
    destruct (e =? 41)%N; [|discriminate]. intros [= <- <- <-]. eexists. reflexivity. }
  destruct (c =? 40)%N.
  - destruct s as [|q [|d s]]; [exact (G _ _ (Grp (S n)))|exact (G _ _ (Grp (S n)))|]. destruct (q =? 63)%N; [|exact (G _ _ (Grp (S n)))].
    destruct (d =? 58)%N; [|discriminate]. exact (G _ _ (fun x => x)).
  - destruct (c =? 91)%N.
    + destruct (parse_class fold s) as [[x q]|] eqn:E; [|discriminate]. intros [= <- <- <-]. destruct (pclass_fold _ fold' _ _ _ E) as [x' ->]. eexists. reflexivity.
    + destruct (c =? 92)%N.
      * destruct s as [|e s]; [discriminate|]. destruct (perl_class fold e) eqn:E.
        -- intros [= <- <- <-]. destruct (perl_fold_some _ fold' _ _ E) as [x' ->]. eexists. reflexivity.
        -- rewrite (perl_fold _ fold' _ E). destruct (is_punct e); [|discriminate]. intros [= <- <- <-]. eexists. reflexivity.
      * repeat (match goal with |- (if ?b then _ else _) = _ -> _ => destruct b end; try discriminate; try (intros [= <- <- <-]; eexists; reflexivity)).
Qed.
Lemma parse_fold fold fold' : forall f, alt_fold f fold fold' /\ seq_fold f fold fold'.
Proof.
  induction f as [|f [IHa IHs]]; split.
  - intros n s a n1 r H. discriminate H.
  - intros n s acc acc' a n1 r H. discriminate H.
  - intros n s a n1 r H. cbn [parse_alt] in H |- *. destruct (parse_seq f fold n s Eps) as [[[x nx] s1]|] eqn:E; [|discriminate H].
    destruct (IHs _ _ _ Eps _ _ _ E) as [x' ->]. destruct s1 as [|c s1]; [injection H as <- <- <-; eexists; reflexivity|].
    destruct (c =? 124)%N; [|injection H as <- <- <-; eexists; reflexivity].
    destruct (parse_alt f fold nx s1) as [[[b n2] s2]|] eqn:E2; [|discriminate H]. injection H as <- <- <-. destruct (IHa _ _ _ _ _ E2) as [b' ->]. eexists. reflexivity.
  - intros n s acc acc' a n1 r H. destruct s as [|c s]; [injection H as <- <- <-; eexists; reflexivity|]. rewrite seq_step in H |- *.
    destruct ((c =? 124)%N || (c =? 41)%N); [injection H as <- <- <-; eexists; reflexivity|].
    destruct (atom f fold n c s) as [[[x nx] s1]|] eqn:E; [|discriminate H]. destruct (atom_fold _ _ fold' IHa _ _ _ _ _ _ E) as [x' ->].
    destruct (parse_quant s1) as [[[mn mx] s2]|]; [|exact (IHs _ _ _ _ _ _ _ H)].
    destruct (after s2) as [g s3]. destruct (parse_quant s3) as [[[? ?] ?]|]; [discriminate H|]. exact (IHs _ _ _ _ _ _ _ H).
Qed.

(** ** Text behind a pattern *)
(** What parses after anything, given [L] steps. *)
Definition tail_ok (fold : bool) (t : list N) (L : nat) : Prop := forall f n acc, L <= f -> exists a n1, parse_seq f fold n t acc = Some (a, n1, []).
Lemma alt_then fold t L : fresh t -> tail_ok fold t L -> forall f n s a n1, parse_alt f fold n s = Some (a, n1, []) ->
  forall f', f + L <= f' -> exists a' n2, parse_alt f' fold n (s ++ t) = Some (a', n2, []).
Proof.
  intros F T. induction f as [|f IH]; intros n s a n1 H f' Lf; [discriminate H|]. destruct f' as [|g]; [lia|]. cbn [parse_alt] in H |- *.
  destruct (parse_seq f fold n s Eps) as [[[x nx] [|c s1]]|] eqn:E; [| |discriminate H].
  - destruct (seq_then fold t F f n s Eps x nx E) as (k & Lk & K). replace g with (k + (g - k)) by lia. rewrite K by lia.
    destruct (T (g - k) nx x) as (a' & n2 & ->); [lia|]. do 2 eexists. reflexivity.
  - destruct (c =? 124)%N eqn:Ec; [|discriminate H]. destruct (parse_alt f fold nx s1) as [[[b n2] s2]|] eqn:E2; [|discriminate H]. injection H as <- <- ->.
    rewrite (proj2 (parse_more fold t F f) g n s Eps x nx (c :: s1)) by (try exact E; try lia; left; discriminate). cbn [app]. rewrite Ec.
    destruct (IH _ _ _ _ E2 g) as (a' & n3 & ->); [lia|]. do 2 eexists. reflexivity.
Qed.
Lemma vtail_ok : tail_ok false vtail 2.
Proof. intros f n acc L. destruct f as [|[|f]]; [lia|lia|]. do 2 eexists. apply parse_vtail. Qed.
Definition etail : list N := map bn (bs "\s*[/\s]\s*(\d+(?:.\d+)+)").
Lemma etail_ok : tail_ok true etail 20.
Proof.
  intros f n acc L. replace f with (20 + (f - 20)) by lia. set (g := f - 20).
  assert (X : exists a n1, parse_seq (20 + g) true n etail Eps = Some (a, n1, [])) by (do 2 eexists; vm_compute; reflexivity).
  destruct X as (a & n1 & X). destruct (proj2 (parse_fold true true (20 + g)) n etail Eps acc a n1 [] X) as [a' E]. exists a', n1. exact E.
Qed.

(** ** The patterns that are written *)
Lemma fresh_v : fresh vtail.
Proof. exists 91%N, (map bn (bs "^a-z0-9]+")). split; [reflexivity|]. split; [intros I; cbn [In] in I; lia|reflexivity]. Qed.
Lemma fresh_e : fresh etail.
Proof. exists 92%N, (map bn (bs "s*[/\s]\s*(\d+(?:.\d+)+)")). split; [reflexivity|]. split; [intros I; cbn [In] in I; lia|reflexivity]. Qed.
Lemma pattern_case p : pattern p -> parse_re (any_case p) <> None.
Proof.
  intros [P F] H. apply P. rewrite (parse_no_flag p (runes_no_flag p F)). rewrite parse_any_case in H. set (cs := map fst (runes p)) in *.
  destruct (parse_alt (2 * length cs + 2) false 0 cs) as [[[a n] [|c r]]|] eqn:E; [|reflexivity|reflexivity].
  destruct (proj1 (parse_fold false true (2 * length cs + 2)) _ _ _ _ _ E) as [a' E']. rewrite E' in H. discriminate H.
Qed.
Lemma pattern_word p : pattern p -> parse_re (client_re p) <> None.
Proof.
  intros P. change (client_re p) with (word_start p). destruct (parse_re (any_case p)) as [[a n]|] eqn:E; [|destruct (pattern_case p P E)].
  rewrite (parse_word_start p a n E). discriminate.
Qed.
Lemma pattern_vendor p : pattern p -> parse_re (p ++ bs "[^a-z0-9]+") <> None.
Proof.
  intros [P F]. pose proof (runes_no_flag p F) as NF. rewrite (parse_no_flag p NF) in P. set (cs := map fst (runes p)) in *.
  assert (E : map fst (runes (p ++ bs "[^a-z0-9]+")) = cs ++ vtail).
  { change (bs "[^a-z0-9]+") with (x5b :: bs "^a-z0-9]+"). rewrite (runes_more x5b _ ltac:(reflexivity) (length p) p (le_n _)), map_app. reflexivity. }
  rewrite parse_no_flag by (rewrite E; apply no_flag_more; exact NF). rewrite E.
  destruct (parse_alt (2 * length cs + 2) false 0 cs) as [[[a n] [|c r]]|] eqn:Ea; [|destruct (P eq_refl)|destruct (P eq_refl)].
  destruct (alt_then false vtail 2 fresh_v vtail_ok _ _ _ _ _ Ea (2 * length (cs ++ vtail) + 2)) as (a' & n2 & ->); [|discriminate].
  rewrite app_length. change (length vtail) with 10. lia.
Qed.
Lemma pattern_engine p : pattern p -> parse_re (any_case (p ++ bs "\s*[/\s]\s*(\d+(?:.\d+)+)")) <> None.
Proof.
  intros P. apply pattern_case in P. rewrite parse_any_case in P |- *. set (cs := map fst (runes p)) in *.
  assert (E : map fst (runes (p ++ bs "\s*[/\s]\s*(\d+(?:.\d+)+)")) = cs ++ etail).
  { change (bs "\s*[/\s]\s*(\d+(?:.\d+)+)") with (x5c :: bs "s*[/\s]\s*(\d+(?:.\d+)+)"). rewrite (runes_more x5c _ ltac:(reflexivity) (length p) p (le_n _)), map_app. reflexivity. }
  rewrite E. destruct (parse_alt (2 * length cs + 2) true 0 cs) as [[[a n] [|c r]]|] eqn:Ea; [|destruct (P eq_refl)|destruct (P eq_refl)].
  destruct (alt_then true etail 20 fresh_e etail_ok _ _ _ _ _ Ea (2 * length (cs ++ etail) + 2)) as (a' & n2 & ->); [|discriminate].
  rewrite app_length. change (length etail) with 25. lia.
Qed.
Lemma engine_starts e : (e <> bs "Gecko" -> e <> bs "Blink" -> pattern e) -> parse_re (ci (engine_pattern e)) <> None.
Proof.
  intros P. unfold engine_pattern. destruct (beqs e (bs "Gecko")) eqn:G; [vm_compute; discriminate|]. change (ci ?x) with (any_case x).
  destruct (beqs e (bs "Blink")) eqn:B; [vm_compute; discriminate|]. apply pattern_engine. apply P; intros ->; [discriminate G|discriminate B].
Qed.

(** ** The tables *)
Lemma entries_inv {A B S} (f : A -> S -> B * S) (P : A -> Prop) (I : S -> Prop) : (forall a s, P a -> I s -> I (snd (f a s))) ->
  forall l s, Forall P l -> I s -> I (snd (compile_entries f l s)).
Proof.
  intros F. induction l as [|a l IH]; intros s W G; [exact G|]. inversion W as [|? ? W1 W2]; subst. cbn [compile_entries].
  specialize (F a s W1 G). destruct (f a s) as [x s1]. specialize (IH s1 W2 F). destruct (compile_entries f l s1) as [xs s2]. exact IH.
Qed.
Section Starts.
Variable K : compiler.
Definition fine (repl : bytes -> option bytes) (rs : bytes) : Prop := forall p, made repl rs p -> k_valid K p = true -> pattern p.
Lemma norm_made repl rs : made repl rs (match repl (norm rs) with Some x => x | None => norm rs end).
Proof. destruct (normalize_total rs) as (n & E & _). exists n. unfold norm. rewrite E. split; reflexivity. Qed.
Lemma match_starts repl rs b re ri m b' re' : add_match (k_valid K) repl rs b re = (ri, m, b', re') -> fine repl rs -> Forall pattern re -> Forall pattern re'.
Proof.
  unfold add_match. intros H C. revert H. destruct (is_regex rs).
  - pose proof (C _ (norm_made repl rs)) as P. set (p := match repl (norm rs) with Some x => x | None => norm rs end) in *.
    destruct (k_valid K p); intros [= <- <- <- <-] F; [|exact F].
    apply Forall_app. split; [exact F|]. constructor; [exact (P eq_refl)|constructor].
  - destruct (buf_add rs b). intros [= <- <- <- <-] F. exact F.
Qed.
Definition named (G : bytes -> Prop) (y : yclient) : Prop := fine (k_client K) (yc_regex y) /\
  forall g, yc_engine y = Some g -> G (ye_default g) /\ Forall G (map snd (ye_versions g)).
Lemma client1_starts G y k : named G y -> Forall pattern (k_re k) /\ Forall G (k_eng k) ->
  Forall pattern (k_re (snd (one K y k))) /\ Forall G (k_eng (snd (one K y k))).
Proof.
  intros [Cy N] [F1 F3]. unfold one, compile_client1. destruct (add_match _ _ (yc_regex y) (k_buf k) (k_re k)) as [[[ri m64] b1] re1] eqn:E1.
  destruct (add_opt (yc_name y) b1) as [br64 b2]. destruct (client_version64 (yc_version y) b2) as [[vi v64] b3].
  match goal with |- context [let (_, _) := ?t in _] => destruct t as [[[[en64 fi] b4] ef4] eng4] eqn:E4 end.
  destruct (add_opt (yc_url y) b4) as [u b5]. destruct (add_opt (yc_type y) b5) as [t b6]. cbn [snd k_re k_eng].
  split; [exact (match_starts _ _ _ _ _ _ _ _ E1 Cy F1)|].
  destruct (yc_engine y) as [e|]; [|injection E4 as <- <- <- <- <-; exact F3]. destruct (N e eq_refl) as [Nd Nv]. destruct (add_opt (ye_default e) b3) as [d c1].
  assert (G1 : Forall G (match ye_default e with [] => k_eng k | _ :: _ => ye_default e :: k_eng k end)).
  { destruct (ye_default e); [exact F3|]. constructor; [exact Nd|exact F3]. }
  destruct (ye_versions e) as [|v0 vs] eqn:Ev; [injection E4 as <- <- <- <- <-; exact G1|].
  destruct (ef e d c1) as [fn c2]. injection E4 as <- <- <- <- <-.
  change (Forall G (map snd (v0 :: vs) ++ match ye_default e with [] => k_eng k | _ :: _ => ye_default e :: k_eng k end)).
  apply Forall_app. split; [exact Nv|exact G1].
Qed.
Lemma client_starts G files : Forall (Forall (named G)) files -> (forall e, G e -> e <> [] -> e <> bs "Gecko" -> e <> bs "Blink" -> pattern e) ->
  let o := compile_client (k_valid K) (k_client K) files in
  Forall (fun p => parse_re p <> None) (co_re o) /\ Forall (fun p => parse_re p <> None) (co_evre o).
Proof.
  intros W HG. unfold compile_client. fold (one K).
  pose proof (entries_inv (compile_entries (one K)) (Forall (named G)) (fun k => Forall pattern (k_re k) /\ Forall G (k_eng k))
    (fun f k => entries_inv (one K) (named G) (fun k => Forall pattern (k_re k) /\ Forall G (k_eng k)) (client1_starts G) f k)
    files (mkK buf_empty [] [] []) W (conj (Forall_nil _) (Forall_nil _))) as X.
  destruct (compile_entries (compile_entries (one K)) files (mkK buf_empty [] [] [])) as [idx k]. cbn [fst snd] in X. destruct X as [F1 F3].
  destruct (compile_ev (engine_names (k_eng k)) 0 (k_buf k)) as [ev b]. cbv zeta. cbn [co_re co_evre]. split.
  - apply Forall_map. eapply Forall_impl; [|exact F1]. exact pattern_word.
  - apply Forall_map. apply Forall_forall. intros e I. apply engine_names_in in I as [N I]. apply engine_starts. rewrite Forall_forall in F3.
    exact (HG e (F3 e I) N).
Qed.
Definition vfine (v : yosver) : Prop := fine (fun _ => None) (yv_regex v).
Lemma ov1_starts y o : vfine y -> Forall pattern (o_re o) -> Forall pattern (o_re (snd (compile_ov1 (k_valid K) y o))).
Proof.
  intros C F. unfold compile_ov1. destruct (add_match _ _ (yv_regex y) (o_buf o) (o_re o)) as [[[ri m64] b1] re1] eqn:E1.
  destruct (parse_inx (yv_version y) b1) as [[vi v64] b2]. exact (match_starts _ _ _ _ _ _ _ _ E1 C F).
Qed.
Definition ofine (y : yos) : Prop := fine (k_os K) (yo_regex y) /\ Forall vfine (yo_versions y).
Lemma os1_starts y o : ofine y -> Forall pattern (o_re o) -> Forall pattern (o_re (snd (compile_os1 (k_valid K) (k_os K) y o))).
Proof.
  intros [C Cv] F. unfold compile_os1. destruct (parse_inx (yo_name y) (o_buf o)) as [[ni n64] b1].
  destruct (add_match _ _ (yo_regex y) b1 (o_re o)) as [[[ri m64] b2] re2] eqn:E2. cbv zeta. pose proof (match_starts _ _ _ _ _ _ _ _ E2 C F) as F2.
  destruct (yo_versions y) as [|v0 vs]; [destruct (parse_inx (yo_version y) b2) as [[vi v64] b3]; exact F2|].
  exact (entries_inv (compile_ov1 (k_valid K)) vfine (fun o => Forall pattern (o_re o)) ov1_starts (v0 :: vs) (mkO b2 re2 (o_ov o)) Cv F2).
Qed.
Lemma os_starts l : Forall ofine l -> Forall (fun p => parse_re p <> None) (oo_re (compile_os (k_valid K) (k_os K) l)).
Proof.
  intros W. unfold compile_os. pose proof (entries_inv (compile_os1 (k_valid K) (k_os K)) ofine (fun o => Forall pattern (o_re o)) os1_starts l
    (mkO buf_empty [] []) W (Forall_nil _)) as X.
  destruct (compile_entries (compile_os1 (k_valid K) (k_os K)) l (mkO buf_empty [] [])) as [os o]. cbn [snd] in X. cbn [oo_re].
  apply Forall_map. eapply Forall_impl; [|exact X]. exact pattern_case.
Qed.
Definition mfine (m : ymodel) : Prop := fine (k_device K) (ym_regex m).
Lemma model1_starts y d : mfine y -> Forall pattern (d_re d) -> Forall pattern (d_re (snd (compile_model1 (k_valid K) (k_device K) y d))).
Proof.
  intros C F. unfold compile_model1. destruct (add_match _ _ (ym_regex y) (d_buf d) (d_re d)) as [[[ri m64] b1] re1] eqn:E1.
  destruct (buf_add (ym_device y) b1) as [t64 b2]. destruct (buf_add (ym_model y) b2) as [n64 b3]. exact (match_starts _ _ _ _ _ _ _ _ E1 C F).
Qed.
Definition bfine (x : bytes * ybrand) : Prop :=
  (forall rs, rs = yb_regex (snd x) \/ k_static K (yb_regex (snd x)) = Some rs -> fine (k_device K) rs) /\ Forall mfine (yb_models (snd x)).
Lemma brand1_starts y d : bfine y -> Forall pattern (d_re d) -> Forall pattern (d_re (snd (compile_brand1 (k_valid K) (k_device K) (k_static K) y d))).
Proof.
  intros [C Cm] F. destruct y as [name y]. cbn [snd] in C, Cm. unfold compile_brand1. destruct (buf_add name (d_buf d)) as [br b1]. destruct (buf_add (yb_device y) b1) as [t64 b2].
  destruct (brand_match _ _ _ (yb_regex y) b2 (d_re d)) as [[[ri m64] b3] re3] eqn:E3. cbv zeta.
  assert (F3 : Forall pattern re3).
  { unfold brand_match in E3. destruct (is_regex _).
    - apply (match_starts _ _ _ _ _ _ _ _ E3); [|exact F]. apply C. destruct (k_static K (yb_regex y)); [right; reflexivity|left; reflexivity].
    - destruct (buf_add (yb_regex y) b2). injection E3 as <- <- <- <-. exact F. }
  destruct (yb_models y) as [|m0 ms].
  - destruct (yb_model y) as [|c mo]; [exact F3|]. destruct (buf_add (c :: mo) b3). exact F3.
  - exact (entries_inv (compile_model1 (k_valid K) (k_device K)) mfine (fun d => Forall pattern (d_re d)) model1_starts (m0 :: ms) (mkD b3 re3 (d_dm d)) Cm F3).
Qed.
Lemma device_starts files : Forall (Forall bfine) files -> Forall (fun p => parse_re p <> None) (do_re (compile_device (k_valid K) (k_device K) (k_static K) files)).
Proof.
  intros W. unfold compile_device. fold (dfile K). pose proof (entries_inv (dfile K) (Forall bfine) (fun d => Forall pattern (d_re d))
    (fun f d Wf H => entries_inv (compile_brand1 (k_valid K) (k_device K) (k_static K)) bfine (fun d => Forall pattern (d_re d)) brand1_starts (sort_keys f) d (sorted_all _ _ Wf) H)
    files (mkD buf_empty [] []) W (Forall_nil _)) as X.
  destruct (compile_entries (dfile K) files (mkD buf_empty [] [])) as [idx d]. cbn [snd] in X. cbn [do_re].
  apply Forall_map. eapply Forall_impl; [|exact X]. exact pattern_case.
Qed.
Definition vgood (s : cbuf * list bytes) : Prop := Forall (fun p => parse_re p <> None) (snd s).
Lemma vendor1_starts y s : Forall pattern (snd y) -> vgood s -> vgood (snd (compile_vendor1 y s)).
Proof.
  intros W F. destruct y as [name rs], s as [b re]. unfold compile_vendor1, vgood in *. cbn [fst snd] in *. destruct (buf_add name b) as [b64 b1]. cbn [snd].
  apply Forall_app. split; [exact F|]. apply Forall_map. eapply Forall_impl; [|exact W]. exact pattern_vendor.
Qed.
Lemma vendor_starts l : Forall (fun x => Forall pattern (snd x)) l -> Forall (fun p => parse_re p <> None) (vo_re (compile_vendor l)).
Proof.
  intros W. unfold compile_vendor. pose proof (entries_inv compile_vendor1 (fun x => Forall pattern (snd x)) vgood vendor1_starts (sort_keys l) (buf_empty, [])
    (sorted_all _ _ W) (Forall_nil _)) as X.
  destruct (compile_entries compile_vendor1 (sort_keys l) (buf_empty, [])) as [idx [b re]]. exact X.
Qed.
Lemma built_starts D : checks K D -> (forall e, known_engine D e -> e <> bs "Gecko" -> e <> bs "Blink" -> pattern e) ->
  (forall n ps p, In (n, ps) (db_vendor D) -> In p ps -> pattern p) -> starts (built K D).
Proof.
  intros C En Ve. unfold starts, built. cbn [cr_re cr_evre or_re dr_re vr_re].
  destruct (client_starts (fun e => e = [] \/ known_engine D e) (db_client D)) as [F1 F2].
  { apply Forall_forall. intros f If. apply Forall_forall. intros y Iy. split; [intros p A; exact (C p (AskClient _ _ _ f y If Iy A))|]. intros g Eg.
    assert (X : forall e, ye_default g = e \/ (exists v, In (v, e) (ye_versions g)) -> e = [] \/ known_engine D e).
    { intros e H. destruct e as [|b e]; [left; reflexivity|]. right. split; [discriminate|]. exists f, y, g. auto. }
    split; [apply X; left; reflexivity|]. apply Forall_forall. intros e Ie. apply in_map_iff in Ie as ([v e'] & <- & Ie). apply X. right. exists v. exact Ie. }
  { intros e [->|He] N; [contradiction|]. exact (En e He). }
  assert (X : forall l, Forall (fun p => parse_re p <> None) l -> Forall (fun r => parse_re (re_src r) <> None) (map compile l)).
  { intros l F. apply Forall_map. eapply Forall_impl; [|exact F]. intros p P. exact P. }
  repeat (apply Forall_app; split); apply X; [exact F1|exact F2| | |].
  - apply os_starts. apply Forall_forall. intros y Iy. split; [intros p A; exact (C p (AskOS _ _ _ y Iy A))|].
    apply Forall_forall. intros v Iv p A. exact (C p (AskVersion _ _ _ y v Iy Iv A)).
  - apply device_starts. apply Forall_forall. intros f If. apply Forall_forall. intros [n b] Ib. cbn [snd].
    split; [intros rs R p A; exact (C p (AskBrand _ _ _ f n b rs If Ib R A))|]. apply Forall_forall. intros m Im p A. exact (C p (AskModel _ _ _ f n b m If Ib Im A)).
  - apply vendor_starts. apply Forall_forall. intros [n ps] I. apply Forall_forall. intros p Ip. exact (Ve n ps p I Ip).
Qed.
End Starts.

(** ** Databases which uaxplc accepts although the program panics *)
Definition engine_db : database := mkDatabase [[mkYC (bs "Foo") (bs "Foo") [] (Some (mkYE (bs "C++") [])) [] []]] [] [] [] [].
Definition vendor_db : database := mkDatabase [] [] [] [(bs "Foo", [bs "foo++"])] [].
Lemma no_starts (T : tables) : existsb (fun r => match parse_re (re_src r) with None => true | Some _ => false end) (cr_evre T ++ vr_re T) = true -> ~ starts T.
Proof.
  intros H S. apply existsb_exists in H as (r & I & E). unfold starts in S. rewrite Forall_forall in S. apply (S r).
  - rewrite !in_app_iff in *. tauto.
  - destruct (parse_re (re_src r)); [discriminate E|reflexivity].
Qed.
Lemma engine_refuted : checks tiny_compiler engine_db /\ db_vendor engine_db = [] /\ ~ starts (built tiny_compiler engine_db).
Proof.
  split; [|split; [reflexivity|apply no_starts; vm_compute; reflexivity]].
  intros p A _. destruct A as [f y [<-|[]] [<-|[]] (n & E & ->)|y []|y v []|f n b rs []|f n b m []].
  vm_compute in E. injection E as <-. split; [vm_compute; discriminate|discriminate].
Qed.
Lemma vendor_refuted : checks tiny_compiler vendor_db /\ (forall e, ~ known_engine vendor_db e) /\ ~ starts (built tiny_compiler vendor_db).
Proof.
  split; [|split; [intros e (_ & f & y & g & [] & _)|apply no_starts; vm_compute; reflexivity]].
  intros p A _. destruct A as [f y []|y []|y v []|f n b rs []|f n b m []].
Qed.

(** ** The small database *)
Definition patternb (p : bytes) : bool :=
  match parse_re p with Some _ => match p with x28 :: x3f :: x69 :: x29 :: _ => false | _ => true end | None => false end.
Lemma patternb_ok p : patternb p = true -> pattern p.
Proof.
  unfold patternb, pattern. destruct (parse_re p); [|discriminate]. intros H. split; [discriminate|]. intros q ->. discriminate H.
Qed.
Definition regexes (D : database) : list bytes :=
  flat_map (map yc_regex) (db_client D) ++ flat_map (fun y => yo_regex y :: map yv_regex (yo_versions y)) (db_os D) ++
  flat_map (flat_map (fun x => yb_regex (snd x) :: map ym_regex (yb_models (snd x)))) (db_device D).
Lemma checks_tiny D : forallb (fun rs => patternb (norm rs)) (regexes D) = true -> checks tiny_compiler D.
Proof.
  intros H p A _. rewrite forallb_forall in H.
  assert (X : exists rs, In rs (regexes D) /\ made (fun _ => None) rs p).
  { unfold regexes. destruct A as [f y If Iy M|y Iy M|y v Iy Iv M|f n b rs If Ib [->|R] M|f n b m If Ib Im M]; [| | | |discriminate R|].
    - exists (yc_regex y). split; [|exact M]. rewrite !in_app_iff. left. apply in_flat_map. exists f. split; [exact If|]. apply in_map. exact Iy.
    - exists (yo_regex y). split; [|exact M]. rewrite !in_app_iff. right. left. apply in_flat_map. exists y. split; [exact Iy|]. left. reflexivity.
    - exists (yv_regex v). split; [|exact M]. rewrite !in_app_iff. right. left. apply in_flat_map. exists y. split; [exact Iy|]. right. apply in_map. exact Iv.
    - exists (yb_regex b). split; [|exact M]. rewrite !in_app_iff. right. right. apply in_flat_map. exists f. split; [exact If|]. apply in_flat_map.
      exists (n, b). split; [exact Ib|]. left. reflexivity.
    - exists (ym_regex m). split; [|exact M]. rewrite !in_app_iff. right. right. apply in_flat_map. exists f. split; [exact If|]. apply in_flat_map.
      exists (n, b). split; [exact Ib|]. right. apply in_map. exact Im. }
  destruct X as (rs & I & n & E & ->). specialize (H rs I). cbv beta in H. unfold norm in H. rewrite E in H. exact (patternb_ok _ H).
Qed.
Lemma tiny_starts : checks tiny_compiler tiny /\ (forall e, known_engine tiny e -> e <> bs "Gecko" -> e <> bs "Blink" -> pattern e) /\
  (forall n ps p, In (n, ps) (db_vendor tiny) -> In p ps -> pattern p).
Proof.
  split; [apply checks_tiny; vm_compute; reflexivity|]. split.
  - intros e (_ & f & y & g & If & Iy & Eg & H) _ _. apply patternb_ok.
    assert (X : forallb (fun f => forallb (fun y => match yc_engine y with Some g => patternb (ye_default g) && forallb (fun x => patternb (snd x)) (ye_versions g) | None => true end) f) (db_client tiny) = true)
      by (vm_compute; reflexivity).
    rewrite forallb_forall in X. specialize (X f If). cbv beta in X. rewrite forallb_forall in X. specialize (X y Iy). cbv beta in X. rewrite Eg in X. apply andb_prop in X as [X1 X2].
    destruct H as [<-|(v & I)]; [exact X1|]. rewrite forallb_forall in X2. exact (X2 _ I).
  - intros n ps p I Ip. apply patternb_ok. assert (X : forallb (fun x => forallb patternb (snd x)) (db_vendor tiny) = true) by (vm_compute; reflexivity).
    rewrite forallb_forall in X. specialize (X _ I). cbv beta in X. rewrite forallb_forall in X. exact (X p Ip).
Qed.

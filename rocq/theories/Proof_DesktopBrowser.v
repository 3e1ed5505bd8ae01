(** Chrome, Edge and Firefox on desktop systems: the answers. *)
From Verif Require Import Model_Base Model_CacheEntry Model_Regex Model_Ctx Model_Parse Model_Shipped Spec_Regex Spec_Getters Spec_Select Spec_Word Spec_Panic Spec_Family
  Proof_Base Proof_Pattern Proof_Word Proof_Covers Proof_Quick Proof_Index Proof_Shadow Proof_Bare Proof_Charset Proof_Agree Proof_Select Proof_Client Proof_Choice
  Proof_Live Proof_Tables Proof_Fine Proof_StaleShipped Proof_Reports Proof_Family Proof_Tail Proof_Desktop.
From Coq Require Import Lia ZifyBool ZifyNat ZifyN.
Open Scope nat_scope.

(** ** The families and the entries they select *)
Definition chrome_items (sys : bytes) : list item :=
  lit_items (bs "Mozilla/5.0 (" ++ sys ++ bs ") AppleWebKit/537.36 (KHTML, like Gecko) Chrome/") ++ ver_items ++ lit_items (bs " Safari/537.36").
Definition edge_items (sys : bytes) : list item :=
  lit_items (bs "Mozilla/5.0 (" ++ sys ++ bs ") AppleWebKit/537.36 (KHTML, like Gecko) Chrome/") ++ ver_items ++ lit_items (bs " Safari/537.36 Edg/") ++ ver_items.
Definition firefox_items (sys : bytes) : list item :=
  lit_items (bs "Mozilla/5.0 (" ++ sys ++ bs "; rv:") ++ ver_items ++ lit_items (bs ") Gecko/20100101 Firefox/") ++ ver_items.
(** Items, entry of the browser class, operating system entry. *)
Definition families : list (list item * (N * N)) :=
  flat_map (fun s => let sys := fst (fst s) in let o := snd s in [(chrome_items sys, (494, o)); (edge_items sys, (294, o)); (firefox_items sys, (364, o))]%N)
    (combine systems [212; 277; 328]%N).

Definition client_quick (T : tables) (t : Proof_Index.tree regex) (ps : Proof_Index.tree bytes) (x : clientTuple) : quick := quick_at t ps (ct_matchRI x) (ct_match64 x).
Definition many : N := 1000000.
Definition class_miss (T : tables) (f : clientTuple -> quick) (Fs : list (fam * N)) (i : nat) : bool :=
  match nth_error (cr_idx T) i with Some ir => if (N.of_nat (length ir) <? many)%N then table_miss f Fs 0 ir else false | None => false end.
Definition clients_miss (T : tables) (l : list (list item * N)) : bool :=
  let f := client_quick T (numbered (cr_re T)) (numbered (pages 200 (cr_buf T))) in
  let Fs := map (fun x => (fam_of (fst x), snd x)) l in
  let Fs' := map (fun x => (fst x, many)) Fs in
  if forallb (class_miss T f Fs') [2; 5; 4; 6; 3] then class_miss T f Fs 1 else false.

Lemma class_miss_ok T f Fs i ir F stop j x : class_miss T f Fs i = true -> nth_error (cr_idx T) i = Some ir -> In (F, stop) Fs -> nth_error ir j = Some x ->
  (N.of_nat j < stop)%N -> fam_miss F (f x) = true /\ (N.of_nat j < many)%N.
Proof.
  unfold class_miss. intros H E I N L. rewrite E in H. destruct (N.ltb_spec (N.of_nat (length ir)) many) as [Lm|]; [|discriminate H]. split.
  - exact (table_miss_ok f Fs ir 0 H F stop j x I N L).
  - assert (j < length ir) by (apply nth_error_Some; rewrite N; discriminate). lia.
Qed.
Section Client.
Variable T : tables.
Hypothesis CC : compiled (cr_re T).
Variable l : list (list item * N).
Hypothesis CM : clients_miss T l = true.
Lemma client_first items stop k ua mC ir x : In (items, stop) l -> fixed_first items = true -> ascii ua -> gen items (runes ua) ->
  nth_error (cr_idx T) 1 = Some ir -> nth_error ir k = Some x -> N.of_nat k = stop -> client_applies T ua x -> on mC 1 -> client_is T mC ua 1 1 x.
Proof.
  intros I FF A G E Nk <- AP O. pose proof CM as C0. unfold clients_miss in C0. cbv zeta in C0.
  set (f := client_quick T (numbered (cr_re T)) (numbered (pages 200 (cr_buf T)))) in C0.
  set (Fs := map (fun x => (fam_of (fst x), snd x)) l) in C0.
  destruct (forallb _ _) eqn:F1 in C0; [|discriminate C0]. rewrite forallb_forall in F1.
  assert (IF : In (fam_of items, N.of_nat k) Fs) by (apply (in_map (fun x => (fam_of (fst x), snd x)) l (items, N.of_nat k)); exact I).
  assert (NA : forall y, fam_miss (fam_of items) (f y) = true -> ~ client_applies T ua y) by (intros y; exact (quick_at_ok items 200 _ _ _ _ ua FF CC A G)).
  exists [(8%N, 2); (2%N, 5); (16%N, 4); (32%N, 6); (4%N, 3)], [], ir. split; [reflexivity|].
  assert (SI : forall i t, In i [2; 5; 4; 6; 3] -> client_silent T mC ua (t, i)).
  { intros i t Ii _. apply F1 in Ii. cbn [snd]. pose proof Ii as Ij. unfold class_miss in Ij. destruct (nth_error (cr_idx T) i) as [ir'|] eqn:E'; [|discriminate Ij]. exists ir'. split; [reflexivity|].
    intros y Iy. apply In_nth_error in Iy as [j Nj]. apply NA.
    assert (Lm : (N.of_nat j < many)%N).
    { destruct (N.ltb_spec (N.of_nat (length ir')) many) as [Lm|]; [|discriminate Ij]. assert (j < length ir') by (apply nth_error_Some; rewrite Nj; discriminate). lia. }
    refine (proj1 (class_miss_ok T f _ i ir' (fam_of items) many j y Ii E' _ Nj Lm)).
    apply (in_map (fun x : fam * N => (fst x, many)) Fs (fam_of items, N.of_nat k)). exact IF. }
  split; [repeat constructor; apply SI; cbn; tauto|]. split; [exact O|]. split; [exact E|].
  apply nth_error_split in Nk as (l1 & l2 & E2 & L1). exists l1, l2. split; [exact E2|]. split; [exact AP|].
  intros y Iy. apply In_nth_error in Iy as [j Nj]. apply NA.
  assert (j < length l1) by (apply nth_error_Some; rewrite Nj; discriminate).
  refine (proj1 (class_miss_ok T f Fs 1 ir (fam_of items) (N.of_nat k) j y C0 E IF _ _)); [|lia].
  rewrite E2, nth_error_app1 by lia. exact Nj.
Qed.
End Client.

(** ** The entry itself *)
Definition entry_of (T : tables) (k : nat) : option clientTuple :=
  match nth_error (cr_idx T) 1 with Some ir => nth_error ir k | None => None end.
(** Entry [k] of the browsers has the pattern [pat], takes its version from group 1, is called [name] and is not one of the broken ones. *)
Definition entry_ok (T : tables) (k : nat) (pat : re) (name : bytes) : bool :=
  match entry_of T k with
  | Some x =>
      (0 <=? ct_matchRI x)%Z && (ct_version64 x =? 0)%N && (ct_browserVI x =? 1)%Z && negb (ct_browser64 x =? 0)%N &&
      match slice64 (cr_buf T) (ct_browser64 x) with Ok s => beqs s name | Panic => false end &&
      match nth_error (cr_re T) (Z.to_nat (ct_matchRI x)) with
      | Some r => match parse_re (re_src r) with Some (a, ng) => re_eqb a pat && (ng =? 1) | None => false end
      | None => false
      end &&
      forallb (fun j => match entry_of T j with Some y => negb (tuple_eqb x y) | None => true end) [191; 279]
  | None => false
  end.
Lemma tuple_eqb_refl x : tuple_eqb x x = true.
Proof. unfold tuple_eqb. rewrite !Z.eqb_refl, !N.eqb_refl. reflexivity. Qed.
Lemma entry_ok_inv T k pat name : compiled (cr_re T) -> entry_ok T k pat name = true ->
  exists ir x r src, nth_error (cr_idx T) 1 = Some ir /\ nth_error ir k = Some x /\ (0 <= ct_matchRI x)%Z /\ ct_version64 x = 0%N /\ ct_browserVI x = 1%Z /\
    ct_browser64 x <> 0%N /\ text (cr_buf T) (ct_browser64 x) name /\ nth_error (cr_re T) (Z.to_nat (ct_matchRI x)) = Some r /\
    r = compile src /\ parse_re src = Some (pat, 1) /\ ~ broken T 1 x.
Proof.
  intros CC H. unfold entry_ok in H. unfold entry_of in H at 1. destruct (nth_error (cr_idx T) 1) as [ir|] eqn:E; [|discriminate H].
  destruct (nth_error ir k) as [x|] eqn:N; [|discriminate H].
  apply andb_prop in H as [H H7]. apply andb_prop in H as [H H6]. apply andb_prop in H as [H H5]. apply andb_prop in H as [H H4].
  apply andb_prop in H as [H H3]. apply andb_prop in H as [H1 H2].
  destruct (slice64 (cr_buf T) (ct_browser64 x)) as [s|] eqn:Sl; [|discriminate H5]. apply beqs_eq in H5 as ->.
  destruct (nth_error (cr_re T) (Z.to_nat (ct_matchRI x))) as [r|] eqn:Nr; [|discriminate H6].
  destruct (parse_re (re_src r)) as [[a ng]|] eqn:P; [|discriminate H6]. apply andb_prop in H6 as [H6 H8]. apply re_eqb_eq in H6 as ->.
  apply Nat.eqb_eq in H8 as ->.
  exists ir, x, r, (re_src r). split; [reflexivity|]. split; [exact N|]. split; [lia|]. split; [lia|]. split; [lia|]. split; [lia|].
  split; [apply text_slice; exact Sl|]. split; [exact Nr|]. split; [exact (CC r (nth_error_In _ _ Nr))|]. split; [exact P|].
  intros (ir' & j & E' & I & Nj). rewrite E in E'. injection E' as <-. rewrite forallb_forall in H7.
  assert (Ij : In j [191; 279]). { unfold broken_places in I. cbn [In] in I. repeat (destruct I as [I|I]; [inversion I; subst; cbn [In]; auto|]). destruct I. }
  specialize (H7 j Ij). unfold entry_of in H7. rewrite E, Nj in H7. rewrite tuple_eqb_refl in H7. discriminate H7.
Qed.

(** Chains of classes. *)
Definition chain (c : list (N * N)) (cs : list (list (N * N))) : re := fold_left (fun a c => Cat a (Cls false c)) cs (Cls false c).
Lemma chain_from cs : forall a u v s w, (forall w', lang a u v w') -> Forall2 (fun c b => cls_mem false c (bn b) = true) cs s ->
  lang (fold_left (fun a c => Cat a (Cls false c)) cs a) u (v ++ map chr s) w.
Proof.
  induction cs as [|c cs IH]; intros a u v s w L F; inversion F; subst; cbn [fold_left map].
  - rewrite app_nil_r. apply L.
  - change (chr y :: map chr l') with ([chr y] ++ map chr l'). rewrite app_assoc. apply IH; [|assumption]. intros w'.
    apply L_cat; [apply L|]. constructor. assumption.
Qed.
Lemma chain_lang c cs b s u w : cls_mem false c (bn b) = true -> Forall2 (fun c b => cls_mem false c (bn b) = true) cs s -> lang (chain c cs) u (map chr (b :: s)) w.
Proof. intros C F. apply (chain_from cs (Cls false c) u [chr b] s w); [|exact F]. intros w'. constructor. exact C. Qed.
Definition both (b : N) : list (N * N) := [(b, b); (b - 32, b - 32)]%N.
Definition chrome_q : re := chain (both 99) [both 104; both 114; both 111; both 109; both 101]%N.
Definition firefox_q : re := chain (both 102) [both 105; both 114; both 101; both 102; both 111; both 120]%N.
Definition edge_q : re := chain (both 101) [both 100; both 103]%N.
Definition slash : list (N * N) := [(47, 47)]%N.
Definition space_slash : list (N * N) := [(32, 32); (47, 47)]%N.
Definition chrome_re : re := Cat start_re (Cat chrome_q (Alt (Cat (Cls false slash) (Grp 1 re_body)) Eps)).
Definition firefox_re : re := Cat start_re (Cat firefox_q (Alt (Cat (Cls false space_slash) (Grp 1 re_body)) Eps)).
Definition edge_re : re := Cat start_re (Cat (Cat edge_q (Cls false space_slash)) (Grp 1 re_body)).
Lemma entries_ok : entry_ok shipped 494 chrome_re (bs "Chrome") = true /\ entry_ok shipped 364 firefox_re (bs "Firefox") = true /\
  entry_ok shipped 294 edge_re (bs "Microsoft Edge") = true.
Proof. split; [|split]; vm_compute; reflexivity. Qed.

(** ** The answers *)
Section Answers.
Variable T : tables.
Hypothesis CC : compiled (cr_re T).
Hypothesis S1 : client_sane T.
Variables (A V B : bytes).
Hypothesis HV : version_number V.
Notation ua := (sep_ua A V B).
Hypothesis Sm : Spec_Select.small ua.
Variables (mC mD : N) (k : nat) (pat : re) (name : bytes).
Hypothesis EO : entry_ok T k pat name = true.
Hypothesis CAP : forall p t, best pat (map chr ua) p t -> group_of 1 p t = span A V.
Hypothesis HA : ascii ua.
Hypothesis CI : forall x ir, nth_error (cr_idx T) 1 = Some ir -> nth_error ir k = Some x -> client_is T mC ua 1 1 x.
Hypothesis NP : forall h g, alone T mC mD h ua g <> Panic.
Lemma browser_fragment x ir frag : nth_error (cr_idx T) 1 = Some ir -> nth_error ir k = Some x -> client_fragment T ua x frag -> frag = V.
Proof.
  intros F1 F2 Fr. destruct (entry_ok_inv T k pat name CC EO) as (ir' & x' & r & src & E1 & E2 & R0 & V0 & VI & B0 & Tx & Nr & -> & P & _).
  rewrite F1 in E1. injection E1 as <-. rewrite F2 in E2. injection E2 as <-.
  assert (G : forall m, re_find (compile src) ua = Some m -> exists p t, m = groups 1 p t /\ group_of 1 p t = span A V).
  { intros m F. apply (compile_best src pat 1 ua m P) in F as (p & t & Bt & ->). exists p, t. split; [reflexivity|]. apply CAP.
    rewrite sep_runes in Bt by exact HA. exact Bt. }
  inversion Fr as [L|s' L Vn|L _ Vi|r' m s' _ _ _ Nr' F Cp|r' m _ _ _ Nr' F Ab]; subst.
  - exfalso. clear - R0 L. lia.
  - contradiction.
  - rewrite VI in Vi. discriminate Vi.
  - rewrite Nr in Nr'. injection Nr' as <-. destruct (G m F) as (p & t & -> & Sp). rewrite VI in Cp. exact (span_captured A V B p t frag Sp Cp).
  - rewrite Nr in Nr'. injection Nr' as <-. destruct (G m F) as (p & t & -> & Sp). rewrite VI in Ab. destruct (span_present A V p t Sp Ab).
Qed.
Lemma browser_answers : (forall h, alone T mC mD h ua GClientType = Ok (VN 1)) /\ alone T mC mD 0 ua GBrowser = Ok (VB name) /\
  (forall h, alone T mC mD h ua GBrowserVersionString = Ok (VB V)).
Proof.
  destruct (entry_ok_inv T k pat name CC EO) as (ir & x & r & src & E1 & E2 & R0 & V0 & VI & B0 & Tx & Nr & -> & P & _).
  pose proof (CI x ir E1 E2) as Cx.
  assert (HT : forall h, alone T mC mD h ua GClientType = Ok (VN 1)).
  { intros h. destruct (number_value T mC mD h ua GClientType ltac:(cbn; auto) (NP h GClientType)) as [t Ht].
    destruct (priority T mC mD h ua t S1 Sm Ht) as (_ & Q & _). destruct (Q 1%N 1 x Cx) as [-> _]. exact Ht. }
  split; [exact HT|]. split.
  - destruct (priority T mC mD 0 ua 1 S1 Sm (HT 0%N)) as (_ & Q & _). destruct (Q 1%N 1 x Cx) as (_ & Q1 & _). exact (Q1 name Tx B0).
  - intros h. destruct (text_value T mC mD h ua GBrowserVersionString ltac:(cbn; auto 10) (NP h GBrowserVersionString)) as [s Hs]. rewrite Hs.
    destruct (browser_version T mC mD h ua S1 Sm s Hs) as [[NC _]|(ty & idx & x' & frag & Cx' & Fr & Vf)]; [destruct (client_is_some _ _ _ _ _ _ Cx NC)|].
    destruct (client_is_unique _ _ _ _ _ _ _ _ _ Cx Cx') as (_ & _ & <-).
    rewrite (browser_fragment x ir frag E1 E2 Fr) in Vf.
    rewrite (version_self V HV s Vf). reflexivity.
Qed.
End Answers.

(** A text that matches. *)
Lemma start_space u w : lang start_re u [(32%N, 1)] w.
Proof.
  assert (E : exists c r, start_re = Alt Bol (Alt (Cls true c) r) /\ cls_mem true c 32 = true) by (eexists; eexists; split; [vm_compute; reflexivity|reflexivity]).
  destruct E as (c & r & -> & C). apply L_right, L_left. constructor. exact C.
Qed.
Lemma stops_space s : stops (map chr (x20 :: s)).
Proof. reflexivity. Qed.
Lemma star_lang neg rs v : forall u w, Forall (fun r => cls_mem neg rs (fst r) = true) v -> lang (Star true (Cls neg rs)) u v w.
Proof.
  induction v as [|[x wd] v IH]; intros u w F; [constructor|]. inversion F; subst.
  apply (L_more true (Cls neg rs) u [(x, wd)] v w); [constructor; assumption|apply IH; assumption].
Qed.
Lemma version_body V u w : version_number V -> lang re_body u (map chr V) w.
Proof.
  intros (d & r & -> & D & Nn & F & _). destruct r as [|e r]; [contradiction (Nn eq_refl)|]. inversion F as [|? ? Fe Fr]; subst.
  apply (L_cat _ _ u [chr d] (chr e :: map chr r) w).
  - apply (L_cat _ _ u [chr d] [] _); [constructor; exact (digit_d d D)|constructor].
  - apply (L_cat _ _ _ [chr e] (map chr r) w); [constructor; exact (byte_e e Fe)|]. apply star_lang. exact (chr_run r Fr).
Qed.

(** ** The three browsers *)
Definition front (sys : bytes) : bytes := bs "Mozilla/5.0 (" ++ sys.
Definition chrome_front (sys : bytes) : bytes := front sys ++ bs ") AppleWebKit/537.36 (KHTML, like Gecko) Chrome".
Definition chrome_back : bytes := bs " Safari/537.36".
Lemma chrome_sep sys v : chrome_ua sys v = sep_ua (chrome_front sys) v chrome_back.
Proof. unfold chrome_ua, sep_ua, chrome_front, front. rewrite <- !app_assoc. reflexivity. Qed.
Definition edge_front (sys c : bytes) : bytes := chrome_ua sys c ++ bs " Edg".
Lemma edge_sep sys c v : edge_ua sys c v = sep_ua (edge_front sys c) v [].
Proof. unfold edge_ua, sep_ua, edge_front. rewrite <- !app_assoc, app_nil_r. reflexivity. Qed.
Definition firefox_front (sys r : bytes) : bytes := front sys ++ bs "; rv:" ++ r ++ bs ") Gecko/20100101 Firefox".
Lemma firefox_sep sys r v : firefox_ua sys r v = sep_ua (firefox_front sys r) v [].
Proof. unfold firefox_ua, sep_ua, firefox_front, front. rewrite <- !app_assoc, app_nil_r. reflexivity. Qed.

Lemma lit_app a b : lit_items (a ++ b) = lit_items a ++ lit_items b.
Proof. apply map_app. Qed.
Lemma skip_exact {X} (a b : list X) n : n = length a -> skipn n (a ++ b) = b.
Proof. intros ->. rewrite skipn_app, skipn_all, Nat.sub_diag. reflexivity. Qed.
Lemma lit_length s : length (lit_items s) = length s. Proof. apply map_length. Qed.

Lemma chrome_gen sys v : version_number v -> gen (chrome_items sys) (map chr (chrome_ua sys v)).
Proof.
  intros Hv. unfold chrome_items, chrome_ua.
  replace (bs "Mozilla/5.0 (" ++ sys ++ bs ") AppleWebKit/537.36 (KHTML, like Gecko) Chrome/" ++ v ++ bs " Safari/537.36")
    with ((bs "Mozilla/5.0 (" ++ sys ++ bs ") AppleWebKit/537.36 (KHTML, like Gecko) Chrome/") ++ v ++ bs " Safari/537.36")
    by (rewrite <- !app_assoc; reflexivity).
  rewrite map_app. apply gen_lit. rewrite map_app. apply gen_ver; [exact Hv|].
  rewrite <- (app_nil_r (lit_items _)), <- (app_nil_r (map chr _)). apply gen_lit. constructor.
Qed.
Lemma edge_gen sys c v : version_number c -> version_number v -> gen (edge_items sys) (map chr (edge_ua sys c v)).
Proof.
  intros Hc Hv. unfold edge_items, edge_ua, chrome_ua.
  replace ((bs "Mozilla/5.0 (" ++ sys ++ bs ") AppleWebKit/537.36 (KHTML, like Gecko) Chrome/" ++ c ++ bs " Safari/537.36") ++ bs " Edg/" ++ v)
    with ((bs "Mozilla/5.0 (" ++ sys ++ bs ") AppleWebKit/537.36 (KHTML, like Gecko) Chrome/") ++ c ++ bs " Safari/537.36 Edg/" ++ v)
    by (rewrite <- !app_assoc; reflexivity).
  rewrite map_app. apply gen_lit. rewrite map_app. apply gen_ver; [exact Hc|]. rewrite map_app. apply gen_lit.
  rewrite <- (app_nil_r ver_items), <- (app_nil_r (map chr v)). apply gen_ver; [exact Hv|constructor].
Qed.
Lemma firefox_gen sys r v : version_number r -> version_number v -> gen (firefox_items sys) (map chr (firefox_ua sys r v)).
Proof.
  intros Hr Hv. unfold firefox_items, firefox_ua.
  replace (bs "Mozilla/5.0 (" ++ sys ++ bs "; rv:" ++ r ++ bs ") Gecko/20100101 Firefox/" ++ v)
    with ((bs "Mozilla/5.0 (" ++ sys ++ bs "; rv:") ++ r ++ bs ") Gecko/20100101 Firefox/" ++ v) by (rewrite <- !app_assoc; reflexivity).
  rewrite map_app. apply gen_lit. rewrite map_app. apply gen_ver; [exact Hr|]. rewrite map_app. apply gen_lit.
  rewrite <- (app_nil_r ver_items), <- (app_nil_r (map chr v)). apply gen_ver; [exact Hv|constructor].
Qed.
Lemma gen_ascii l s : gen l (map chr s) -> Forall (fun it => Forall (fun x => (x < 128)%N) (fst it)) l -> ascii s.
Proof.
  intros G. remember (map chr s) as x eqn:E. revert s E. induction G as [|cs b is x s' I G IH|cs is x s' I G IH]; intros s E F.
  - destruct s; [constructor|discriminate E].
  - destruct s as [|c s]; [discriminate E|]. injection E as -> E. inversion F as [|? ? F1 F2]; subst. constructor; [|apply IH; auto].
    cbn [fst] in F1. rewrite Forall_forall in F1. exact (F1 _ I).
  - destruct s as [|c s]; [discriminate E|]. injection E as -> E. pose proof F as F'. inversion F as [|? ? F1 F2]; subst. constructor; [|apply IH; auto].
    cbn [fst] in F1. rewrite Forall_forall in F1. exact (F1 _ I).
Qed.

(** What is computed about the families. *)
Definition fam_fine (q : re) (k : list item -> nat) (items : list item) : bool :=
  fixed_first items && forallb (fun it => forallb (fun x => (x <? 128)%N) (fst it)) items &&
  (go (fam_of items) q (f_words (fam_of items)) =? only (k items))%N.
Lemma fam_fine_inv q k items : fam_fine q k items = true -> fixed_first items = true /\ (forall s, gen items (map chr s) -> ascii s) /\
  go (fam_of items) q (f_words (fam_of items)) = only (k items).
Proof.
  intros H. apply andb_prop in H as [H H3]. apply andb_prop in H as [H1 H2]. split; [exact H1|]. split; [|apply N.eqb_eq; exact H3].
  intros s G. apply (gen_ascii items s G). apply Forall_forall. intros it I. rewrite forallb_forall in H2. specialize (H2 it I).
  apply Forall_forall. intros x Ix. rewrite forallb_forall in H2. specialize (H2 x Ix). lia.
Qed.
Definition edge_full : re := Cat edge_q (Cls false space_slash).
Lemma all_fine : forallb (fun s => fam_fine chrome_q (fun l => length l - 17) (chrome_items (fst s)) && fam_fine edge_full (fun l => length l - 2) (edge_items (fst s)) &&
  fam_fine firefox_q (fun l => length l - 3) (firefox_items (fst s))) systems = true.
Proof. vm_compute. reflexivity. Qed.
Definition client_families : list (list item * N) := map (fun x => (fst x, fst (snd x))) families.
Lemma clients_missed : clients_miss shipped client_families = true.
Proof. vm_cast_no_check (eq_refl true). Qed.

Lemma skip_chrome sys : skipn (length (chrome_items sys) - 17) (chrome_items sys) = lit_items [x2f] ++ ver_items ++ lit_items chrome_back.
Proof.
  assert (E : chrome_items sys = lit_items (chrome_front sys) ++ lit_items [x2f] ++ ver_items ++ lit_items chrome_back).
  { unfold chrome_items, chrome_front, front. rewrite !lit_app, <- !app_assoc. reflexivity. }
  rewrite E at 2. apply skip_exact. rewrite E, !app_length. cbn. lia.
Qed.
Lemma skip_edge sys : skipn (length (edge_items sys) - 2) (edge_items sys) = ver_items ++ lit_items [].
Proof.
  unfold edge_items. rewrite !app_assoc. rewrite <- (app_assoc _ ver_items). apply skip_exact. rewrite !app_length. cbn. lia.
Qed.
Lemma skip_firefox sys : skipn (length (firefox_items sys) - 3) (firefox_items sys) = lit_items [x2f] ++ ver_items ++ lit_items [].
Proof.
  assert (E : firefox_items sys = (lit_items (bs "Mozilla/5.0 (" ++ sys ++ bs "; rv:") ++ ver_items ++ lit_items (bs ") Gecko/20100101 Firefox")) ++ lit_items [x2f] ++ ver_items ++ lit_items []).
  { unfold firefox_items. rewrite <- !app_assoc. reflexivity. }
  rewrite E at 2. apply skip_exact. rewrite E, !app_length. cbn. lia.
Qed.
Lemma space_slash_e c : cls_mem false space_slash c = true -> is_e c = false.
Proof.
  intros C. apply Bool.not_true_iff_false. rewrite is_e_iff, is_d_iff. unfold space_slash, cls_mem in C. cbn [existsb fst snd] in C.
  destruct (in_rng 32 32 c) eqn:E, (in_rng 47 47 c) eqn:F; unfold in_rng in E, F; try lia; discriminate C.
Qed.

(** The entry applies. *)
Lemma applies_lang T x r src pat ua u v w : (0 <= ct_matchRI x)%Z -> nth_error (cr_re T) (Z.to_nat (ct_matchRI x)) = Some r -> r = compile src -> parse_re src = Some (pat, 1) ->
  runes ua = u ++ v ++ w -> lang pat u v w -> client_applies T ua x.
Proof.
  intros R N -> P E L. left. split; [exact R|]. exists (compile src). split; [exact N|]. apply (compile_lang src pat 1 ua P). exists u, v, w. auto.
Qed.
Lemma chrome_lang a w : lang chrome_re a (chr x20 :: map chr (bs "Chrome") ++ []) w.
Proof.
  apply (L_cat _ _ a [chr x20] (map chr (bs "Chrome") ++ []) w); [apply start_space|]. apply L_cat; [|apply L_right; constructor].
  apply chain_lang; [reflexivity|repeat constructor].
Qed.
Lemma firefox_lang a w : lang firefox_re a (chr x20 :: map chr (bs "Firefox") ++ []) w.
Proof.
  apply (L_cat _ _ a [chr x20] (map chr (bs "Firefox") ++ []) w); [apply start_space|]. apply L_cat; [|apply L_right; constructor].
  apply chain_lang; [reflexivity|repeat constructor].
Qed.
Lemma edge_lang V a w : version_number V -> lang edge_re a (chr x20 :: (map chr (bs "Edg") ++ [chr x2f]) ++ map chr V) w.
Proof.
  intros Hv. apply (L_cat _ _ a [chr x20] ((map chr (bs "Edg") ++ [chr x2f]) ++ map chr V) w); [apply start_space|].
  apply L_cat; [|constructor; apply version_body; exact Hv]. apply L_cat; [apply chain_lang; [reflexivity|repeat constructor]|constructor; reflexivity].
Qed.

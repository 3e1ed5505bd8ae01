(** Vivaldi and Opera on desktops, Edge on Android phones. *)
From Verif Require Import Model_Base Model_CacheEntry Model_Regex Model_Ctx Model_Parse Model_Shipped Spec_Regex Spec_Getters Spec_Select Spec_Word Spec_Panic Spec_Family Spec_Phone Spec_Derived
  Proof_Base Proof_Pattern Proof_Word Proof_Covers Proof_Quick Proof_Index Proof_Shadow Proof_Bare Proof_Charset Proof_Agree Proof_Select Proof_OS Proof_Client Proof_Choice
  Proof_Live Proof_Tables Proof_Fine Proof_StaleShipped Proof_Reports Proof_OsInside Proof_Family Proof_Tail Proof_Desktop Proof_DesktopBrowser Proof_DesktopSystem Proof_DesktopShipped
  Proof_DesktopDevice Proof_Phone Proof_Library.
From Coq Require Import Lia ZifyBool ZifyNat ZifyN.
Open Scope nat_scope.

(** ** How a parse can end *)
Lemma parses_empty a p t v w : parses a p t v w -> v = [] -> empty_ok a = true.
Proof.
  induction 1; intros E; cbn [empty_ok]; try reflexivity; try discriminate E; auto.
  - apply app_eq_nil in E as [-> ->]. rewrite IHparses1, IHparses2; reflexivity.
  - rewrite IHparses; auto.
  - rewrite IHparses by exact E. apply Bool.orb_true_r.
Qed.
Lemma parses_out a p t v w : parses a p t v w -> ends_out a = true -> out_end v.
Proof.
  induction 1; cbn [ends_out]; intros E; try (left; reflexivity); auto.
  - right. exists [], (x, wd). split; [reflexivity|]. cbn [fst]. apply Bool.not_true_iff_false. intros Q. apply Bool.negb_true_iff in E.
    rewrite <- Bool.not_true_iff_false in E. apply E. apply existsb_exists. exists x. split; [apply e_in; exact Q|assumption].
  - apply andb_prop in E as [E1 E2]. apply out_app; [auto|]. intros ->. rewrite (parses_empty _ _ _ _ _ H0 eq_refl) in E2. auto.
  - apply andb_prop in E as [E1 E2]. auto.
  - apply andb_prop in E as [E1 E2]. auto.
  - apply out_app; [auto|]. auto.
Qed.

(** ** What is captured after a pattern that ends outside digits and dots *)
Section Cap.
Variable items : list item.
Hypothesis FF : fixed_first items = true.
Variables A V B : bytes.
Hypothesis HV : version_number V.
Hypothesis HB : stops (map chr B).
Hypothesis HG : gen items (map chr (sep_ua A V B)).
Lemma cap_out Q k p t : best (Cat start_re (Cat Q (Grp 1 re_body))) (map chr (sep_ua A V B)) p t -> ends_out Q = true -> empty_ok Q = false ->
  go (fam_of items) Q (f_words (fam_of items)) = only k -> skipn k items = ver_items ++ lit_items B ->
  group_of 1 p t = span A V.
Proof.
  intros Bt EO EM K Sk. apply (best_parts items FF A V B HG) in Bt as (pre & v & w & t0 & tq & tt & vq & j & E & -> & Sz & Tp & Hj & (_ & _ & G) & (u & Eu) & q & w' & Pq).
  rewrite K in Hj. apply only_is in Hj as ->. rewrite Sk in G. apply ver_inv in G as (y & z & r & w2 & E2 & Y & Z & R & G).
  rewrite <- (app_nil_r (lit_items B)) in G. apply gen_lit_inv in G as (w3 & -> & G). inversion G; subst w3. rewrite app_nil_r in E2.
  assert (X : exists va c, vq = va ++ [c] /\ is_e (fst c) = false).
  { destruct (parses_out _ _ _ _ _ Pq EO) as [Z0|X]; [|exact X]. exfalso. pose proof (parses_empty _ _ _ _ _ Pq Z0) as X. rewrite EM in X. discriminate X. }
  destruct X as (va & [c wd] & -> & Cc).
  assert (Rv : run ((y, 1) :: (z, 1) :: r)) by (constructor; [apply d_e; exact Y|]; constructor; [exact Z|exact R]).
  assert (Q1 : ((u ++ va) ++ (c, wd) :: (y, 1) :: (z, 1) :: r) ++ map chr B = (map chr A ++ chr x2f :: map chr V) ++ map chr B).
  { rewrite <- sep_split, E, E2, Eu. rewrite <- !app_assoc. reflexivity. }
  apply app_inv_tail in Q1. apply last_run in Q1 as [Q1 Q2]; [|exact Cc|reflexivity|exact Rv|exact (version_run V HV)].
  rewrite <- app_assoc in Q2. rewrite <- Eu in Q2.
  cbn [group_of]. rewrite Sz. rewrite (group_end _ tt v w _ (map chr B) Tp E2 Rv HB). unfold span.
  rewrite Q1, Q2, width_app, !chr_width. cbn [width chr]. f_equal. f_equal; lia.
Qed.
End Cap.

(** ** The families *)
Definition derived_items (sys word : bytes) : list item :=
  lit_items (bs "Mozilla/5.0 (" ++ sys ++ bs ") AppleWebKit/537.36 (KHTML, like Gecko) Chrome/") ++ ver_items ++ lit_items (bs " Safari/537.36 " ++ word ++ [x2f]) ++ ver_items.
Definition derived_front (sys word c : bytes) : bytes := chrome_ua sys c ++ x20 :: word.
Lemma derived_sep sys word c v : added (chrome_ua sys c) word v = sep_ua (derived_front sys word c) v [].
Proof. unfold added, sep_ua, derived_front. rewrite <- !app_assoc, app_nil_r. cbn [app]. reflexivity. Qed.
Lemma derived_gen sys word c v : version_number c -> version_number v -> gen (derived_items sys word) (map chr (added (chrome_ua sys c) word v)).
Proof.
  intros Hc Hv. unfold derived_items, added, chrome_ua.
  replace ((bs "Mozilla/5.0 (" ++ sys ++ bs ") AppleWebKit/537.36 (KHTML, like Gecko) Chrome/" ++ c ++ bs " Safari/537.36") ++ x20 :: word ++ x2f :: v)
    with ((bs "Mozilla/5.0 (" ++ sys ++ bs ") AppleWebKit/537.36 (KHTML, like Gecko) Chrome/") ++ c ++ (bs " Safari/537.36 " ++ word ++ [x2f]) ++ v).
  2: { change (bs " Safari/537.36 ") with (bs " Safari/537.36" ++ [x20]). rewrite <- !app_assoc. reflexivity. }
  rewrite map_app. apply gen_lit. rewrite map_app. apply gen_ver; [exact Hc|]. rewrite map_app. apply gen_lit.
  rewrite <- (app_nil_r ver_items), <- (app_nil_r (map chr v)). apply gen_ver; [exact Hv|constructor].
Qed.
Lemma skip_derived sys word : skipn (length (derived_items sys word) - 2) (derived_items sys word) = ver_items ++ lit_items [].
Proof. unfold derived_items. rewrite !app_assoc. rewrite <- (app_assoc _ ver_items). apply skip_exact. rewrite !app_length. cbn. lia. Qed.

(** ** The patterns *)
Definition quote_re (s : bytes) : re := match parse_re s with Some (a, _) => a | None => Eps end.
Definition vivaldi_q : re := quote_re (bs "(?i)Viv(?:aldi)?/").
Definition opera_q : re := quote_re (bs "(?i)(?:Opera[/ ]?|OPR[/ ])(?:9\.80.*Version/)?").
(** Word, pattern before the version, entry, name. *)
Definition kinds_of : list (bytes * re * nat * bytes) := [(bs "Vivaldi", vivaldi_q, 413, bs "Vivaldi"); (bs "OPR", opera_q, 396, bs "Opera")].
Definition derived_re (q : re) : re := Cat start_re (Cat q (Grp 1 re_body)).
Lemma derived_entries : forallb (fun x => entry_ok shipped (snd (fst x)) (derived_re (snd (fst (fst x)))) (snd x)) kinds_of = true.
Proof. vm_compute. reflexivity. Qed.
Definition derived_ends : forallb (fun x => ends_out (snd (fst (fst x))) && negb (empty_ok (snd (fst (fst x))))) kinds_of = true := eq_refl.
Definition derived_clients : list (list item * N) := flat_map (fun s => map (fun x => (derived_items (fst (fst (fst s))) (fst (fst (fst x))), N.of_nat (snd (fst x)))) kinds_of) places_of.
Definition derived_systems : list (list item * N) := flat_map (fun s => map (fun x => (derived_items (fst (fst (fst s))) (fst (fst (fst x))), N.of_nat (snd (fst s)))) kinds_of) places_of.
Lemma derived_clients_missed : clients_miss shipped derived_clients = true.
Proof. vm_cast_no_check (eq_refl true). Qed.
Lemma derived_systems_missed : systems_miss shipped derived_systems = true.
Proof. vm_cast_no_check (eq_refl true). Qed.
Lemma derived_fine : forallb (fun s => forallb (fun x => fam_fine (snd (fst (fst x))) (fun l => length l - 2) (derived_items (fst (fst (fst s))) (fst (fst (fst x))))) kinds_of) places_of = true.
Proof. vm_compute. reflexivity. Qed.
Lemma derived_in sys name ko ver word q k br : In (sys, name, ko, ver) places_of -> In (word, q, k, br) kinds_of ->
  In (derived_items sys word, N.of_nat k) derived_clients /\ In (derived_items sys word, N.of_nat ko) derived_systems.
Proof.
  intros IP IK. split; apply in_flat_map; exists (sys, name, ko, ver); (split; [exact IP|]); apply in_map_iff; exists (word, q, k, br); (split; [reflexivity|exact IK]).
Qed.
Lemma kind_facts word q k br : In (word, q, k, br) kinds_of -> entry_ok shipped k (derived_re q) br = true /\ ends_out q = true /\ empty_ok q = false.
Proof.
  intros IK. split; [exact (proj1 (forallb_forall _ _) derived_entries _ IK)|].
  pose proof (proj1 (forallb_forall _ _) derived_ends _ IK) as H. apply andb_prop in H as [H1 H2]. split; [exact H1|apply Bool.negb_true_iff; exact H2].
Qed.
Lemma fine_derived sys name ko ver word q k br : In (sys, name, ko, ver) places_of -> In (word, q, k, br) kinds_of ->
  fam_fine q (fun l => length l - 2) (derived_items sys word) = true.
Proof.
  intros IP IK. pose proof (proj1 (forallb_forall _ _) derived_fine _ IP) as H. exact (proj1 (forallb_forall _ _) H _ IK).
Qed.

Lemma cat_both a b u v1 v2 w : lang a u v1 (v2 ++ w) -> lang b (u ++ v1) v2 w -> forall v, v = v1 ++ v2 -> lang (Cat a b) u v w.
Proof. intros H1 H2 v ->. apply L_cat; assumption. Qed.
Ltac one_char := constructor; reflexivity.
Lemma vivaldi_lang u w : lang vivaldi_q u (map chr (bs "Vivaldi/")) w.
Proof.
  let q := eval vm_compute in vivaldi_q in change vivaldi_q with q.
  apply (cat_both _ _ u (map chr (bs "Vivaldi")) (map chr (bs "/"))); [|one_char|reflexivity].
  apply (cat_both _ _ u (map chr (bs "Viv")) (map chr (bs "aldi"))); [| |reflexivity].
  - apply (chain_lang (both 118) [both 105; both 118]%N x56 (bs "iv")); [reflexivity|repeat constructor].
  - apply L_left. apply (chain_lang (both 97) [both 108; both 100; both 105]%N x61 (bs "ldi")); [reflexivity|repeat constructor].
Qed.
Lemma opera_lang u w : lang opera_q u (map chr (bs "OPR/")) w.
Proof.
  let q := eval vm_compute in opera_q in change opera_q with q.
  apply (cat_both _ _ u (map chr (bs "OPR/")) []); [|apply L_right; constructor|reflexivity].
  apply L_right. apply (cat_both _ _ u (map chr (bs "OPR")) (map chr (bs "/"))); [|one_char|reflexivity].
  apply (chain_lang (both 111) [both 112; both 114]%N x4f (bs "PR")); [reflexivity|repeat constructor].
Qed.
Lemma kind_lang word q k br u w : In (word, q, k, br) kinds_of -> lang q u (map chr (word ++ [x2f])) w.
Proof. cbn [kinds_of In]. intros [E|[E|[]]]; injection E as <- <- <- <-; [apply vivaldi_lang|apply opera_lang]. Qed.

Section Shipped.
Variables (mC mD : N) (sys name : bytes) (ko : nat) (ver : option bytes) (word : bytes) (q : re) (k : nat) (br : bytes).
Hypothesis IP : In (sys, name, ko, ver) places_of.
Hypothesis IK : In (word, q, k, br) kinds_of.
Hypothesis O : on mC 1.
Lemma derived_desktop c v : version_number c -> version_number v -> short (added (chrome_ua sys c) word v) -> desktop k (added (chrome_ua sys c) word v) v br name mC mD ver.
Proof.
  intros Hc Hv L. destruct (place_facts _ _ _ _ IP) as (_ & SE & _). destruct (derived_in _ _ _ _ _ _ _ _ IP IK) as (K1 & O1). destruct (kind_facts _ _ _ _ IK) as (EO & EN & EM).
  pose proof (fine_derived _ _ _ _ _ _ _ _ IP IK) as FC. apply fam_fine_inv in FC as (FF & FA & FG). pose proof (derived_gen sys word c v Hc Hv) as G. pose proof (FA _ G) as HA. rewrite derived_sep in *.
  unfold desktop.
  refine (desktop_answers shipped cr_compiled or_compiled shipped_client_sane shipped_os_sane shipped_no_skip derived_clients derived_systems derived_clients_missed derived_systems_missed shipped_never_panics
    (derived_items sys word) (derived_front sys word c) v [] (front sys) (bs ") AppleWebKit/537.36 (KHTML, like Gecko) Chrome/" ++ c ++ bs " Safari/537.36" ++ x20 :: word ++ x2f :: v ++ []) k ko (derived_re q) br name ver mC mD
    Hv _ L O K1 O1 FF HA G EO SE _ _).
  - unfold sep_ua, derived_front, chrome_ua, front. rewrite <- !app_assoc. reflexivity.
  - exists (map chr (chrome_ua sys c)), ([chr x20] ++ map chr (word ++ [x2f]) ++ map chr v), []. split.
    + change [chr x20] with (map chr [x20]). rewrite app_nil_r, <- !map_app. f_equal. unfold sep_ua, derived_front. rewrite app_nil_r, <- !app_assoc. reflexivity.
    + apply L_cat; [apply start_space|]. apply L_cat; [apply (kind_lang _ _ _ _ _ _ IK)|constructor; apply version_body; exact Hv].
  - intros p t Bt. refine (cap_out (derived_items sys word) FF (derived_front sys word c) v [] Hv _ G q _ p t Bt EN EM FG (skip_derived sys word)). exact I.
Qed.
End Shipped.

(** ** The claims *)
Lemma derived_recognised mC mD sys name word br c v : on mC 1 -> In (sys, name) systems -> In (word, br) derived -> version_number c -> version_number v ->
  short (added (chrome_ua sys c) word v) -> recognised (added (chrome_ua sys c) word v) br v name mC mD.
Proof.
  intros O IS ID Hc Hv L.
  assert (X : exists ko ver, In (sys, name, ko, ver) places_of).
  { unfold systems in IS. cbn [In] in IS. destruct IS as [E|[E|[E|[]]]]; injection E as <- <-; do 2 eexists; cbn [places_of In]; [left|right; left|right; right; left]; reflexivity. }
  assert (Y : exists q k, In (word, q, k, br) kinds_of).
  { unfold derived in ID. cbn [In] in ID. destruct ID as [E|[E|[]]]; injection E as <- <-; do 2 eexists; cbn [kinds_of In]; [left|right; left]; reflexivity. }
  destruct X as (ko & ver & IP). destruct Y as (q & k & IK).
  destruct (derived_desktop mC mD sys name ko ver word q k br IP IK O c v Hc Hv L) as (Q1 & Q2 & Q3 & Q4 & _). unfold recognised. auto.
Qed.
Lemma derived_release mC mD sys rel word br c v : on mC 1 -> In (sys, rel) releases -> In (word, br) derived -> version_number c -> version_number v ->
  short (added (chrome_ua sys c) word v) -> forall h, alone shipped mC mD h (added (chrome_ua sys c) word v) GOSVersionString = Ok (VB rel).
Proof.
  intros O IS ID Hc Hv L.
  assert (X : exists name ko, In (sys, name, ko, Some rel) places_of).
  { unfold releases in IS. cbn [In] in IS. destruct IS as [E|[E|[]]]; injection E as <- <-; do 2 eexists; cbn [places_of In]; [left|right; right; left]; reflexivity. }
  assert (Y : exists q k, In (word, q, k, br) kinds_of).
  { unfold derived in ID. cbn [In] in ID. destruct ID as [E|[E|[]]]; injection E as <- <-; do 2 eexists; cbn [kinds_of In]; [left|right; left]; reflexivity. }
  destruct X as (name & ko & IP). destruct Y as (q & k & IK).
  destruct (derived_desktop mC mD sys name ko (Some rel) word q k br IP IK O c v Hc Hv L) as (_ & _ & _ & _ & Q & _). exact (Q rel eq_refl).
Qed.

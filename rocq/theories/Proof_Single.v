(** One user agent on the command line, and files by URL. *)
From Verif Require Import Model_Base Model_CacheEntry Model_Version Model_Ctx Model_Parse Model_Compiler Model_Built Model_Single Data_Tiny Spec_Getters Spec_Single
  Proof_Base Proof_Safe Proof_Getters Proof_Private Proof_Reports Proof_Repeat.
From Coq Require Import Lia ZifyBool ZifyNat ZifyN.
Open Scope nat_scope.

(** ** The report *)

Lemma cold_pmap {A} (f : A -> value) (p : P A) c v : snd (run_cold (pmap f p c)) = Ok v -> exists a, v = f a.
Proof.
  unfold pmap, pbind. rewrite run_cold_bind. destruct (run_cold (p c)) as [c1 [a|]]; [|discriminate]. intros H. injection H as <-. eauto.
Qed.
Lemma show_text T g c v : snd (run_cold (run_getter T g c)) = Ok v -> text_of g v (show g v).
Proof. destruct g; cbn [run_getter]; intros H; first [apply cold_pmap in H as [a ->]; constructor|cbn in H; injection H as <-; constructor]. Qed.

Section Single.
Variable T : tables.
Variable ua : bytes.
Notation ans := (alone T ClientTypeAll DeviceTypeAll 0 ua).

(** Pieces as questions. *)
Inductive fits : list piece -> list (bytes * getter * bytes) -> Prop :=
| F_nil : fits [] []
| F_line pre g post fs l post' qs : post = post' ++ concat fs -> fits l qs -> fits (Line pre g post' :: map Fixed fs ++ l) ((pre, g, post) :: qs).
Lemma loop_fixed fs : forall l c o ev out, single_loop T (map Fixed fs ++ l) c o ev out = single_loop T l c o ev (out ++ concat fs).
Proof.
  induction fs as [|b fs IH]; intros l c o ev out; cbn [map app single_loop concat]; [rewrite app_nil_r; reflexivity|]. rewrite IH, app_assoc. reflexivity.
Qed.
Lemma loop_split qs : forall ls c o ev out out' c' b, fits ls qs -> single_loop T ls c o ev out = (out', c', b) ->
  exists gs rs o' ev', run_getters T gs c o ev = (rs, c', o', ev') /\
    (rs = map ans gs -> exists rep, out' = out ++ rep /\ report ans qs rep b).
Proof.
  induction qs as [|[[pre g] post] qs IH]; intros ls c o ev out out' c' b F E.
  - inversion F; subst. cbn [single_loop] in E. injection E as <- <- <-. exists [], [], o, ev. split; [reflexivity|]. intros _. exists []. rewrite app_nil_r. split; [reflexivity|constructor].
  - inversion F as [|? ? ? fs l' post' ? Ep F']; subst. clear F. rename F' into F. cbn [single_loop] in E.
    destruct (run_priv (run_getter T g c) o ev) as [[[c1 r] o1] ev1] eqn:R. destruct r as [v|].
    + rewrite loop_fixed in E. destruct (IH _ _ _ _ _ _ _ _ F E) as (gs & rs & o' & ev' & Er & H).
      exists (g :: gs), (Ok v :: rs), o', ev'. split; [cbn [run_getters]; rewrite R, Er; reflexivity|].
      intros M. cbn [map] in M. injection M as Mv Mr. destruct (H Mr) as (rep & -> & Rp).
      exists (pre ++ show g v ++ (post' ++ concat fs) ++ rep). rewrite <- !app_assoc. split; [reflexivity|].
      rewrite app_assoc with (l := post'). apply (R_line ans pre g (post' ++ concat fs) v (show g v)); [symmetry; exact Mv|exact (show_text T g _ v (eq_sym Mv))|exact Rp].
    + injection E as <- <- <-. exists [g], [Panic], o1, ev1. split; [cbn [run_getters]; rewrite R; reflexivity|].
      intros M. cbn [map] in M. injection M as M. exists []. rewrite app_nil_r. split; [reflexivity|]. constructor. symmetry. exact M.
Qed.
Lemma fits_line pre g post l qs : fits l qs -> fits (Line pre g post :: l) ((pre, g, post) :: qs).
Proof. intros H. apply (F_line pre g post [] l post qs); [cbn [concat]; rewrite app_nil_r; reflexivity|exact H]. Qed.
Lemma fits_head pre g post b l qs p : p = post ++ b -> fits l qs -> fits (Line pre g post :: Fixed b :: l) ((pre, g, p) :: qs).
Proof. intros E H. apply (F_line pre g p [b] l post qs); [cbn [concat]; rewrite app_nil_r; exact E|exact H]. Qed.
Lemma pieces_fit : fits single_pieces questions.
Proof.
  unfold single_pieces, questions. apply fits_head; [reflexivity|]. do 4 apply fits_line. apply fits_head; [reflexivity|]. do 5 apply fits_line. constructor.
Qed.
Lemma fresh_single : set_user_agent ua new_ctx = fresh_ctx ClientTypeAll DeviceTypeAll 0 ua.
Proof. reflexivity. Qed.
Lemma single_unfold ev : single T ua ev = single_loop T single_pieces (fresh_ctx ClientTypeAll DeviceTypeAll 0 ua) None ev [].
Proof. unfold single. rewrite fresh_single. reflexivity. Qed.
Lemma loop_report ls ev out c' b : fits ls questions -> detects T ClientTypeAll DeviceTypeAll ua -> single_loop T ls (fresh_ctx ClientTypeAll DeviceTypeAll 0 ua) None ev [] = (out, c', b) ->
  (N.of_nat (length (c_buf c')) < 4294967296)%N -> report ans questions out b.
Proof.
  intros F D E L. destruct (loop_split questions ls _ _ _ _ _ _ _ F E) as (gs & rs & o' & ev' & R & H).
  destruct (H (private_alone T ClientTypeAll DeviceTypeAll ua 0 gs ev rs c' o' ev' D R L)) as (rep & -> & Rp). exact Rp.
Qed.
Lemma single_report ev out c' b : detects T ClientTypeAll DeviceTypeAll ua -> single T ua ev = (out, c', b) ->
  (N.of_nat (length (c_buf c')) < 4294967296)%N -> report ans questions out b.
Proof.
  intros D E L. rewrite single_unfold in E. exact (loop_report single_pieces ev out c' b pieces_fit D E L).
Qed.
Lemma priv_ua c o ev : run_priv (run_getter T GUserAgent c) o ev = ((c, Ok (VB (get_user_agent c))), o, ev).
Proof. reflexivity. Qed.
Lemma single_panic ev : ans GClientType = Panic -> exists c', single T ua ev = (bs "origin ua: " ++ ua ++ x0a :: bs "client:" ++ [x0a], c', false).
Proof.
  intros P. unfold single, single_pieces. rewrite fresh_single. cbn [single_loop]. rewrite priv_ua.
  destruct (priv_getter T GClientType (fresh_ctx ClientTypeAll DeviceTypeAll 0 ua) None ev I) as (o' & ev' & E & _). rewrite E.
  unfold alone in P. destruct (run_cold (run_getter T GClientType (fresh_ctx ClientTypeAll DeviceTypeAll 0 ua))) as [c1 r]. cbn [snd] in P. subst r.
  exists c1. cbn [show app]. change (get_user_agent (fresh_ctx ClientTypeAll DeviceTypeAll 0 ua)) with ua. unfold nl. rewrite <- !app_assoc. reflexivity.
Qed.
End Single.

(** ** URLs *)

Lemma behind_spec uri : match behind_slash uri with Some s => segment uri s | None => ~ In x2f uri end.
Proof.
  induction uri as [|b u IH]; cbn [behind_slash]; [intros []|]. destruct (behind_slash u) as [s|].
  - destruct IH as [[a ->] N]. split; [exists (b :: a); reflexivity|exact N].
  - destruct (beq b x2f) eqn:E.
    + apply beq_eq in E. subst b. split; [exists []; reflexivity|exact IH].
    + intros [->|I]; [discriminate E|]. contradiction.
Qed.
Lemma segment_unique uri s s' : segment uri s -> segment uri s' -> s = s'.
Proof.
  intros [[a ->] N] [[a' E] N']. revert a' E. induction a as [|x a IH]; intros [|y a'] E; cbn [app] in E.
  - injection E as ->. reflexivity.
  - injection E as _ E. exfalso. apply N. rewrite E. apply in_app_iff. right. left. reflexivity.
  - injection E as _ E. exfalso. apply N'. rewrite <- E. apply in_app_iff. right. left. reflexivity.
  - injection E as _ E. exact (IH a' E).
Qed.
Lemma behind_segment uri s : segment uri s <-> behind_slash uri = Some s.
Proof.
  pose proof (behind_spec uri) as B. destruct (behind_slash uri) as [s'|]; split.
  - intros H. f_equal. exact (segment_unique uri s' s B H).
  - intros H. injection H as ->. exact B.
  - intros [[a ->] _]. exfalso. apply B. apply in_app_iff. right. left. reflexivity.
  - discriminate.
Qed.

Definition cache_path (s : bytes) : bytes := bs "/tmp/uaxpl_" ++ s.
Lemma path_inj s s' : cache_path s = cache_path s' -> s = s'.
Proof. unfold cache_path. apply app_inv_head. Qed.
Lemma beqs_refl p : beqs p p = true.
Proof. apply beqs_eq. reflexivity. Qed.

(** The file for a segment holds what the first run that could fetch it fetched. *)
Definition holds_first (before : list a_run) (fs : files) : Prop := forall s,
  (exists l1 x l2 body, before = l1 ++ x :: l2 /\ fetches x s body /\ (forall y b, In y l1 -> ~ fetches y s b) /\ fs (cache_path s) = Some body) \/
  ((forall y b, In y before -> ~ fetches y s b) /\ fs (cache_path s) = None).
Lemma pass_spec before r fs : holds_first before fs -> 
  holds_first (before ++ [r]) (fst (pass_url fs (snd (fst r)) (snd r) (fst (fst r)))) /\ analysed before r (snd (pass_url fs (snd (fst r)) (snd r) (fst (fst r)))).
Proof.
  destruct r as [[uri net] wr]. cbn [fst snd]. intros H. unfold pass_url.
  destruct (behind_slash uri) as [f|] eqn:B.
  2: { cbn [fst snd]. assert (NS : forall s, ~ segment uri s) by (intros s S; apply behind_segment in S; congruence). split; [|apply N_invalid; exact NS].
       intros s. destruct (H s) as [(l1 & x & l2 & body & -> & F & N & E)|[N E]].
       - left. exists l1, x, (l2 ++ [(uri, net, wr)]), body. rewrite <- app_assoc. auto.
       - right. split; [|exact E]. intros y b I. apply in_app_iff in I as [I|[<-|[]]]; [exact (N y b I)|]. intros [S _]. exact (NS s S). }
  apply behind_segment in B. fold (cache_path f). set (r := (uri, net, wr)) in *.
  (* other segments *)
  assert (Other : forall fs', (forall s, s <> f -> fs' (cache_path s) = fs (cache_path s)) -> forall s, s <> f ->
    (exists l1 x l2 body, before ++ [r] = l1 ++ x :: l2 /\ fetches x s body /\ (forall y b, In y l1 -> ~ fetches y s b) /\ fs' (cache_path s) = Some body) \/
    ((forall y b, In y (before ++ [r]) -> ~ fetches y s b) /\ fs' (cache_path s) = None)).
  { intros fs' K s Ns. rewrite (K s Ns). destruct (H s) as [(l1 & x & l2 & body & E0 & F & N & E)|[N E]].
    - left. exists l1, x, (l2 ++ [r]), body. rewrite E0, <- app_assoc. auto.
    - right. split; [|exact E]. intros y b I. apply in_app_iff in I as [I|[<-|[]]]; [exact (N y b I)|]. intros [S _]. apply Ns. exact (segment_unique uri s f S B). }
  destruct (H f) as [(l1 & x & l2 & body & E0 & F & N & E)|[N E]].
  - rewrite E. cbn [fst snd]. rewrite E.
    assert (X : exists l2', before ++ [r] = l1 ++ x :: l2') by (exists (l2 ++ [r]); rewrite E0, <- app_assoc; reflexivity). destruct X as [l2' X]. split.
    + intros s. destruct (list_eq_dec Byte.byte_eq_dec s f) as [->|Ns]; [|exact (Other fs (fun _ _ => eq_refl) s Ns)]. left. exists l1, x, l2', body. auto.
    + exact (N_body before r f l1 x l2' body B X F N).
  - rewrite E. destruct (net uri) as [body|] eqn:En; [destruct wr|].
    + cbn [fst snd]. unfold write_file at 2. rewrite beqs_refl.
      assert (F : fetches r f body) by (split; [exact B|split; [exact En|reflexivity]]). split.
      * intros s. destruct (list_eq_dec Byte.byte_eq_dec s f) as [->|Ns].
        -- left. exists before, r, [], body. unfold write_file. rewrite beqs_refl. auto.
        -- apply (Other (write_file fs (cache_path f) body)); [|exact Ns]. intros s' Ns'. unfold write_file. destruct (beqs (cache_path s') (cache_path f)) eqn:Eb; [|reflexivity].
           apply beqs_eq in Eb. apply path_inj in Eb. contradiction.
      * exact (N_body before r f before r [] body B eq_refl F N).
    + cbn [fst snd]. rewrite E.
      assert (Z : forall y b, In y (before ++ [r]) -> ~ fetches y f b).
      { intros y b I. apply in_app_iff in I as [I|[<-|[]]]; [exact (N y b I)|]. intros (_ & _ & W). discriminate W. }
      split; [|exact (N_nothing before r f B Z)]. intros s. destruct (list_eq_dec Byte.byte_eq_dec s f) as [->|Ns]; [right; auto|exact (Other fs (fun _ _ => eq_refl) s Ns)].
    + cbn [fst snd]. rewrite E.
      assert (Z : forall y b, In y (before ++ [r]) -> ~ fetches y f b).
      { intros y b I. apply in_app_iff in I as [I|[<-|[]]]; [exact (N y b I)|]. intros (_ & W & _). congruence. }
      split; [|exact (N_nothing before r f B Z)]. intros s. destruct (list_eq_dec Byte.byte_eq_dec s f) as [->|Ns]; [right; auto|exact (Other fs (fun _ _ => eq_refl) s Ns)].
Qed.
Lemma runs_gen l : forall before fs, holds_first before fs ->
  forall l1 r l2, l = l1 ++ r :: l2 -> exists out, nth_error (runs fs l) (length l1) = Some out /\ analysed (before ++ l1) r out.
Proof.
  induction l as [|[[uri net] wr] l IH]; intros before fs H l1 r l2 E; [destruct l1; discriminate E|].
  pose proof (pass_spec before (uri, net, wr) fs H) as [H' A]. cbn [fst snd] in H', A. cbn [runs]. destruct (pass_url fs net wr uri) as [fs' out]. cbn [fst snd] in H', A.
  destruct l1 as [|x l1]; cbn [app] in E.
  - injection E as <- _. exists out. split; [reflexivity|]. rewrite app_nil_r. exact A.
  - injection E as <- E. destruct (IH (before ++ [(uri, net, wr)]) fs' H' l1 r l2 E) as (o & Eo & Ao). exists o. split; [exact Eo|]. rewrite <- app_assoc in Ao. exact Ao.
Qed.
Lemma runs_analyse l1 r l2 : exists out, nth_error (runs (fun _ => None) (l1 ++ r :: l2)) (length l1) = Some out /\ analysed l1 r out.
Proof.
  apply (runs_gen (l1 ++ r :: l2) [] (fun _ => None)) with (l2 := l2); [|reflexivity]. intros s. right. split; [intros y b []|reflexivity].
Qed.

Lemma single_case T ua ev out :
  (let '(o, c, b) := single T ua ev in if b then if beqs o out then (N.of_nat (length (c_buf c)) <? 4294967296)%N else false else false) = true ->
  exists c', single T ua ev = (out, c', true) /\ (N.of_nat (length (c_buf c')) < 4294967296)%N.
Proof.
  destruct (single T ua ev) as [[o c] b]. destruct b; [|discriminate]. destruct (beqs o out) eqn:E; [|discriminate]. apply beqs_eq in E. subst o.
  intros L. exists c. split; [reflexivity|]. apply N.ltb_lt. exact L.
Qed.
Lemma version_line_case T ua ev s :
  (let '(o, c, b) := single T ua ev in
   if b then if contains_b o (bs " * browser version: '" ++ s ++ bs "'") then false else
     match alone T ClientTypeAll DeviceTypeAll 0 ua GBrowserVersionString with Ok (VB s') => beqs s s' | _ => false end else false) = true ->
  exists out c', single T ua ev = (out, c', true) /\ alone T ClientTypeAll DeviceTypeAll 0 ua GBrowserVersionString = Ok (VB s) /\
    ~ exists a b, out = a ++ (bs " * browser version: '" ++ s ++ bs "'") ++ b.
Proof.
  destruct (single T ua ev) as [[o c] b]. destruct b; [|discriminate]. destruct (contains_b o _) eqn:E; [discriminate|].
  destruct (alone T ClientTypeAll DeviceTypeAll 0 ua GBrowserVersionString) as [[|s'|]|]; try discriminate. intros H. apply beqs_eq in H. subst s'.
  exists o, c. split; [reflexivity|]. split; [reflexivity|]. intros X. apply contains_b_iff in X. congruence.
Qed.
Definition tiny_ua : bytes := bs "Foo/29.0 Beta Tab X1 Debian 9_1 WebKit/5.36 Chrome/70.2".
Lemma version_text_refuted : exists T ua ev out c' s, detects T ClientTypeAll DeviceTypeAll ua /\ single T ua ev = (out, c', true) /\
  alone T ClientTypeAll DeviceTypeAll 0 ua GBrowserVersionString = Ok (VB s) /\
  ~ exists a b, out = a ++ (bs " * browser version: '" ++ s ++ bs "'") ++ b.
Proof.
  destruct (version_line_case (built tiny_compiler tiny) tiny_ua [] (bs "29.0") ltac:(vm_compute; reflexivity)) as (out & c' & H).
  exists (built tiny_compiler tiny), tiny_ua, [], out, c', (bs "29.0"). split; [apply detectsb_ok; vm_compute; reflexivity|exact H].
Qed.
Lemma own_url_refuted : exists l1 uri net body, net uri = Some body /\
  nth_error (runs (fun _ => None) (l1 ++ [(uri, net, true)])) (length l1) <> Some (Some body).
Proof.
  exists [(bs "http://a/x.json", fun _ => Some (bs "A"), true)], (bs "http://b/x.json"), (fun _ => Some (bs "B")), (bs "B").
  split; [reflexivity|]. vm_compute. discriminate.
Qed.

(** A writable database: its generated files declare its tables; and databases which are not. *)
From Verif Require Import Model_Base Model_Version Model_Ctx Model_Regex Model_Shipped Model_Compiler Model_Built Model_Emit Data_Tiny Spec_Database Spec_Go Spec_Emit
  Proof_Base Proof_Built Proof_DbTiny Proof_Emit Proof_Writable.
From Coq Require Import Lia ZifyBool ZifyNat ZifyN.
From Coq Require Import Strings.Byte.
Open Scope nat_scope.

Lemma entries_length {A B S} (f : A -> S -> B * S) l : forall s, length (fst (compile_entries f l s)) = length l.
Proof.
  induction l as [|a l IH]; intros s; [reflexivity|]. cbn [compile_entries]. destruct (f a s) as [x s1]. specialize (IH s1).
  destruct (compile_entries f l s1) as [xs s2]. cbn [fst length] in *. f_equal. exact IH.
Qed.
Lemma client_files valid repl files : length (co_idx (compile_client valid repl files)) = length files.
Proof.
  unfold compile_client. match goal with |- context [compile_entries ?f files ?s] => pose proof (entries_length f files s) as H; destruct (compile_entries f files s) as [x y] end.
  destruct (compile_ev _ _ _). exact H.
Qed.
Lemma device_files valid repl static files : length (do_idx (compile_device valid repl static files)) = length files.
Proof.
  unfold compile_device. match goal with |- context [compile_entries ?f files ?s] => pose proof (entries_length f files s) as H; destruct (compile_entries f files s) as [x y] end.
  exact H.
Qed.

Lemma writable_declares K D args cn dn hf : writable K D -> Forall one_line args ->
  Forall one_line cn -> length cn = length (db_client D) -> Forall one_line dn -> length dn = length (db_device D) ->
  Forall (fun f => one_line (fst f)) hf -> list_sum (map snd hf) = length (ho_idx (compile_hint (db_hint D))) ->
  source_of (built K D)
    (emit_client args cn (compile_client (k_valid K) (k_client K) (db_client D)))
    (emit_os args (compile_os (k_valid K) (k_os K) (db_os D)))
    (emit_device args dn (compile_device (k_valid K) (k_device K) (k_static K) (db_device D)))
    (emit_vendor args (compile_vendor (db_vendor D)))
    (emit_hint args hf (compile_hint (db_hint D))).
Proof.
  intros [Wm Wc Wo Wd Wv Wh (S1 & S2 & S3 & S4 & S5 & S6 & S7)] A Cn Cl Dn Dl Hf Hl.
  unfold built in S1, S2, S3, S4, S5, S6, S7.
  do 5 eexists. split; [|split; [|split; [|split; [|split; [|reflexivity]]]]].
  - apply client_declares; [exact A|exact Cn|rewrite client_files; exact Cl|]. apply client_out_ok; [exact Wm|exact Wc|exact S1| |exact S3|exact S4].
    revert S2. unfold indexed. cbn [cr_re]. rewrite map_length. trivial.
  - apply os_declares; [exact A|]. apply os_out_ok; [exact Wm|exact Wo|]. revert S5. unfold indexed. cbn [or_re]. rewrite map_length. trivial.
  - apply device_declares; [exact A|exact Dn|rewrite device_files; exact Dl|]. apply device_out_ok; [exact Wm|exact Wd| |exact S7].
    revert S6. unfold indexed. cbn [dr_re]. rewrite map_length. trivial.
  - apply vendor_declares; [exact A|]. apply vendor_out_ok. exact Wv.
  - apply hint_declares; [exact A|exact Hf|exact Hl|]. apply hint_out_ok. exact Wh.
Qed.

(** ** The value of a text, computed *)
Definition value {A} (p : reader A) (s : bytes) : option A :=
  match lex s with Some l => match p l with Some (a, []) => Some a | _ => None end | None => None end.
Lemma value_some {A} (p : reader A) s a : declares p s a <-> value p s = Some a.
Proof.
  unfold declares, value. split.
  - intros (l & -> & ->). reflexivity.
  - destruct (lex s) as [l|]; [|discriminate]. destruct (p l) as [[x [|t r]]|] eqn:E; [|discriminate|discriminate]. intros [= ->]. exists l. split; [reflexivity|exact E].
Qed.
Lemma value_none {A} (p : reader A) s : value p s = None -> forall a, ~ declares p s a.
Proof. intros H a Y. apply value_some in Y. congruence. Qed.

(** ** The small database is writable *)
Definition mem (b : byte) (s : bytes) : bool := existsb (Byte.eqb b) s.
Lemma mem_In b s : In b s -> mem b s = true.
Proof. intros I. apply existsb_exists. exists b. split; [exact I|]. apply Byte.byte_dec_lb. reflexivity. Qed.
Lemma mem_In_back b s : mem b s = true -> In b s.
Proof. intros H. apply existsb_exists in H as (x & I & E). apply Byte.byte_dec_bl in E. subst. exact I. Qed.
Definition rawb (s : bytes) : bool := negb (mem x60 s) && negb (mem x0d s).
Lemma rawb_ok s : rawb s = true -> raw_text s.
Proof.
  unfold rawb, raw_text. intros H. apply andb_prop in H as [H1 H2]. split; intros I; apply mem_In in I; rewrite I in *; discriminate.
Qed.
Definition plainb (s : bytes) : bool := negb (mem x22 s) && negb (mem x5c s) && negb (mem x0a s).
Lemma plainb_ok s : plainb s = true -> plain_text s.
Proof.
  unfold plainb, plain_text. intros H. apply andb_prop in H as [H H3]. apply andb_prop in H as [H1 H2].
  split; [|split]; intros I; apply mem_In in I; rewrite I in *; discriminate.
Qed.
Definition enginewb (e : yengine) : bool := rawb (ye_default e) && forallb (fun ve => plainb (fst ve) && rawb (snd ve)) (ye_versions e).
Definition clientwb (y : yclient) : bool :=
  rawb (yc_regex y) && proper_refb (yc_version y) && match yc_engine y with Some e => enginewb e | None => true end.
Definition oswb (y : yos) : bool :=
  rawb (yo_regex y) && proper_refb (yo_name y) && proper_refb (yo_version y) &&
  forallb (fun v => rawb (yv_regex v) && proper_refb (yv_version v)) (yo_versions y).
Definition brandwb (x : bytes * ybrand) : bool := rawb (yb_regex (snd x)) && forallb (fun m => rawb (ym_regex m)) (yb_models (snd x)).
Definition hintwb (ks : list bytes) : bool := forallb (fun k => forallb (fun k' => if beqs k k' then true else negb (fnv1 k =? fnv1 k')%N) ks) ks.
Lemma allb {A} (f : A -> bool) (P : A -> Prop) : (forall a, f a = true -> P a) -> forall l, forallb f l = true -> Forall P l.
Proof. intros H l X. rewrite forallb_forall in X. apply Forall_forall. auto. Qed.
Ltac split_andb := repeat match goal with H : _ && _ = true |- _ => apply andb_prop in H as [? ?] end.
Lemma clientwb_ok y : clientwb y = true -> client_writable y.
Proof.
  unfold clientwb, client_writable. intros H. apply andb_prop in H as [H He]. split_andb. split; [apply rawb_ok; assumption|]. split; [apply proper_refb_ok; assumption|].
  intros e E. rewrite E in He. unfold enginewb in He. split_andb. split; [apply rawb_ok; assumption|]. eapply allb; [|eassumption].
  intros ve X. cbv beta in X. split_andb. split; [apply plainb_ok|apply rawb_ok]; assumption.
Qed.
Lemma oswb_ok y : oswb y = true -> os_writable y.
Proof.
  unfold oswb, os_writable. intros H. split_andb. split; [apply rawb_ok; assumption|]. split; [apply proper_refb_ok; assumption|].
  split; [apply proper_refb_ok; assumption|]. eapply allb; [|eassumption]. intros v X. cbv beta in X. split_andb. split; [apply rawb_ok|apply proper_refb_ok]; assumption.
Qed.
Lemma brandwb_ok x : brandwb x = true -> brand_writable x.
Proof.
  unfold brandwb, brand_writable. intros H. split_andb. split; [apply rawb_ok; assumption|]. eapply allb; [|eassumption]. intros m. apply rawb_ok.
Qed.
Lemma hintwb_ok ks : hintwb ks = true -> forall k k', In k ks -> In k' ks -> fnv1 k = fnv1 k' -> k = k'.
Proof.
  unfold hintwb. intros H k k' I I' E. rewrite forallb_forall in H. specialize (H k I). rewrite forallb_forall in H. specialize (H k' I').
  destruct (beqs k k') eqn:B; [apply beqs_eq; exact B|]. rewrite E, N.eqb_refl in H. discriminate.
Qed.
Lemma tiny_writable : writable tiny_compiler tiny.
Proof.
  constructor.
  - intros p q H. repeat destruct H as [H|H]; discriminate.
  - apply (allb (forallb clientwb)); [exact (allb _ _ clientwb_ok)|]. vm_compute. reflexivity.
  - apply (allb oswb); [exact oswb_ok|]. vm_compute. reflexivity.
  - apply (allb (forallb brandwb)); [exact (allb _ _ brandwb_ok)|]. vm_compute. reflexivity.
  - apply (allb (fun x => forallb rawb (snd x))); [|vm_compute; reflexivity]. intros x. apply allb. exact rawb_ok.
  - apply hintwb_ok. vm_compute. reflexivity.
  - repeat split; vm_compute; discriminate || reflexivity.
Qed.

(** ** Databases whose files say something else *)
Definition lone (rs v : bytes) (e : option yengine) : client_out :=
  compile_client (k_valid tiny_compiler) (k_client tiny_compiler) [[mkYC rs (bs "Foo") v e [] []]].
Definition lone_text (rs v : bytes) (e : option yengine) : bytes := emit_client [] [bs "browsers.yml"] (lone rs v e).
Lemma reference_refuted : exists v, forall o, ~ declares go_client (lone_text (bs "Foo") v None) o.
Proof. exists (bs "$128"). apply value_none. vm_compute. reflexivity. Qed.
Lemma backquote_refuted : exists rs, forall o, ~ declares go_client (lone_text rs [] None) o.
Proof. exists (bs "[" ++ tick ++ bs "']Foo"). apply value_none. vm_compute. reflexivity. Qed.
Definition injected : bytes := bs "(Foo" ++ tick ++ bs "),regexp.MustCompile(" ++ tick ++ bs "Bar)".
Lemma injection_refuted : exists rs o, declares go_client (lone_text rs [] None) o /\ length (co_re (lone rs [] None)) = 1 /\ length (co_re o) = 2.
Proof.
  exists injected. destruct (value go_client (lone_text injected [] None)) as [o|] eqn:E; [|exfalso; vm_compute in E; discriminate E].
  exists o. split; [apply value_some; exact E|]. split; [vm_compute; reflexivity|].
  assert (X : option_map (fun o => length (co_re o)) (Some o) = Some 2) by (rewrite <- E; vm_compute; reflexivity). injection X as X. exact X.
Qed.
Definition returned : bytes := bs "(Foo" ++ [x0d] ++ bs "Bar)".
Lemma return_refuted : exists rs rs' o, In x0d rs /\ ~ In x0d rs' /\ declares go_client (lone_text rs [] None) o /\
  co_re (lone rs [] None) = [client_re rs] /\ co_re o = [client_re rs'] /\ co_re o <> co_re (lone rs [] None).
Proof.
  exists returned, (bs "(FooBar)"). destruct (value go_client (lone_text returned [] None)) as [o|] eqn:E; [|exfalso; vm_compute in E; discriminate E].
  exists o. split; [apply mem_In_back; reflexivity|]. split; [intros I; apply mem_In in I; discriminate I|]. split; [apply value_some; exact E|].
  assert (X : option_map (fun o => co_re o) (Some o) = Some [client_re (bs "(FooBar)")]) by (rewrite <- E; vm_compute; reflexivity). injection X as X.
  split; [vm_compute; reflexivity|]. split; [exact X|]. rewrite X. vm_compute. discriminate.
Qed.
Lemma threshold_refuted : exists k, forall o, ~ declares go_client (lone_text (bs "(Foo)") (bs "$1") (Some (mkYE (bs "WebKit") [(k, bs "Blink")]))) o.
Proof. exists (bs "28" ++ quote). apply value_none. vm_compute. reflexivity. Qed.
Lemma hash_refuted : exists k k', k <> k' /\ forall o, ~ declares go_hint (emit_hint [] [(bs "apps.yml", 2)] (compile_hint [[(k, bs "A"); (k', bs "B")]])) o.
Proof.
  exists (bs "com.ma0kdu3qiladp"), (bs "com.1esfbtudyp5ac"). split; [discriminate|]. apply value_none. vm_compute. reflexivity.
Qed.

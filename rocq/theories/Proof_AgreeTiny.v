(** Databases around the small one, for examples. *)
From Verif Require Import Model_Base Model_CacheEntry Model_Version Model_Ctx Model_Regex Model_Parse Model_Compiler Model_Shipped Model_Built Data_Tiny
  Spec_Version Spec_Getters Spec_Select Spec_Compiler Spec_Database Spec_Agree Proof_Base Proof_Select Proof_Built Proof_DbTiny Proof_Agree.
From Coq Require Import Lia ZifyBool ZifyNat ZifyN String.
Open Scope list_scope.
Open Scope nat_scope.

Section Hits.
Variable K : compiler.
Definition hitb (repl : bytes -> option bytes) (wrap : bytes -> bytes) (rs ua : bytes) : bool :=
  if is_regex rs then
    if k_valid K (chosen repl rs) then match re_find (compile (wrap (chosen repl rs))) ua with Some _ => true | None => false end else false
  else substr_hit ua rs.
Lemma no_hit repl wrap rs ua : hitb repl wrap rs ua = false -> ~ db_applies K repl wrap rs ua.
Proof.
  unfold hitb. intros H [[P O]|(m & r & P & F)].
  - apply plain_spec in P. rewrite P in H. apply substr_occurs in O. congruence.
  - apply pattern_chosen in P as (N & V & ->). rewrite V, F in H. destruct (is_regex rs) eqn:E; [discriminate|]. apply plain_spec in E. contradiction.
Qed.
Lemma a_hit repl wrap rs ua : hitb repl wrap rs ua = true -> db_applies K repl wrap rs ua.
Proof.
  unfold hitb. destruct (is_regex rs) eqn:E.
  - assert (N : ~ plain rs) by (rewrite <- plain_spec; congruence). destruct (k_valid K (chosen repl rs)) eqn:V; [|discriminate].
    destruct (re_find (compile (wrap (chosen repl rs))) ua) as [m|] eqn:F; [|discriminate]. intros _. right. exists m, (compile (wrap (chosen repl rs))).
    split; [apply pattern_chosen; auto|exact F].
  - intros H. left. split; [apply plain_spec; exact E|apply substr_occurs; exact H].
Qed.
End Hits.

Definition agree_ua : bytes := bs "Foo/29.0 Beta Tab X1 Debian 9_1 WebKit/5.36 Chrome/70.2".
Definition set_nth {A} (i : nat) (x : A) (l : list A) : list A := firstn i l ++ x :: skipn (S i) l.
(** More browsers, systems, brands and vendors, none of which applies to [agree_ua]. *)
Definition more : database :=
  mkDatabase
    (set_nth 1 (tiny_client "Aaa/(\d+)" "Aaa" "$1" None :: nth 1 (db_client tiny) []) (db_client tiny))
    (mkYO (bs "Haiku") (bs "Haiku/") [] [] :: db_os tiny)
    (set_nth 3 (nth 3 (db_device tiny) [] ++ [(bs "Aaa", mkYB (bs "Zork ([A-Z]+)") (bs "tablet") (bs "$1") [])]) (db_device tiny))
    ((bs "Zork", [bs "zork"]) :: db_vendor tiny) (db_hint tiny).
(** The small database without its first browser. *)
Definition fewer : database :=
  mkDatabase (set_nth 1 (tl (nth 1 (db_client tiny) [])) (db_client tiny)) (db_os tiny) (db_device tiny) (db_vendor tiny) (db_hint tiny).
Definition bar_ua : bytes := bs "Bar WebKit/5.36".

Ltac clients := repeat (constructor; [repeat (constructor; [apply client_properb_ok; [reflexivity|vm_compute; auto]|]); constructor|]); constructor.
Ltac systems := repeat (constructor; [split; [apply proper_refb_ok; reflexivity|split; [apply proper_refb_ok; reflexivity|]]; cbn [yo_versions];
    repeat (constructor; [apply proper_refb_ok; reflexivity|]); constructor|]); constructor.
Ltac devices := repeat (constructor; [repeat (constructor; [split; [discriminate|split; [cbn; lia|repeat (constructor; [cbn; lia|]); constructor]]|]); constructor|]); constructor.
Ltac is_proper :=
  split; [reflexivity|]; split; [clients|]; split; [systems|]; split; [reflexivity|]; split; [devices|]; split; [repeat (constructor; [discriminate|]); constructor|];
  repeat split; vm_compute; reflexivity.
Lemma tiny_proper : proper tiny_compiler tiny.
Proof. is_proper. Qed.
Lemma more_proper : proper tiny_compiler more.
Proof. is_proper. Qed.
Lemma fewer_proper : proper tiny_compiler fewer.
Proof. is_proper. Qed.

Lemma more_clients : forall i, i < 7 -> padded (client_hit tiny_compiler agree_ua) (class tiny i) (class more i).
Proof.
  intros i L. do 7 (destruct i as [|i]; [first [apply padded_refl|apply PA_more; [apply no_hit; vm_compute; reflexivity|apply padded_refl]]|]). lia.
Qed.
Lemma more_systems : padded (os_hit tiny_compiler agree_ua) (db_os tiny) (db_os more).
Proof. apply PA_more; [|apply padded_refl]. intros [_ H]. revert H. apply no_hit. vm_compute. reflexivity. Qed.
Lemma fewer_clients : forall i, i < 7 -> padded (client_hit tiny_compiler bar_ua) (class fewer i) (class tiny i).
Proof.
  intros i L. do 7 (destruct i as [|i]; [first [apply padded_refl|apply PA_more; [apply no_hit; vm_compute; reflexivity|apply padded_refl]]|]). lia.
Qed.
Lemma hits_refl {A} (P : A -> Prop) l : same_hits P l l.
Proof. intros x _. reflexivity. Qed.
Lemma mobile_hits : same_hits (brand_hit tiny_compiler agree_ua) (nth 3 (db_device tiny) []) (nth 3 (db_device more) []).
Proof.
  intros x Hx. change (nth 3 (db_device more) []) with (nth 3 (db_device tiny) [] ++ [(bs "Aaa", mkYB (bs "Zork ([A-Z]+)") (bs "tablet") (bs "$1") [])]).
  rewrite in_app_iff. split; [left; assumption|]. intros [I|[<-|[]]]; [exact I|]. exfalso.
  destruct Hx as [[Pl _]|(m & _ & r & S & F)].
  - unfold brand_plain in Pl. cbn [k_static tiny_compiler yb_regex snd] in Pl. apply plain_spec in Pl. vm_compute in Pl. discriminate.
  - unfold brand_source in S. cbn [k_static tiny_compiler yb_regex snd] in S. subst r.
    refine (no_hit tiny_compiler (k_device tiny_compiler) any_case _ agree_ua _ _); [|right; exists m; exact F]. vm_compute. reflexivity.
Qed.
Lemma more_devices : devices_agree tiny_compiler agree_ua tiny more.
Proof.
  intros i f f' E E'. do 8 (destruct i as [|i]; [injection E as <-; injection E' as <-; split; [apply nodupb_ok; reflexivity|]; split; [apply nodupb_ok; reflexivity|];
    first [apply hits_refl|exact mobile_hits]|]). destruct i; discriminate E.
Qed.
Lemma more_vendors : vendors_agree agree_ua tiny more.
Proof.
  split; [apply nodupb_ok; reflexivity|]. split; [apply nodupb_ok; reflexivity|]. intros x Hx. split; [intros I; right; exact I|].
  intros [<-|I]; [|exact I]. exfalso. destruct Hx as (r & [<-|[]] & F). apply F. vm_compute. reflexivity.
Qed.

(** The patterns that the compiler writes. *)
From Verif Require Import Model_Base Model_Ctx Model_Regex Model_Compiler Model_Built Spec_Word Spec_Database.
Lemma clients_written K D r : In r (cr_re (built K D)) -> exists p, re_src r = word_start p.
Proof.
  unfold built. cbn [cr_re]. unfold compile_client. destruct (compile_entries _ (db_client D) _) as [idx k]. destruct (compile_ev _ 0 (k_buf k)) as [ev b]. cbn [co_re].
  rewrite in_map_iff. intros (p & <- & I). rewrite in_map_iff in I. destruct I as (q & <- & _). exists q. reflexivity.
Qed.
Definition ends_word (l : list (bytes * list bytes)) (r : bytes) : Prop := exists brand ps p, In (brand, ps) l /\ In p ps /\ r = p ++ bs "[^a-z0-9]+".
Lemma insert_in {A} (x y : bytes * A) l : In y (insert x l) -> y = x \/ In y l.
Proof.
  induction l as [|z l IH]; cbn [insert]; [intros [->|[]]; auto|]. destruct (str_leb (fst x) (fst z)); cbn [In].
  - intros [->|H]; auto.
  - intros [->|H]; [auto|]. destruct (IH H); auto.
Qed.
Lemma sort_in {A} (y : bytes * A) l : In y (sort_keys l) -> In y l.
Proof. unfold sort_keys. induction l as [|x l IH]; cbn [fold_right In]; [tauto|]. intros H. apply insert_in in H as [->|H]; auto. Qed.
Lemma vendors_entries all l : (forall y, In y l -> In y all) -> forall s r, Forall (ends_word all) (snd s) -> In r (snd (snd (compile_entries compile_vendor1 l s))) -> ends_word all r.
Proof.
  induction l as [|y l IH]; intros Sub s r F; cbn [compile_entries].
  - cbn [snd]. rewrite Forall_forall in F. apply F.
  - destruct (compile_vendor1 y s) as [x s1] eqn:E. specialize (IH (fun z H => Sub z (or_intror H)) s1 r).
    destruct (compile_entries compile_vendor1 l s1) as [xs s2] eqn:E2. cbn [snd] in *. apply IH.
    unfold compile_vendor1 in E. destruct s as [b re]. destruct (buf_add (fst y) b) as [b64 b1]. injection E as _ <-. cbn [snd] in *.
    apply Forall_app. split; [exact F|]. apply Forall_forall. intros q I. apply in_map_iff in I as (p & <- & I). exists (fst y), (snd y), p.
    split; [rewrite <- surjective_pairing; apply Sub; left; reflexivity|]. split; [exact I|reflexivity].
Qed.
Lemma vendors_written K D r : In r (vr_re (built K D)) -> exists brand ps p, In (brand, ps) (db_vendor D) /\ In p ps /\ re_src r = p ++ bs "[^a-z0-9]+".
Proof.
  unfold built. cbn [vr_re]. unfold compile_vendor. pose proof (vendors_entries (db_vendor D) (sort_keys (db_vendor D)) (fun y => sort_in y (db_vendor D)) (buf_empty, [])) as V.
  destruct (compile_entries compile_vendor1 (sort_keys (db_vendor D)) (buf_empty, [])) as [idx [b re]]. cbn [vo_re snd] in *.
  rewrite in_map_iff. intros (q & <- & I). exact (V q (Forall_nil _) I).
Qed.

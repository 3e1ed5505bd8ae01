(** With the shipped tables no getter but GetModel reads beyond a buffer. *)
From Coq Require Import Lia.
From Verif Require Import Model_Base Model_CacheEntry Model_Ctx Model_Parse Model_Shipped Spec_Getters Spec_Select Spec_Panic Spec_Honest Proof_Honest Proof_Fine.

Lemma alone_fine mC mD h ua g : short ua -> detects shipped mC mD ua -> alone shipped mC mD h ua g <> Panic.
Proof.
  intros S D. assert (Sm : small ua) by (unfold short, small in *; lia).
  pose proof (proj1 (shipped_detects mC mD ua S) D) as B.
  assert (C : In g client_getters -> alone shipped mC mD h ua g <> Panic).
  { intros I E. apply (shipped_client_panics mC mD h ua g Sm I) in E as (t & idx & x & H & Br). exact (B t idx x H Br). }
  destruct g; try (apply C; cbn; auto 10; fail); try (apply shipped_device_no_panic; [exact S|cbn; auto]; fail);
    try (apply shipped_os_no_panic; [exact Sm|cbn; auto]; fail).
  discriminate.
Qed.
Lemma others_fine mC mD scripts w : honest_run (begin shipped mC mD scripts) w -> forall i l rs, nth_error scripts i = Some l -> nth_error (snd w) i = Some (Ret rs) ->
  Forall2 (fun x r => short (fst (fst x)) -> detects shipped mC mD (fst (fst x)) -> snd x <> GModel -> r <> Panic) (calls l [] 0) rs.
Proof.
  intros R i l rs H1 H2. pose proof (honest shipped mC mD scripts w R i l rs H1 H2) as F.
  clear H1 H2. induction F as [|[[ua h] g] r xs rs' Hx F IH]; [constructor|]. constructor; [|exact IH]. cbn [fst snd] in *. intros S D N.
  specialize (Hx D N). unfold as_alone in Hx. rewrite Hx. apply alone_fine; assumption.
Qed.

(** The small database meets the conditions of the theorems. *)
From Verif Require Import Model_Base Model_CacheEntry Model_Version Model_Ctx Model_Regex Model_Parse Model_Compiler Model_Shipped Model_Built Data_Tiny
  Spec_Version Spec_Getters Spec_Select Spec_Compiler Spec_Database Spec_Panic Proof_Base Proof_Built.
From Coq Require Import Lia ZifyBool ZifyNat ZifyN.
From Coq Require Import Strings.Byte.
Open Scope nat_scope.

Definition proper_refb (v : bytes) : bool :=
  match v with
  | x24 :: d => match d with [c] => match digits_val [c] 0 with Some _ => true | None => false end | _ => false end
  | _ => true
  end.
Lemma digit_some c n : digits_val [c] 0 = Some n -> exists k, Digit c k /\ n = Z.of_nat k /\ k < 10.
Proof.
  cbn [digits_val]. destruct (0 <=? Z.of_N (bn c) - 48)%Z eqn:E1; [|discriminate]. destruct (Z.of_N (bn c) - 48 <=? 9)%Z eqn:E2; [|discriminate].
  cbn [andb]. intros [= <-]. exists (Z.to_nat (Z.of_N (bn c) - 48)). split; [|lia]. unfold Digit.
  destruct c; try (exfalso; cbn in E1, E2; lia); reflexivity.
Qed.
Lemma proper_refb_ok v : proper_refb v = true -> proper_ref v.
Proof.
  intros H. destruct v as [|b v]; [left; discriminate|]. destruct (Byte.byte_eq_dec b x24) as [->|N].
  - right. cbn [proper_refb] in H. destruct v as [|c [|? ?]]; try discriminate. destruct (digits_val [c] 0) as [n|] eqn:E; [|discriminate].
    destruct (digit_some _ _ E) as (k & D & -> & L). exists (Z.of_nat k). split; [|lia]. exists [c]. split; [reflexivity|]. apply Decimal_one. exact D.
  - left. intros d E. injection E as E _. contradiction.
Qed.
Fixpoint nodupb (l : list bytes) : bool := match l with [] => true | x :: l' => negb (existsb (beqs x) l') && nodupb l' end.
Lemma nodupb_ok l : nodupb l = true -> NoDup l.
Proof.
  induction l as [|x l IH]; intros H; [constructor|]. cbn [nodupb] in H. apply andb_prop in H as [H1 H2]. constructor; [|exact (IH H2)].
  intros I. assert (X : existsb (beqs x) l = true) by (apply existsb_exists; exists x; split; [exact I|apply beqs_refl]). rewrite X in H1. discriminate.
Qed.
Definition emptyb (s : bytes) : bool := match s with [] => true | _ => false end.
Definition groupb (v : bytes) : bool := match v with x24 :: _ => true | _ => false end.
Definition client_properb (y : yclient) : bool :=
  proper_refb (yc_version y) &&
  match yc_engine y with
  | Some e => emptyb (concat (map fst (ye_versions e)) ++ concat (map snd (ye_versions e))) ||
              ((emptyb (yc_version y) || groupb (yc_version y)) && nodupb (map fst (ye_versions e)) && forallb (fun ve => negb (emptyb (snd ve))) (ye_versions e))
  | None => true
  end.
Lemma client_properb_ok y : client_properb y = true -> match yc_engine y with Some e => ye_versions e = [] \/ emptyb (concat (map fst (ye_versions e)) ++ concat (map snd (ye_versions e))) = false | None => True end -> client_proper y.
Proof.
  unfold client_properb. intros H X. apply andb_prop in H as [H1 H2]. split; [exact (proper_refb_ok _ H1)|]. intros e Ee Nv. rewrite Ee in *.
  destruct X as [X|X]; [contradiction|]. rewrite X in H2. cbn [orb] in H2. apply andb_prop in H2 as [H2 H4]. apply andb_prop in H2 as [H2 H3]. split; [|split].
  - intros [N C]. apply orb_prop in H2 as [H2|H2]; [destruct (yc_version y); [contradiction|discriminate]|].
    destruct (yc_version y) as [|b d]; [contradiction|]. destruct b; try discriminate H2. exact (C d eq_refl).
  - exact (nodupb_ok _ H3).
  - apply Forall_forall. intros ve I. rewrite forallb_forall in H4. specialize (H4 ve I). cbn beta in H4. destruct ve as [a w]. cbn [snd] in *. destruct w; [discriminate H4|discriminate].
Qed.
Lemma tiny_clients : length (db_client tiny) = 7 /\ Forall (Forall client_proper) (db_client tiny).
Proof.
  split; [reflexivity|]. repeat (constructor; [repeat (constructor; [apply client_properb_ok; [reflexivity|vm_compute; auto]|]); constructor|]). constructor.
Qed.
Lemma tiny_systems : Forall os_proper (db_os tiny).
Proof.
  repeat (constructor; [split; [apply proper_refb_ok; reflexivity|split; [apply proper_refb_ok; reflexivity|]]; cbn [yo_versions];
    repeat (constructor; [apply proper_refb_ok; reflexivity|]); constructor|]). constructor.
Qed.
Lemma tiny_brands : length (db_device tiny) = 8 /\ Forall (Forall brand_proper) (db_device tiny) /\ Forall (fun v => fst v <> []) (db_vendor tiny).
Proof.
  split; [reflexivity|]. split.
  - repeat (constructor; [repeat (constructor; [split; [discriminate|split; [cbn; lia|repeat (constructor; [cbn; lia|]); constructor]]|]); constructor|]). constructor.
  - repeat (constructor; [discriminate|]). constructor.
Qed.
Lemma tiny_hints : Forall (fun f => NoDup (map fst f)) (db_hint tiny).
Proof. repeat (constructor; [apply nodupb_ok; reflexivity|]). constructor. Qed.
Lemma tiny_small : built_small (built tiny_compiler tiny).
Proof. repeat split; vm_compute; reflexivity. Qed.
Lemma tiny_apart : hash_apart tiny (bs "com.x").
Proof.
  intros other (f & v & If & Iv) E. destruct If as [<-|[<-|[]]]; cbn in Iv; destruct Iv as [Iv|Iv]; try (destruct Iv as [Iv|[]]); try injection Iv as <- <-; try reflexivity; try destruct Iv; vm_compute in E; discriminate.
Qed.
Lemma tiny_hint : db_hint_is tiny (bs "com.x") (bs "X App").
Proof. exists [], [(bs "com.x", bs "X App")], [[(bs "com.y", bs "Y App"); (bs "com.x", bs "Other")]]. split; [reflexivity|]. split; [intros g v []|left; reflexivity]. Qed.

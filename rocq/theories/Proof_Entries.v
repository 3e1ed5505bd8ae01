(** The shipped database: which entries are shadowed, and witnesses for the others. *)
From Verif Require Import Model_Base Model_Blob Model_Ctx Model_Regex Model_Shipped Spec_Select Spec_Dead Data_Witness
  Proof_Select Proof_OS Proof_Dead Proof_Shadow.
Open Scope nat_scope.

Definition os_ds : list (nat * list nat) := [(201, [199]); (231, [230]); (271, [237; 268])].
Definition client_ds : list (nat * nat * list nat) :=
  [((1, 349), [348]); ((1, 352), [351]); ((1, 386), [385]); ((5, 93), [60]); ((5, 380), [64]); ((5, 451), [66]);
   ((5, 459), [167]); ((5, 461), [65]); ((5, 524), [23])].
Definition device_ds : list (nat * nat * list nat) :=
  [((3, 175), [174]); ((3, 310), [250]); ((3, 322), [164]); ((3, 358), [222]); ((3, 656), [629]); ((3, 791),
   [502]); ((3, 811), [661]); ((3, 1006), [1005]); ((3, 1044), [849]); ((3, 1059), [502; 862; 1029]); ((3, 1071),
   [1029]); ((3, 1150), [732]); ((3, 1208), [85]); ((3, 1234), [1233]); ((3, 1255), [1140]); ((3, 1279), [1029]);
   ((3, 1285), [96; 1029]); ((3, 1293), [1029]); ((3, 1311), [732]); ((3, 1314), [1015]); ((3, 1316), [455]); ((3, 1344), [661]); ((3, 1358), [250]); ((3, 1373), [199]); ((3, 1471), [1029]); ((3, 1480), [1411]); ((3, 1510),
   [815; 1029]); ((3, 1545), [497]); ((3, 1562), [78]); ((3, 1565), [106]); ((3, 1591), [106]); ((3, 1627),
   [1375]); ((3, 1636), [426]); ((3, 1719), [1029]); ((3, 1743), [1642]); ((3, 1846), [543]); ((3, 1868), [949]);
   ((3, 1896), [1029]); ((3, 1918), [278]); ((3, 1974), [1029]); ((7, 132), [129]); ((7, 139), [135]); ((7, 174),
   [84])].
Lemma os_ds_ok : forallb (os_shadow shipped) os_ds = true.
Proof. vm_cast_no_check (eq_refl true). Qed.
Lemma client_ds_ok : forallb (shadow_each (cr_re shipped) (cr_buf shipped) ct_matchRI ct_match64 (cr_idx shipped)) client_ds = true.
Proof. vm_cast_no_check (eq_refl true). Qed.
Lemma device_ds_ok : forallb (shadow_each (dr_re shipped) (dr_buf shipped) dt_matchRI dt_match64 (dr_idx shipped)) device_ds = true.
Proof. vm_cast_no_check (eq_refl true). Qed.

(** ** Witnesses: operating systems and clients *)
Lemma os_ws : alive_check _ (os_quick shipped) (os_sure shipped) [] (or_os shipped) (map unblob os_agents) = true.
Proof. vm_cast_no_check (eq_refl true). Qed.
Definition client_agents : list (list blob) :=
  [client_agents0; client_agents1; client_agents2; client_agents3; client_agents4; client_agents5; client_agents6].
Definition each_alive {A} (check : list A -> list bytes -> bool) : list (list A) -> list (list blob) -> bool :=
  fix go ls ws := match ls, ws with
    | [], [] => true
    | l :: ls', w :: ws' => if check l (map unblob w) then go ls' ws' else false
    | _, _ => false
    end.
Lemma each_alive_nth {A} (check : list A -> list bytes -> bool) ls : forall ws, each_alive check ls ws = true ->
  forall k l, nth_error ls k = Some l -> exists w, nth_error ws k = Some w /\ check l (map unblob w) = true.
Proof.
  induction ls as [|l ls IH]; intros [|w ws] H k m E; try discriminate H; [destruct k; discriminate E|].
  cbn in H. destruct (check l (map unblob w)) eqn:C; [|discriminate H]. destruct k as [|k]; [injection E as <-; exists w; auto|exact (IH ws H k m E)].
Qed.
Lemma client_ws : each_alive (alive_check _ (client_quick shipped) (client_sure shipped) []) (cr_idx shipped) client_agents = true.
Proof. vm_cast_no_check (eq_refl true). Qed.

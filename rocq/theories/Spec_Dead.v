(** Entries of a table that can never answer. *)
From Verif Require Import Model_Base Model_Ctx Spec_Select.

(** Entry number [i] of [l] is the first to which [P] applies. *)
Definition picked {A} (P : A -> Prop) (l : list A) (i : nat) : Prop :=
  exists x, nth_error l i = Some x /\ P x /\ forall j y, j < i -> nth_error l j = Some y -> ~ P y.
(** No user agent picks it. *)
Definition dead {A} (P : bytes -> A -> Prop) (l : list A) (i : nat) : Prop := forall ua, ~ picked (P ua) l i.

(** [l] without the entries at the given places. *)
Fixpoint without_from {A} (n : nat) (places : list nat) (l : list A) : list A :=
  match l with
  | [] => []
  | x :: l' => if existsb (Nat.eqb n) places then without_from (S n) places l' else x :: without_from (S n) places l'
  end.
Definition without {A} (places : list nat) (l : list A) : list A := without_from 0 places l.

(** Tables with other lists of operating systems, of clients and of devices. *)
Definition with_lists (T : tables) (os : list osTuple) (clients : list (list clientTuple)) (devices : list (list deviceTuple)) : tables :=
  mkTables clients (cr_re T) (cr_ef T) (cr_ev T) (cr_evre T) (cr_buf T) os (or_ov T) (or_re T) (or_buf T)
    devices (dr_dm T) (dr_re T) (dr_buf T) (vr_idx T) (vr_re T) (vr_buf T) (hr_idx T) (hr_buf T) (re_tablet T) (re_mobile T) (re_blink T).

(** The classes of [ls] without the entries at the given places (class, entry). *)
Fixpoint without_each_from {A} (n : nat) (ds : list (nat * nat)) (ls : list (list A)) : list (list A) :=
  match ls with
  | [] => []
  | l :: ls' => without (map snd (filter (fun d => fst d =? n) ds)) l :: without_each_from (S n) ds ls'
  end.
Definition without_each {A} (ds : list (nat * nat)) (ls : list (list A)) : list (list A) := without_each_from 0 ds ls.

(** Two getter calls do the same: the same questions to the cache, the same entries stored, and, whatever the cache
    replies, the same context and the same result in the end. *)
Fixpoint alike {A} (p q : prog A) : Prop :=
  match p, q with
  | Ret a, Ret b => a = b
  | CGet k f, CGet k' f' => k = k' /\ forall o, alike (f o) (f' o)
  | CSet k e p', CSet k' e' q' => k = k' /\ e = e' /\ alike p' q'
  | _, _ => False
  end.

(** ** The shipped database *)
(** os_repo.go: three operating systems (of 330). *)
Definition dead_os : list nat := [201; 231; 271].
(** client_repo.go: (class, entry) of nine clients (of 1449 in the six classes). *)
Definition dead_clients : list (nat * nat) :=
  [(1, 349); (1, 352); (1, 386); (5, 93); (5, 380); (5, 451); (5, 459); (5, 461); (5, 524)].
(** device_repo.go: (class, entry) of devices. *)
Definition dead_devices : list (nat * nat) :=
  [(3, 175); (3, 310); (3, 322); (3, 358); (3, 656); (3, 791); (3, 811); (3, 1006); (3, 1044); (3, 1059); (3, 1071); (3, 1150); (3, 1208); (3, 1234); (3, 1255); (3, 1279); (3, 1285); (3, 1293); (3, 1311); (3, 1314); (3, 1316); (3, 1344); (3, 1358); (3, 1373); (3, 1471); (3, 1480); (3, 1510); (3, 1545); (3, 1562); (3, 1565); (3, 1591); (3, 1627); (3, 1636); (3, 1719); (3, 1743); (3, 1846); (3, 1868); (3, 1896); (3, 1918); (3, 1974); (7, 132); (7, 139); (7, 174)].

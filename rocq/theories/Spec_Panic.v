(** The condition under which a client entry makes the detection panic. *)
From Verif Require Import Model_Base Model_Ctx Model_Parse Spec_Getters.

(** The entry applies by a pattern, has no constant version and takes its version from a group whose number is below
    the length of the list of positions but beyond the number of groups (client_parser.go:92-95 compares the number
    of the group with the number of positions, which is twice the number of groups). *)
Definition missing_group (T : tables) (ua : bytes) (x : clientTuple) : Prop :=
  exists r m, (0 <= ct_matchRI x)%Z /\ ct_version64 x = 0%N /\
    nth_error (cr_re T) (Z.to_nat (ct_matchRI x)) = Some r /\ re_find r ua = Some m /\
    (0 <= ct_browserVI x < Z.of_nat (length m))%Z /\ (Z.of_nat (length m) <= 2 * ct_browserVI x + 1)%Z.

(** The getters of the client group. *)
Definition client_getters : list getter :=
  [GClientType; GBrowser; GBrowserVersion; GBrowserVersionString; GEngine; GEngineVersion; GEngineVersionString].

(** The eight entries of the shipped table (class, position) whose patterns have fewer groups than they name. *)
Definition broken_places : list (nat * nat) :=
  [(1, 191); (1, 279); (3, 26); (3, 93); (3, 100); (5, 43); (5, 468); (5, 516)]%nat.
Definition broken (T : tables) (idx : nat) (x : clientTuple) : Prop :=
  exists ir k, nth_error (cr_idx T) idx = Some ir /\ In (idx, k) broken_places /\ nth_error ir k = Some x.

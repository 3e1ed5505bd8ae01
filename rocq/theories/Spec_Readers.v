(** One context read by several goroutines at once. *)
From Verif Require Import Model_Base Model_CacheEntry Model_Version Model_Ctx Model_Parse Model_Readers Spec_Getters Spec_Again.

(** ** Data races.  The goroutines do not wait for each other, so any two accesses by two of them are unordered. *)
Definition touches (x : access) (l : loc) : Prop := x = Reads l \/ x = Writes l \/ x = WritesAll.
Definition changes (x : access) (l : loc) : Prop := x = Writes l \/ x = WritesAll.
Definition clash (tr : list (nat * access)) : Prop :=
  exists i j x y l, i <> j /\ In (i, x) tr /\ In (j, y) tr /\ changes x l /\ touches y l.

(** ** Contexts about which everything has been asked *)

(** The detections have been made and the three versions have been parsed. *)
Definition settled_ctx (c : ctx) : Prop :=
  (forall f, In f [flagClientDetect; flagDeviceDetect; flagOSDetect] -> check_bit (c_bits c) f = true) /\
  v_p (c_cver c) = true /\ v_p (c_ever c) = true /\ v_p (c_over c) = true.
(** Asking for the OS version leaves the context as it is (the text has no underscore). *)
Definition plain_version (T : tables) (c : ctx) : Prop := fst (run_cold (run_getter T GOSVersionString c)) = c.
(** Getters called one after the other on a context, the cache having nothing. *)
Fixpoint cold_calls (T : tables) (gs : list getter) (c : ctx) : ctx * list (res value) :=
  match gs with
  | [] => (c, [])
  | g :: gs' =>
      let x := run_cold (run_getter T g c) in
      let y := cold_calls T gs' (fst x) in (fst y, snd x :: snd y)
  end.
Definition every_getter : list getter :=
  [GClientType; GBrowser; GBrowserVersion; GBrowserVersionString; GEngine; GEngineVersion; GEngineVersionString;
   GDeviceType; GBrand; GModel; GOS; GOSVersion; GOSVersionString; GUserAgent].
(** The call has not panicked and, if it gives a Version, [Version.Parse] has accepted the text. *)
Definition went_well (r : res value) : Prop :=
  match r with Panic => False | Ok (VV v) => v_p v = true | Ok _ => True end.

(** ** A getter by itself, access by access *)
Inductive ends {A} : steps A -> ctx -> ctx -> res A -> Prop :=
| E_stop c r : ends (Stop r) c c r
| E_read l k c c' r : ends (k (peek l c)) c c' r -> ends (Read l k) c c' r
| E_write l v k c c' r : ends k (poke l v c) c' r -> ends (Write l v k) c c' r
| E_detect p k c c1 a c' r : leaf (p c) (c1, Ok a) -> ends k c1 c' r -> ends (Detect p k) c c' r
| E_panic p k c c1 : leaf (p c) (c1, Panic) -> ends (Detect p k) c c1 Panic.

(** The goroutine has got the answers [c] gives, as far as it has come. *)
Definition answered_by (T : tables) (c : ctx) (calls : list getter) (g : gorout) : Prop :=
  exists done rest, calls = done ++ rest /\ g_got g = map (answer T c) done /\
    (g_now g = None -> g_todo g = [] -> rest = []).

(** The cache calls a context makes, as a cache installed with SetCache sees them. *)
From Verif Require Import Model_Base Model_CacheEntry Model_Ctx Model_Parse Model_Cache Spec_Getters.

Inductive call := Look (key : bytes) | Store (key : bytes).
Definition key_of (x : call) : bytes := match x with Look k | Store k => k end.
Definition looks (l : list call) : nat := length (filter (fun x => match x with Look _ => true | Store _ => false end) l).
Definition stores (l : list call) : nat := length (filter (fun x => match x with Look _ => false | Store _ => true end) l).

(** A cache that answers anything at all. *)
Inductive talks {A} : prog A -> list call -> A -> Prop :=
| T_ret a : talks (Ret a) [] a
| T_get key k o l a : talks (k o) l a -> talks (CGet key k) (Look key :: l) a
| T_set key e k l a : talks k l a -> talks (CSet key e k) (Store key :: l) a.

(** A cache that nobody else uses for this user agent: a look-up finds the row (with a hash and a time of the cache's
    own) or the row has been lost. *)
Inductive serves {A} : option entry -> prog A -> list call -> A -> option entry -> Prop :=
| V_ret o a : serves o (Ret a) [] a o
| V_miss o key k l a o' : serves None (k None) l a o' -> serves o (CGet key k) (Look key :: l) a o'
| V_hit e hk ts key k l a o' : serves (Some e) (k (Some (with_stamp e hk ts))) l a o' -> serves (Some e) (CGet key k) (Look key :: l) a o'
| V_set o key e k l a o' : serves (Some e) k l a o' -> serves o (CSet key e k) (Store key :: l) a o'.

(** The number of detections a getter may start. *)
Definition detections (g : getter) : nat :=
  match g with
  | GUserAgent => 0
  | GDeviceType | GBrand | GModel => 2
  | _ => 1
  end.

(** What the getters are about. *)
Inductive kind := KNone | KClient | KDevice | KOS.
Definition group_of (g : getter) : kind :=
  match g with
  | GUserAgent => KNone
  | GDeviceType | GBrand | GModel => KDevice
  | GOS | GOSVersion | GOSVersionString => KOS
  | GClientType | GBrowser | GBrowserVersion | GBrowserVersionString | GEngine | GEngineVersion | GEngineVersionString => KClient
  end.
(** The getters that return a parsed version (and keep it in the context). *)
Definition structured (g : getter) : bool := match g with GBrowserVersion | GEngineVersion | GOSVersion => true | _ => false end.

(** Calls that keep the user agent. *)
Definition stays (x : act) : Prop := match x with ASetHint _ | AGet _ => True | ASetUA _ | ARecycle => False end.

(** Two contexts for one user agent, taking turns with whole getter calls, over a cache that loses nothing. *)
Fixpoint turn {A} (p : prog A) (o : option entry) : A * option entry * list call :=
  match p with
  | Ret a => (a, o, [])
  | CGet key k => let '(a, o', l) := turn (k o) o in (a, o', Look key :: l)
  | CSet key e k => let '(a, o', l) := turn k (Some e) in (a, o', Store key :: l)
  end.
Fixpoint turns (T : tables) (plan : list (bool * getter)) (c1 c2 : ctx) (o : option entry) : list (bool * call) :=
  match plan with
  | [] => []
  | (first, g) :: plan' =>
      let '((c, _), o', l) := turn (run_getter T g (if first then c1 else c2)) o in
      map (pair first) l ++ turns T plan' (if first then c else c1) (if first then c2 else c) o'
  end.
Definition of_first (l : list (bool * call)) : list call := map snd (filter fst l).

(** What the getters of a context promise: the value of a getter called alone on a fresh context with a cache that
    never answers, histories of one context, and interleavings of several contexts over the built-in cache. *)
From Verif Require Import Model_Base Model_CacheEntry Model_Version Model_Ctx Model_Parse Model_Cache.

(** A context holding only the inputs. *)
Definition fresh_ctx (mC mD h : N) (ua : bytes) : ctx :=
  mkCtx 0 ua [] mC mD h 0 0 0 version_zero 0 0 version_zero 0 0 0 0 0 version_zero.

(** Run with a cache that never finds anything. *)
Fixpoint run_cold {A} (p : prog A) : A :=
  match p with
  | Ret a => a
  | CGet _ k => run_cold (k None)
  | CSet _ _ k => run_cold k
  end.

(** The outcome of a getter called alone. *)
Definition alone (T : tables) (mC mD h : N) (ua : bytes) (g : getter) : res value :=
  snd (run_cold (run_getter T g (fresh_ctx mC mD h ua))).

(** A new context after the two filters, SetUserAgent and SetRequestedWith, in this order. *)
Definition prepared (mC mD : N) (header ua : bytes) : ctx :=
  set_requested_with header (set_user_agent ua (filter_device_type mD (filter_client_type mC new_ctx))).
(** The outcome of a getter on a context, with a cache that never answers. *)
Definition answer (T : tables) (c : ctx) (g : getter) : res value := snd (run_cold (run_getter T g c)).

(** None of the three detections of [ua] panics. *)
Definition detects (T : tables) (mC mD : N) (ua : bytes) : Prop :=
  alone T mC mD 0 ua GClientType <> Panic /\ alone T mC mD 0 ua GDeviceType <> Panic /\
  alone T mC mD 0 ua GOS <> Panic.

(** ** What a goroutine does with its context *)
Inductive act :=
| ASetUA (ua : bytes)        (* SetUserAgent *)
| ASetHint (h : bytes)       (* SetRequestedWith *)
| ARecycle                   (* Release, Acquire and the two Filter calls *)
| AGet (g : getter).

Definition recycle (mC mD : N) (c : ctx) : ctx := filter_device_type mD (filter_client_type mC (ctx_reset c)).

(** The program of a goroutine; a panicking getter is recovered and the goroutine goes on. *)
Fixpoint script (T : tables) (mC mD : N) (l : list act) (c : ctx) : prog (list (res value)) :=
  match l with
  | [] => Ret []
  | ASetUA ua :: l' => script T mC mD l' (set_user_agent ua c)
  | ASetHint h :: l' => script T mC mD l' (set_requested_with h c)
  | ARecycle :: l' => script T mC mD l' (recycle mC mD c)
  | AGet g :: l' =>
      prog_bind (run_getter T g c) (fun x =>
      prog_bind (script T mC mD l' (fst x)) (fun rs => Ret (snd x :: rs)))
  end.

(** The user agents a goroutine asks about (starting with [ua]). *)
Fixpoint asked (l : list act) (ua : bytes) : list bytes :=
  match l with
  | [] => []
  | ASetUA ua' :: l' => asked l' ua'
  | ASetHint _ :: l' => asked l' ua
  | ARecycle :: l' => asked l' []
  | AGet _ :: l' => ua :: asked l' ua
  end.

(** The getter calls of a goroutine, each with the user agent and the hint current at that moment. *)
Fixpoint calls (l : list act) (ua : bytes) (h : N) : list (bytes * N * getter) :=
  match l with
  | [] => []
  | ASetUA ua' :: l' => calls l' ua' 0
  | ASetHint s :: l' => calls l' ua (match s with [] => h | _ => fnv1 s end)
  | ARecycle :: l' => calls l' [] 0
  | AGet g :: l' => (ua, h, g) :: calls l' ua h
  end.

(** The outcome [r] of a call is the one it would have alone. *)
Definition as_alone (T : tables) (mC mD : N) (x : bytes * N * getter) (r : res value) : Prop :=
  let '(ua, h, g) := x in r = alone T mC mD h ua g.

(** ** Interleavings over the built-in cache *)

Record config := mkConf { cf_cache : cstate; cf_threads : list (prog (list (res value))) }.

(** One step: a goroutine performs its next cache call (at any clock reading), or the cleaner runs. *)
Inductive conc_step : config -> config -> Prop :=
| Step_get : forall st ts1 ts2 key k now,
    conc_step (mkConf st (ts1 ++ CGet key k :: ts2))
              (mkConf (fst (cache_get st key now))
                      (ts1 ++ k (option_map (cs_heap (fst (cache_get st key now))) (snd (cache_get st key now))) :: ts2))
| Step_set : forall st st' ts1 ts2 key e p now,
    cstep st (OSet key e now) = Ok st' ->
    conc_step (mkConf st (ts1 ++ CSet key e p :: ts2)) (mkConf st' (ts1 ++ p :: ts2))
| Step_clean : forall st ts now, conc_step (mkConf st ts) (mkConf (cache_clean st now) ts).

Inductive conc_run : config -> config -> Prop :=
| Run_refl : forall c, conc_run c c
| Run_step : forall c1 c2 c3, conc_run c1 c2 -> conc_step c2 c3 -> conc_run c1 c3.

(** Several goroutines, each with a new context on which the two filters have been set, over an empty cache. *)
Definition start (T : tables) (mC mD : N) (scripts : list (list act)) : config :=
  mkConf cs_empty (map (fun l => script T mC mD l (recycle mC mD new_ctx)) scripts).

Definition finished (p : prog (list (res value))) : Prop := exists rs, p = Ret rs.

(** The user agents of all goroutines have different hashes. *)
Definition collision_free (uas : list bytes) : Prop := forall a b, In a uas -> In b uas -> fnv1 a = fnv1 b -> a = b.

(** One goroutine running by itself, the clock standing still. *)
Fixpoint run_seq {A} (p : prog A) (st : cstate) : res (A * cstate) :=
  match p with
  | Ret a => Ok (a, st)
  | CGet key k =>
      let '(st', r) := cache_get st key 0 in run_seq (k (option_map (cs_heap st') r)) st'
  | CSet key e k => rbind (cstep st (OSet key e 0)) (fun st' => run_seq k st')
  end.

(** ** One context and a cache used by nobody else for this user agent *)

(** Run with a cache whose row for the current user agent is [o]; the row may be evicted at any moment (the list of
    booleans says, for each look-up, whether it was). *)
Fixpoint run_priv {A} (p : prog A) (o : option entry) (ev : list bool) : A * option entry * list bool :=
  match p with
  | Ret a => (a, o, ev)
  | CGet _ k =>
      match ev with
      | true :: ev' => run_priv (k None) None ev'
      | false :: ev' => run_priv (k o) o ev'
      | [] => run_priv (k o) o []
      end
  | CSet _ e k => run_priv k (Some e) ev
  end.

(** A sequence of getters on one context. *)
Fixpoint run_getters (T : tables) (gs : list getter) (c : ctx) (o : option entry) (ev : list bool)
  : list (res value) * ctx * option entry * list bool :=
  match gs with
  | [] => ([], c, o, ev)
  | g :: gs' =>
      let '((c', r), o', ev') := run_priv (run_getter T g c) o ev in
      let '(rs, c'', o'', ev'') := run_getters T gs' c' o' ev' in
      (r :: rs, c'', o'', ev'')
  end.

(** The group a getter belongs to, as the flag recording that the group has been detected. *)
Definition group (g : getter) : option N :=
  match g with
  | GClientType | GBrowser | GBrowserVersion | GBrowserVersionString | GEngine | GEngineVersion | GEngineVersionString =>
      Some flagClientDetect
  | GDeviceType | GBrand | GModel => Some flagDeviceDetect
  | GOS | GOSVersion | GOSVersionString => Some flagOSDetect
  | GUserAgent => None
  end.

(** ** The pool *)

(** The pools that can arise: any context whatever may be released, any number of times. *)
Inductive pool_reach : pool -> Prop :=
| Pool_empty : pool_reach []
| Pool_put p c : pool_reach p -> pool_reach (pool_put p c)
| Pool_get p c p' : pool_reach p -> pool_get p c p' -> pool_reach p'
| Pool_drop p p' : pool_reach p -> pool_drop p p' -> pool_reach p'.

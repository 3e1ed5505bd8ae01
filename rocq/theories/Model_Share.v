(** Contexts as shared objects: users hold pointers to them, the pool stores pointers. *)
From Verif Require Import Model_Base Model_CacheEntry Model_Ctx Model_Parse Spec_Getters Spec_Again.

(** What a user can do with a context: ctx.go:65-90 (setters and filters) and the getters; a getter ends in any way some
    answers of the cache allow.  Calls are taken as a whole. *)
Inductive op := OUserAgent (ua : bytes) | OHeader (h : bytes) | OFilters (mC mD : N) | OGet (g : getter).
Inductive does (T : tables) (c : ctx) : op -> ctx -> option (res value) -> Prop :=
| D_user_agent ua : does T c (OUserAgent ua) (set_user_agent ua c) None
| D_header h : does T c (OHeader h) (set_requested_with h c) None
| D_filters mC mD : does T c (OFilters mC mD) (filter_device_type mD (filter_client_type mC c)) None
| D_get g c' r : leaf (run_getter T g c) (c', r) -> does T c (OGet g) c' (Some r).

(** Users and contexts have numbers.  The contexts that exist, and the pointers the pool holds. *)
Record shared := mkSh { sh_heap : list ctx; sh_free : list nat }.
Inductive event := EAcquire (u p : nat) | EDo (u p : nat) (o : op) (r : option (res value)) | ERelease (u p : nat) | EDrop (p : nat).
Fixpoint put_ctx (h : list ctx) (p : nat) (c : ctx) : list ctx :=
  match h, p with
  | [], _ => []
  | _ :: h', 0 => c :: h'
  | x :: h', S p' => x :: put_ctx h' p' c
  end.

(** pool.go:19-33, 36-43: [Get] takes any pointer the pool holds, or makes a new context (sync.Pool may answer nil at any
    time, and may drop what it holds); [Put] resets the context and stores the pointer, without looking who holds it. *)
Inductive moves1 (T : tables) (s : shared) : event -> shared -> Prop :=
| M_old u p f1 f2 : sh_free s = f1 ++ p :: f2 -> moves1 T s (EAcquire u p) (mkSh (sh_heap s) (f1 ++ f2))
| M_new u : moves1 T s (EAcquire u (length (sh_heap s))) (mkSh (sh_heap s ++ [new_ctx]) (sh_free s))
| M_do u p c o c' r : nth_error (sh_heap s) p = Some c -> does T c o c' r -> moves1 T s (EDo u p o r) (mkSh (put_ctx (sh_heap s) p c') (sh_free s))
| M_put u p c : nth_error (sh_heap s) p = Some c -> moves1 T s (ERelease u p) (mkSh (put_ctx (sh_heap s) p (ctx_reset c)) (p :: sh_free s))
| M_drop p f1 f2 : sh_free s = f1 ++ p :: f2 -> moves1 T s (EDrop p) (mkSh (sh_heap s) (f1 ++ f2)).

(** What has happened, the last event first. *)
Inductive happens (T : tables) : list event -> shared -> Prop :=
| Hp_start : happens T [] (mkSh [] [])
| Hp_step tr s e s' : happens T tr s -> moves1 T s e s' -> happens T (e :: tr) s'.

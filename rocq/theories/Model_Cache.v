(** Model of cache.go: the built-in cache, at pointer level.

    Simplifications: the ticker goroutine (cache.go:29-37) is the operation [clean] happening at arbitrary moments;
    [sync.Once]/[init] only makes the map non-nil (the initial state has the empty map); each operation is one
    critical section of [mux] (Set's two field writes happen before the lock, on a row no other goroutine has yet
    when the row is fresh); the clock reading is an argument. *)
From Verif Require Import Model_Base Model_CacheEntry.

(** cache.go:11 [cacheTTL = int64(time.Hour)], nanoseconds. *)
Definition cacheTTL : Z := 3600000000000%Z.

(** A *CacheEntry is an address. *)
Definition ptr := nat.

(** cache.go:18-23 [type cache struct] together with the heap of rows it points into ([cs_next] is the next free
    address). *)
Record cstate := mkC {
  cs_heap : ptr -> entry;
  cs_next : nat;
  cs_idx : N -> option nat;      (* map[uint64]int *)
  cs_buf : list ptr              (* []*CacheEntry *)
}.

Definition cs_empty : cstate := mkC (fun _ => entry_zero) 0 (fun _ => None) [].

Definition upd_ptr (h : ptr -> entry) (p : ptr) (e : entry) : ptr -> entry :=
  fun q => if q =? p then e else h q.
Definition map_set (m : N -> option nat) (k : N) (i : nat) : N -> option nat :=
  fun k' => if (k' =? k)%N then Some i else m k'.
Definition map_del (m : N -> option nat) (k : N) : N -> option nat :=
  fun k' => if (k' =? k)%N then None else m k'.

(** [l[i] = x]. *)
Fixpoint store {A} (l : list A) (i : nat) (x : A) : list A :=
  match l, i with
  | [], _ => []
  | _ :: t, 0 => x :: t
  | y :: t, S i' => y :: store t i' x
  end.

Definition with_stamp (e : entry) (hk : N) (ts : Z) : entry :=
  mkEntry (e_bits e) (e_clientType e) (e_clientName e) (e_clientVersion e) (e_engineName e) (e_engineVersion e)
          (e_deviceType e) (e_brandName e) (e_modelName e) (e_osName e) (e_osVersion e) (e_data e) hk ts.

(** A new row: [var e CacheEntry] filled by the caller. *)
Definition alloc (st : cstate) (e : entry) : cstate * ptr :=
  (mkC (upd_ptr (cs_heap st) (cs_next st) e) (S (cs_next st)) (cs_idx st) (cs_buf st), cs_next st).

(** cache.go:40-55 [Set]. *)
Definition cache_set (st : cstate) (key : bytes) (row : ptr) (now : Z) : res cstate :=
  let hk := fnv1 key in
  let heap := upd_ptr (cs_heap st) row (with_stamp (cs_heap st row) hk now) in
  match cs_idx st hk with
  | Some i =>
      if i <? length (cs_buf st)
      then Ok (mkC heap (cs_next st) (cs_idx st) (store (cs_buf st) i row))
      else Panic
  | None =>
      let buf := cs_buf st ++ [row] in
      Ok (mkC heap (cs_next st) (map_set (cs_idx st) hk (length buf - 1)) buf)
  end.

(** cache.go:57-68 [Get]: [None] is errCache404. *)
Definition cache_get (st : cstate) (key : bytes) (now : Z) : cstate * option ptr :=
  let hk := fnv1 key in
  match cs_idx st hk with
  | Some i =>
      match nth_error (cs_buf st) i with
      | Some p =>
          let e := cs_heap st p in
          (mkC (upd_ptr (cs_heap st) p (with_stamp e (e_hkey e) now)) (cs_next st) (cs_idx st) (cs_buf st), Some p)
      | None => (st, None)
      end
  | None => (st, None)
  end.

(** cache.go:75-87, the loop of [clean], from index [i]; [fuel] bounds the number of iterations
    (every iteration increments [i] and none lengthens [buf], so [length buf] suffices). *)
Definition row_expired (heap : ptr -> entry) (now : Z) (p : ptr) : bool :=
  (cacheTTL <? wrap64 (now - e_timestamp (heap p)))%Z.

Fixpoint clean_loop (fuel : nat) (heap : ptr -> entry) (now : Z) (i : nat) (idx : N -> option nat) (buf : list ptr)
  : (N -> option nat) * list ptr :=
  match fuel with
  | 0 => (idx, buf)
  | S fuel' =>
      match nth_error buf i with
      | None => (idx, buf)
      | Some p =>
          if row_expired heap now p then
            let l := length buf in
            let old := e_hkey (heap p) in
            let buf := store buf i (nth (l - 1) buf 0) in
            let buf := firstn (l - 1) buf in
            let idx := match nth_error buf i with
                       | Some q => map_set idx (e_hkey (heap q)) i
                       | None => idx
                       end in
            let idx := map_del idx old in
            clean_loop fuel' heap now (S i) idx buf
          else clean_loop fuel' heap now (S i) idx buf
      end
  end.

(** cache.go:70-88 [clean]. *)
Definition cache_clean (st : cstate) (now : Z) : cstate :=
  let '(idx, buf) := clean_loop (length (cs_buf st)) (cs_heap st) now 0 (cs_idx st) (cs_buf st) in
  mkC (cs_heap st) (cs_next st) idx buf.

(** Histories.  [OSet] stores a freshly allocated row (what the parsers do: client_parser.go:27-29,
    device_parser.go:55-57, os.go:54-56); [OSetPtr] re-uses a pointer. *)
Inductive cop :=
| OSet (key : bytes) (e : entry) (now : Z)
| OSetPtr (key : bytes) (p : ptr) (now : Z)
| OGet (key : bytes) (now : Z)
| OClean (now : Z).

Definition cstep (st : cstate) (o : cop) : res cstate :=
  match o with
  | OSet k e now => let '(st, p) := alloc st e in cache_set st k p now
  | OSetPtr k p now => cache_set st k p now
  | OGet k now => Ok (fst (cache_get st k now))
  | OClean now => Ok (cache_clean st now)
  end.

Fixpoint crun (st : cstate) (h : list cop) : res cstate :=
  match h with
  | [] => Ok st
  | o :: h' => rbind (cstep st o) (fun st' => crun st' h')
  end.

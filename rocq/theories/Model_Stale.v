(** What is left in the working buffer of a context beyond its length.  Go checks the bounds of a slice of a slice against the
    capacity, and [c.buf[:0]] keeps the array (ctx.go:291): [GetModel] of a record taken from the cache may read
    bytes that an earlier analysis has left there.  [Model_Parse.v] calls such a read a panic. *)
From Verif Require Import Model_Base Model_CacheEntry Model_Ctx Model_Parse Model_Memory.

(** [s[lo:hi]] of a slice: as far as the array goes. *)
Definition cap_slice64 (h : heap) (s : sl) (e : N) : res bytes := slice64 (arr h (sl_arr s)) e.

(** ctx.go:216-227 [GetModel], after the detection. *)
Definition model_in (m : mem) (c : ctx) : res bytes :=
  if (c_model c =? 0)%N then Ok []
  else match cap_slice64 (m_heap m) (m_buf m) (c_model c) with Ok raw => Ok (trim raw x20) | Panic => Panic end.

(** Stability of returned strings. *)
From Verif Require Import Model_Base Model_CacheEntry Model_Ctx Model_Parse Model_Memory.

(** The memory holds the two buffers of the context, in different arrays. *)
Definition represents (m : mem) (c : ctx) : Prop :=
  contents (m_heap m) (m_src m) = c_src c /\ contents (m_heap m) (m_buf m) = c_buf c /\
  sl_arr (m_src m) < length (m_heap m) /\ sl_arr (m_buf m) < length (m_heap m) /\ sl_arr (m_src m) <> sl_arr (m_buf m) /\
  sl_len (m_src m) <= length (arr (m_heap m) (sl_arr (m_src m))) /\ sl_len (m_buf m) <= length (arr (m_heap m) (sl_arr (m_buf m))).

(** A string in use: a constant, or in an existing array, and not beyond the end of the buffer. *)
Definition live (m : mem) (x : str) : Prop :=
  match x with
  | SConst _ => True
  | SRef a off n => a < length (m_heap m) /\ (a = sl_arr (m_buf m) -> off + n <= sl_len (m_buf m))
  end.
(** ... and not in the array of the buffer at all. *)
Definition apart (m : mem) (x : str) : Prop :=
  match x with SConst _ => True | SRef a _ _ => a < length (m_heap m) /\ a <> sl_arr (m_buf m) end.

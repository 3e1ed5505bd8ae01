(** Vocabulary of the cache-entry properties, independent of the codec's helpers. *)
From Verif Require Import Model_Base Model_CacheEntry.

(** The Go types of the fields of CacheEntry (cache_entry.go:12-33): every field holds a value of its type,
    and the data is shorter than 4 GiB (its length is written as uint32). *)
Definition entry_wf (r : entry) : Prop :=
  (e_bits r < 2 ^ 64 /\ e_clientType r < 2 ^ 8 /\ e_clientName r < 2 ^ 64 /\ e_clientVersion r < 2 ^ 64 /\
   e_engineName r < 2 ^ 64 /\ e_engineVersion r < 2 ^ 64 /\ e_deviceType r < 2 ^ 16 /\
   e_brandName r < 2 ^ 64 /\ e_modelName r < 2 ^ 64 /\ e_osName r < 2 ^ 64 /\ e_osVersion r < 2 ^ 64 /\
   e_hkey r < 2 ^ 64 /\ N.of_nat (length (e_data r)) < 2 ^ 32)%N /\
  (- 2 ^ 63 <= e_timestamp r < 2 ^ 63)%Z.

(** The length announced by a serialised entry: the little-endian uint32 at offset 91. *)
Definition announced (d : bytes) : N :=
  (bn (nth 91 d x00) + 256 * bn (nth 92 d x00) + 65536 * bn (nth 93 d x00) + 16777216 * bn (nth 94 d x00))%N.

(** The wire format of a cache row: what stands where. *)
From Verif Require Import Model_Base Model_CacheEntry.

(** Offset, width and value of each number (cache_entry.go:71-113 lists the fields in this order). *)
Definition layout (r : entry) : list (nat * nat * N) :=
  [(0, 8, e_bits r); (8, 1, e_clientType r); (9, 8, e_clientName r); (17, 8, e_clientVersion r); (25, 8, e_engineName r);
   (33, 8, e_engineVersion r); (41, 2, e_deviceType r); (43, 8, e_brandName r); (51, 8, e_modelName r); (59, 8, e_osName r);
   (67, 8, e_osVersion r); (75, 8, e_hkey r); (83, 8, Z.to_N (e_timestamp r mod 2 ^ 64)); (91, 4, N.of_nat (length (e_data r)))].

(** Little-endian: the byte [i] places behind the offset is the digit of weight 256^i. *)
Definition stores (b : bytes) (f : nat * nat * N) : Prop :=
  let '(o, w, v) := f in forall i, i < w -> bn (nth (o + i) b x00) = ((v / 256 ^ N.of_nat i) mod 256)%N.

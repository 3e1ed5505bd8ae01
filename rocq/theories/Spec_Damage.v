(** Records that were damaged or forged on their way through a cache. *)
From Verif Require Import Model_Base Model_CacheEntry Model_Ctx Model_Parse Spec_Getters Spec_Upgrade.

(** Where a getter finds its text, given a record: a buffer, and a position in it (no header given).  The flags of a
    record are bits 1 to 9 of its first field; a position holds its two bounds in 32 bits each. *)
Definition place (T : tables) (row : entry) (ua : bytes) (g : getter) : option (bytes * N) :=
  let flag i := N.testbit (e_bits row) i in
  match g with
  | GBrowser => Some (cr_buf T, e_clientName row)
  | GBrowserVersion | GBrowserVersionString => Some (if flag 6%N then cr_buf T else ua, e_clientVersion row)
  | GEngine => if flag 8%N then None else Some (cr_buf T, e_engineName row)
  | GEngineVersion | GEngineVersionString => Some (ua, e_engineVersion row)
  | GBrand => Some (if flag 9%N then vr_buf T else dr_buf T, e_brandName row)
  | GOS => Some (if flag 4%N then ua else or_buf T, e_osName row)
  | GOSVersion | GOSVersionString => Some (if flag 5%N then or_buf T else ua, e_osVersion row)
  | GClientType | GDeviceType | GModel | GUserAgent => None
  end.
Definition inside (buf : bytes) (e : N) : Prop := (e / 2 ^ 32 <= e mod 2 ^ 32)%N /\ (e mod 2 ^ 32 <= N.of_nat (length buf))%N.

(** A part of a text; of a text with underscores read as dots. *)
Definition part (s buf : bytes) : Prop := exists a b, buf = a ++ s ++ b.
Definition dotted (s : bytes) : bytes := map (fun b => if beq b x5f then x2e else b) s.

(** One byte of [buf] changed. *)
Definition one_off (buf buf' : bytes) : Prop := exists a x y b, buf = a ++ x :: b /\ buf' = a ++ y :: b.

(** The user agents of Safari on iPads and iPhones. *)
From Verif Require Import Model_Base Spec_Family.

Definition safari_ua (device system os_major os_minor major minor : bytes) : bytes :=
  bs "Mozilla/5.0 (" ++ device ++ bs "; CPU " ++ system ++ bs " " ++ os_major ++ bs "_" ++ os_minor ++
  bs " like Mac OS X) AppleWebKit/605.1.15 (KHTML, like Gecko) Version/" ++ major ++ bs "." ++ minor ++ bs " Mobile/15E148 Safari/604.1".
(** Major versions of any length, minor versions of one digit. *)
Inductive ios_ua (device system : bytes) : bytes -> Prop :=
| IU n d m e : numeral n -> digit d -> numeral m -> digit e -> ios_ua device system (safari_ua device system n [d] m [e]).
Definition ipad_ua : bytes -> Prop := ios_ua (bs "iPad") (bs "OS").
Definition iphone_ua : bytes -> Prop := ios_ua (bs "iPhone") (bs "iPhone OS").

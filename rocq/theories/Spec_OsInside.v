(** Names of operating systems inside words. *)
From Verif Require Import Model_Base Model_Ctx Spec_Select Spec_Inside.

(** The entries whose pattern has a "^" somewhere. *)
Definition os_anchored : list nat := [13; 80; 146; 242; 249; 257; 275]%nat.

(** Words, and the number of the entry that has them. *)
Definition os_words : list (bytes * nat) :=
  [(bs "nuttx", 0); (bs "android", 143); (bs "okhttp", 144); (bs "sailfish", 147); (bs "nucleus", 151); (bs "mtk", 152); (bs "rhel", 181);
   (bs "mint", 199); (bs "palm", 203); (bs "windows", 230); (bs "darwin", 282); (bs "ppc", 282); (bs "qnx", 286);
   (bs "symbian", 297); (bs "bada", 302); (bs "brew", 304); (bs "aix", 308); (bs "xbox", 322); (bs "nitro", 323); (bs "x11", 328); (bs "j2me", 329)]%nat.

(** An application that talks to its server. *)
Definition app_client : bytes := bs "MyAppClient/1.0".

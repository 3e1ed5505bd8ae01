(** User agents that name Android, and what the shipped list of phones makes of them. *)
From Verif Require Import Model_Base.

Definition letter_or_digit (c : byte) : Prop :=
  (48 <= bn c <= 57)%N \/ (65 <= bn c <= 90)%N \/ (97 <= bn c <= 122)%N.
(** "Android", a space and a digit or a letter, as in "Linux; Android 11; SM-A105F". *)
Definition names_android (ua : bytes) : Prop := exists a c b, ua = a ++ bs "Android " ++ c :: b /\ letter_or_digit c.

(** The class of phones in device_repo.go, and the number of the Motorola entry in it. *)
Definition phones : nat := 3.
Definition motorola : nat := 1029.
(** Brands that the device tables have only behind the Motorola entry (or among the notebooks). *)
Definition lost_brands : list bytes :=
  [bs "OnePlus"; bs "OPPO"; bs "Vivo"; bs "Realme"; bs "ZTE"; bs "Tecno Mobile"; bs "Oukitel"; bs "UMIDIGI"; bs "Ulefone"; bs "Wiko"; bs "iTel"].

(** A user agent of the project's own test data (testdata/custom/single0.json), which expects "Samsung". *)
Definition galaxy : bytes :=
  bs "Mozilla/5.0 (Linux; Android 11; SM-A105F Build/RP1A.200720.012) AppleWebKit/537.36 (KHTML, like Gecko) Chrome/87.0.4280.141 Mobile Safari/537.36 YaApp_Android/10.51 YaSearchBrowser/10.51".

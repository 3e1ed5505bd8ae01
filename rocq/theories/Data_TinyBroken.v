(** A small database with a client entry whose version names a group its pattern does not have, for examples. *)
From Verif Require Import Model_Base Model_Ctx Model_Regex Model_Compiler Model_Built Data_Tiny.
From Coq Require Import String.
Open Scope list_scope.

Definition tiny_broken : database :=
  mkDatabase
    [[tiny_client "WebKit" "WebKit" "" None]; [tiny_client "Foo/(\d+[.\d]+)" "Foo" "$1" None];
     [tiny_client "Feed" "Feed" "" None]; [tiny_client "Qu[ux]" "Qux" "$1" None]; [tiny_client "mplayer" "mplayer" "" None];
     [tiny_client "Shop/([.\d]+)" "Shop" "$1" None]; [tiny_client "Mail" "Mail" "" None]]
    (db_os tiny) (db_device tiny) (db_vendor tiny) (db_hint tiny).

(** An entry of the operating systems whose name refers to a missing group. *)
Definition tiny_nameless : database :=
  mkDatabase (db_client tiny)
    [mkYO (bs "$1") (bs "Qu[ux]OS") [] []; mkYO (bs "Zed") (bs "Zed/([\d.]+)") (bs "$1") []]
    (db_device tiny) (db_vendor tiny) (db_hint tiny).
(** A model that ends in a dollar. *)
Definition tiny_dollar : database :=
  mkDatabase (db_client tiny) (db_os tiny)
    [[(bs "Canon", mkYB (bs "EO[S]") (bs "camera") (bs "EOS $") [])]; [(bs "Tesla", mkYB (bs "QtCarBrowser") [] (bs "Model S") [])];
     [(bs "Archos", mkYB (bs "Gamepad") (bs "console") [] [])]; [(bs "Acme", mkYB (bs "Acme") (bs "smartphone") [] [])];
     [(bs "Lenovo", mkYB (bs "ThinkPad") [] [] [])]; [(bs "Cowon", mkYB (bs "COWON") [] [] [])];
     [(bs "Telefunken", mkYB (bs "Shell TV") [] [] [])]; [(bs "Sony", mkYB (bs "Bravia") (bs "tv") [] [])]]
    (db_vendor tiny) (db_hint tiny).

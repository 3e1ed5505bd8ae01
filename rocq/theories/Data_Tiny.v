(** A small database, for examples. *)
From Verif Require Import Model_Base Model_Ctx Model_Regex Model_Compiler Model_Built.
From Coq Require Import String.
Open Scope list_scope.

(** [regexp.Compile] accepts what the model of package regexp parses; no replacements. *)
Definition tiny_compiler : compiler :=
  mkCompiler (fun p => match parse_re p with Some _ => true | None => false end)
    (fun _ => None) (fun _ => None) (fun _ => None) (fun _ => None).
Definition tiny_client (rs name v : string) (e : option yengine) : yclient := mkYC (bs rs) (bs name) (bs v) e [] [].
Definition tiny : database :=
  mkDatabase
    [[tiny_client "WebKit" "WebKit" "" None];
     [tiny_client "Foo/(\d+[.\d]+)" "Foo" "$1" (Some (mkYE (bs "WebKit") [(bs "3", bs "Gecko"); (bs "28", bs "Blink")]));
      tiny_client "Bar(?!Baz)" "Bar" "1.0" None];
     [tiny_client "Feed" "Feed" "" None]; [tiny_client "curl" "curl" "" None]; [tiny_client "mplayer" "mplayer" "" None];
     [tiny_client "Shop/([.\d]+)" "Shop" "$1" None]; [tiny_client "Mail" "Mail" "" None]]
    [mkYO (bs "$1") (bs "(Ubuntu|Debian)[ /]?(\d+(?:_\d+)?)?") (bs "$2") [];
     mkYO (bs "Windows") (bs "Win(?:dows)?") [] [mkYV (bs "NT 10") (bs "10"); mkYV (bs "NT ([\d.]+)") (bs "$1")]]
    [[(bs "Canon", mkYB (bs "EOS") (bs "camera") [] [])]; [(bs "Tesla", mkYB (bs "QtCarBrowser") [] (bs "Model S") [])];
     [(bs "Archos", mkYB (bs "Gamepad") (bs "console") [] [])];
     [(bs "Beta", mkYB (bs "Beta (?:Tab|Phone)") (bs "smartphone") []
        [mkYM (bs "Beta Tab ([A-Z]\d)") (bs "Tab $1") (bs "tablet"); mkYM (bs "Beta Phone") (bs "Phone") []]);
      (bs "Acme", mkYB (bs "Acme ([A-Z0-9]+)") (bs "smartphone") (bs "$1") [])];
     [(bs "Lenovo", mkYB (bs "ThinkPad") [] [] [])]; [(bs "Cowon", mkYB (bs "COWON") [] [] [])];
     [(bs "Telefunken", mkYB (bs "Shell TV") [] [] [])]; [(bs "Sony", mkYB (bs "Bravia") (bs "tv") [] [])]]
    [(bs "Nokia", [bs "nokia"; bs "lumia"]); (bs "HTC", [bs "htc"])]
    [[(bs "com.x", bs "X App")]; [(bs "com.y", bs "Y App"); (bs "com.x", bs "Other")]].

(** Property C62. *)
From Verif Require Import Model_Base Model_Ctx Model_Regex Model_Compiler Model_Built Model_Shipped Data_Tiny Spec_Regex Spec_Word Spec_Database
  Proof_Word Proof_WordBuilt Proof_WordShipped.

(** C62: with the text that uaxplc puts around a client pattern, the pattern matches at the starts of words only. *)
Theorem C62_word_start : forall p a ng ua, parse_re (any_case p) = Some (a, ng) ->
  re_find (compile (word_start p)) ua <> None <-> exists u v w, runes ua = u ++ v ++ w /\ at_start u /\ lang a u v w.
Proof. exact word_start_lang. Qed.
Print Assumptions C62_word_start.

(** So does a client entry of a database whose [regex:] is no fixed text. *)
Theorem C62_entry : forall K repl rs n a ng ua, ~ plain rs -> normalize rs = Some (Ok n) ->
  parse_re (any_case (match repl n with Some x => x | None => n end)) = Some (a, ng) -> k_valid K (match repl n with Some x => x | None => n end) = true ->
  db_applies K repl word_start rs ua <-> exists u v w, runes ua = u ++ v ++ w /\ at_start u /\ lang a u v w.
Proof. exact client_entry. Qed.
Print Assumptions C62_entry.

(** Every client pattern of the shipped tables is of this kind. *)
Theorem C62_shipped_clients : forall r, In r (cr_re shipped) ->
  exists p a ng, re_src r = word_start p /\ parse_re (any_case p) = Some (a, ng) /\
    forall ua, re_find r ua <> None <-> exists u v w, runes ua = u ++ v ++ w /\ at_start u /\ lang a u v w.
Proof. exact client_word_shipped. Qed.
Print Assumptions C62_shipped_clients.

(** A vendor pattern without alternatives applies when a match of it is followed by a character which is neither a small letter nor
    a digit; at the end of the user agent it does not. *)
Theorem C62_vendor : forall p a ng ua, ~ In "|"%byte p -> (forall q, p <> bs "(?i)" ++ q) -> parse_re p = Some (a, ng) ->
  re_find (compile (p ++ bs "[^a-z0-9]+")) ua <> None <-> exists u v x wd w, runes ua = u ++ v ++ (x, wd) :: w /\ lang a u v ((x, wd) :: w) /\ ~ small_char x.
Proof. exact vendor_word. Qed.
Print Assumptions C62_vendor.

(** All vendor patterns of the shipped tables are of this kind. *)
Theorem C62_shipped_vendors : forall r, In r (vr_re shipped) ->
  exists p a ng, re_src r = p ++ bs "[^a-z0-9]+" /\ parse_re p = Some (a, ng) /\
    forall ua, re_find r ua <> None <-> exists u v x wd w, runes ua = u ++ v ++ (x, wd) :: w /\ lang a u v ((x, wd) :: w) /\ ~ small_char x.
Proof. exact vendor_word_shipped. Qed.
Print Assumptions C62_shipped_vendors.

(** So are the patterns of every program: the compiler writes no others. *)
Theorem C62_clients : forall K D r, In r (cr_re (built K D)) -> exists p, re_src r = word_start p.
Proof. exact clients_written. Qed.
Print Assumptions C62_clients.
Theorem C62_vendors : forall K D r, In r (vr_re (built K D)) ->
  exists brand ps p, In (brand, ps) (db_vendor D) /\ In p ps /\ re_src r = p ++ bs "[^a-z0-9]+".
Proof. exact vendors_written. Qed.
Print Assumptions C62_vendors.

(** The hypotheses are met; "fox" is found at the start of a word, after "_" only when no word character precedes it, and not inside a word. *)
Example C62_case : parse_re (any_case (bs "fox/(\d+)")) <> None /\
  re_find (compile (word_start (bs "fox/(\d+)"))) (bs "Fox/12") = Some [0; 6; 4; 6]%Z /\
  re_find (compile (word_start (bs "fox/(\d+)"))) (bs "a FOX/12") = Some [1; 8; 6; 8]%Z /\
  re_find (compile (word_start (bs "fox/(\d+)"))) (bs "; _Fox/12") = Some [1; 9; 7; 9]%Z /\
  re_find (compile (word_start (bs "fox/(\d+)"))) (bs "_Fox/12") = None /\
  re_find (compile (word_start (bs "fox/(\d+)"))) (bs "SPRD-Fox/12") = Some [0; 11; 9; 11]%Z /\
  re_find (compile (word_start (bs "fox/(\d+)"))) (bs "FireFox/12") = None.
Proof. split; [vm_compute; discriminate|]. repeat split; vm_compute; reflexivity. Qed.
Example C62_vendor_case : ~ In "|"%byte (bs "MAAR(JS)?") /\ (forall q, bs "MAAR(JS)?" <> bs "(?i)" ++ q) /\ parse_re (bs "MAAR(JS)?") <> None /\
  re_find (compile (bs "MAAR(JS)?" ++ bs "[^a-z0-9]+")) (bs "x MAARJS)") <> None /\
  re_find (compile (bs "MAAR(JS)?" ++ bs "[^a-z0-9]+")) (bs "x MAARx)") = None /\
  re_find (compile (bs "MAAR(JS)?" ++ bs "[^a-z0-9]+")) (bs "x MAAR") = None.
Proof.
  split; [cbn; intros H; repeat destruct H as [H|H]; try discriminate H; exact H|]. split; [intros q H; discriminate H|]. split; [vm_compute; discriminate|].
  split; [vm_compute; discriminate|]. split; vm_compute; reflexivity.
Qed.
Example C62_built_case : length (cr_re (built tiny_compiler tiny)) = 3 /\ length (vr_re (built tiny_compiler tiny)) = 3.
Proof. vm_compute. split; reflexivity. Qed.
Example C62_shipped_case : cr_re shipped <> [] /\ vr_re shipped <> [].
Proof. split; discriminate. Qed.

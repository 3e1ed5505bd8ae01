(** Properties C63, C64: the other modes of the command line tool. *)
From Verif Require Import Model_Base Model_CacheEntry Model_Version Model_Ctx Model_Parse Model_Compiler Model_Built Model_Single Data_Tiny Data_TinyBroken
  Spec_Getters Spec_Single Proof_Base Proof_Reports Proof_Repeat Proof_Single Prop_Database.
Open Scope nat_scope.

(** C63: the report on one user agent gives the answers of the library, as a fresh context would, in the order printed;
    with the cleaner of the cache running at any moment. *)
Theorem C63_single : forall T ua ev out c' b, detects T ClientTypeAll DeviceTypeAll ua -> single T ua ev = (out, c', b) ->
  (N.of_nat (length (c_buf c')) < 4294967296)%N -> report (alone T ClientTypeAll DeviceTypeAll 0 ua) questions out b.
Proof. exact single_report. Qed.
Print Assumptions C63_single.
(** If the library panics on the client, the file ends behind "client:". *)
Theorem C63_panic : forall T ua ev, alone T ClientTypeAll DeviceTypeAll 0 ua GClientType = Panic ->
  exists c', single T ua ev = (bs "origin ua: " ++ ua ++ x0a :: bs "client:" ++ [x0a], c', false).
Proof. exact single_panic. Qed.
Print Assumptions C63_panic.
(** The version printed need not be the version text reported by the library. *)
Theorem C63_version_text_refuted : exists T ua ev out c' s, detects T ClientTypeAll DeviceTypeAll ua /\ single T ua ev = (out, c', true) /\
  alone T ClientTypeAll DeviceTypeAll 0 ua GBrowserVersionString = Ok (VB s) /\
  ~ exists a b, out = a ++ (bs " * browser version: '" ++ s ++ bs "'") ++ b.
Proof. exact version_text_refuted. Qed.
Print Assumptions C63_version_text_refuted.
Example C63_case : detects (built tiny_compiler tiny) ClientTypeAll DeviceTypeAll sample_ua /\
  (exists c', single (built tiny_compiler tiny) sample_ua [true; false; true] =
     (bs "origin ua: Foo/29.0 Beta Tab X1 Debian 9_1 WebKit/5.36 Chrome/70.2
client:
 * type: 'browser'
 * browser: 'Foo'
 * browser version: '29.0.0.0'
 * engine: 'Blink'
 * engine version: '70.2.0.0'
device:
 * type: 'tablet'
 * brand: 'Beta'
 * model: 'Tab X1'
 * os: 'Debian'
 * os version: '9.1.0.0'
", c', true) /\ (N.of_nat (length (c_buf c')) < 4294967296)%N) /\
  alone (built tiny_compiler tiny_broken) ClientTypeAll DeviceTypeAll 0 (bs "Qux") GClientType = Panic.
Proof.
  split; [apply detectsb_ok; vm_compute; reflexivity|]. split; [apply single_case; vm_compute; reflexivity|]. vm_compute. reflexivity.
Qed.

(** C64: what a run with a URL analyses. *)
Theorem C64_analysed : forall l1 r l2, exists out, nth_error (runs (fun _ => None) (l1 ++ r :: l2)) (length l1) = Some out /\ analysed l1 r out.
Proof. exact runs_analyse. Qed.
Print Assumptions C64_analysed.
(** It need not be what the URL holds: not even when the download would work. *)
Theorem C64_own_url_refuted : exists l1 uri net body, net uri = Some body /\
  nth_error (runs (fun _ => None) (l1 ++ [(uri, net, true)])) (length l1) <> Some (Some body).
Proof. exact own_url_refuted. Qed.
Print Assumptions C64_own_url_refuted.
Example C64_case : let net uri := if beqs uri (bs "http://a/x.json") then Some (bs "A") else if beqs uri (bs "http://b/x.json") then Some (bs "B") else None in
  runs (fun _ => None) [(bs "x.json", net, true); (bs "http://c/x.json", net, true); (bs "http://a/x.json", net, true);
    (bs "http://b/x.json", net, true); (bs "http://c/x.json", net, true)] = [None; None; Some (bs "A"); Some (bs "A"); Some (bs "A")].
Proof. vm_compute. reflexivity. Qed.

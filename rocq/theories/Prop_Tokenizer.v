(** Properties C10-C12: Tokenizer. *)
From Verif Require Import Model_Base Model_Tokenizer Spec_Tokenizer Proof_Tokenizer Proof_Layout.

(** C10: for inputs without the byte 0xFF (see C11), the tokens are exactly the maximal runs, then EOF for ever. *)
Theorem C10_maximal_runs : forall ua : bytes, ~ In xff ua ->
  exists ts, Runs ua ts /\ (forall ts', Runs ua ts' -> ts = ts') /\
             forall n, calls n 0 ua = map Ok (firstn n (map Tok ts ++ repeat EOF n)).
Proof.
  intros ua H. destruct (Runs_total ua) as (ts & R).
  exact (ex_intro _ ts (conj R (conj (Runs_unique ua ts R) (fun n => calls_runs n 0 ua ts R H)))).
Qed.
Print Assumptions C10_maximal_runs.

Example C10_case : calls 5 0 (bs " Mozilla/5.0 (X11)") =
  [Ok (Tok (bs "Mozilla")); Ok (Tok (bs "5")); Ok (Tok (bs "0")); Ok (Tok (bs "X11")); Ok EOF].
Proof. vm_compute. reflexivity. Qed.

(** C11 is false: the delimiter table has 255 entries ... *)
Theorem C11_never_panics_refuted : exists ua, next 0 ua = (0, Panic).
Proof. exists [xff]. vm_compute. reflexivity. Qed.
Print Assumptions C11_never_panics_refuted.

(** ... and a panic happens exactly for the inputs containing the byte 0xFF. *)
Theorem C11_panics_iff_ff : forall ua, (exists n, In Panic (calls n 0 ua)) <-> In xff ua.
Proof. exact panic_iff. Qed.
Print Assumptions C11_panics_iff_ff.

Example C11_case : calls 2 0 (bs "ab c" ++ [xff]) = [Ok (Tok (bs "ab")); Panic].
Proof. vm_compute. reflexivity. Qed.

(** C12: tokens are not empty and at most [length ua] calls return one, also when some calls panic ... *)
Theorem C12_token_count : forall n ua,
  length (filter (fun r => match r with Ok (Tok _) => true | _ => false end) (calls n 0 ua)) <= length ua /\
  (forall t, In (Ok (Tok t)) (calls n 0 ua) -> t <> []).
Proof. exact tokens_few. Qed.
Print Assumptions C12_token_count.

(** ... EOF is sticky, Reset restarts, NextString agrees with Next. *)
Theorem C12_termination_sticky_reset : forall ua : bytes,
  (forall ts, Runs ua ts -> length ts <= length ua /\ Forall (fun w => w <> []) ts) /\
  (forall n pos p, next pos ua = (p, Ok EOF) -> calls n p ua = repeat (Ok EOF) n) /\
  (forall n m pos, calls n (tok_reset (pos_after m pos ua)) ua = calls n 0 ua) /\
  (forall n pos, calls_string n pos ua =
     map (fun r => match r with Ok (Tok t) => Ok (t, false) | Ok EOF => Ok ([], true) | Panic => Panic end)
         (calls n pos ua)).
Proof.
  intros ua. exact (conj (fun ts => Runs_length ua ts) (conj (fun n pos p => eof_forever n pos ua p)
    (conj (fun n m pos => eq_refl) (fun n pos => calls_string_eq n pos ua)))).
Qed.
Print Assumptions C12_termination_sticky_reset.

Example C12_case : next 0 (bs " ,;") = (3, Ok EOF) /\ Runs (bs "a.b") [bs "a"; bs "b"].
Proof.
  split; [vm_compute; reflexivity|].
  assert (W : forall c, delimb c = false -> Word [c]).
  { intros c H. split; [congruence|]. intros x [<-|[]] D. apply delimb_iff in D. congruence. }
  apply (Runs_word [x61] x2e [x62] [[x62]]).
  - apply W. reflexivity.
  - apply delimb_iff. reflexivity.
  - apply Runs_last. apply W. reflexivity.
Qed.

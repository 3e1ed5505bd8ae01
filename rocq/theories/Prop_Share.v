(** Property C82. *)
From Verif Require Import Model_Base Model_Ctx Model_Parse Model_Share Spec_Getters Spec_Share Proof_Share.

(** C82: as long as everyone uses and releases only contexts they have acquired and not released since, a context has one
    owner at a time ... *)
Theorem C82_one_owner : forall T tr s u u' p, happens T tr s -> disciplined tr -> owns tr u p -> owns tr u' p -> u = u'.
Proof. exact exclusive. Qed.
Print Assumptions C82_one_owner.

(** ... and what its owner has seen of it is what a new context of their own would have shown. *)
Theorem C82_as_if_alone : forall T tr s u p, happens T tr s -> disciplined tr -> owns tr u p ->
  exists c, nth_error (sh_heap s) p = Some c /\ lone T (done tr u p) c.
Proof. exact as_if_alone. Qed.
Print Assumptions C82_as_if_alone.

(** Without that the pool does not keep users apart.  One user releases a context twice; two others, who do nothing wrong,
    get the same context, and one of them reads the user agent of the other. *)
Theorem C82_twice_refuted : forall T ua ua', exists tr s, happens T tr s /\
  tr = [EDo 2 0 (OGet GUserAgent) (Some (Ok (VB ua'))); EDo 3 0 (OUserAgent ua') None; EDo 2 0 (OUserAgent ua) None;
        EAcquire 3 0; EAcquire 2 0; ERelease 1 0; ERelease 1 0; EAcquire 1 0].
Proof. exact twice_given. Qed.
Print Assumptions C82_twice_refuted.

(** One user goes on using a context after releasing it. *)
Theorem C82_after_refuted : forall T ua ua', exists tr s, happens T tr s /\
  tr = [EDo 2 0 (OGet GUserAgent) (Some (Ok (VB ua'))); EDo 1 0 (OUserAgent ua') None; EDo 2 0 (OUserAgent ua) None;
        EAcquire 2 0; ERelease 1 0; EAcquire 1 0].
Proof. exact still_used. Qed.
Print Assumptions C82_after_refuted.

(** A disciplined history: the first context goes to a second user while the first one has another. *)
Example C82_case : forall T, exists tr s, happens T tr s /\ disciplined tr /\ owns tr 2 0 /\ owns tr 1 1 /\
  done tr 2 0 = [(OGet GUserAgent, Some (Ok (VB (bs "b")))); (OUserAgent (bs "b"), None)].
Proof. exact two_users. Qed.

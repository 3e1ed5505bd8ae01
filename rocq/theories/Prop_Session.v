(** Which settings count. *)
From Verif Require Import Model_Base Model_Ctx Model_Parse Model_Shipped Spec_Getters Spec_Session Proof_Session Prop_Getters.
Open Scope nat_scope.

(** C92: whatever is called on a context in whatever order (user agents, header, filters, Reset and getters), every getter
    answers as on a context of its own with these settings: the user agent set last, the header set since, and each filter
    as it was when the first getter about the client (the device) was called on that user agent. *)
Theorem C92_settings : forall T l c, c = new_ctx \/ (exists c', c = ctx_reset c') -> smooth T l -> roomy T l c ->
  fst (session T l c) = map (lone T) (in_force l at_first).
Proof. exact session_settings. Qed.
Print Assumptions C92_settings.

Definition late_filter : list use :=
  [SetUA camera_ua; Ask GClientType; Clients 0; Ask GClientType; Clear; SetUA camera_ua; Ask GBrowser].
Example C92_case : smooth shipped late_filter /\ roomy shipped late_filter new_ctx /\
  fst (session shipped late_filter new_ctx) = [Ok (VN ClientTypeFeedReader); Ok (VN ClientTypeFeedReader); Ok (VB (bs "Akregator"))].
Proof. exact (session_case shipped ClientTypeAll DeviceTypeAll camera_ua late_filter ClientTypeFeedReader ClientTypeFeedReader (bs "Akregator") (proj1 C19_C20_case) ltac:(vm_compute; reflexivity)). Qed.

(** C92 is false of the filters set when the getter is called: a filter set after the first getter of its kind is ignored
    until another user agent is set. *)
Theorem C92_current_filters_refuted : exists l mC mD ua g,
  smooth shipped (SetUA ua :: l ++ [Clients mC; Devices mD; Ask g]) /\
  roomy shipped (SetUA ua :: l ++ [Clients mC; Devices mD; Ask g]) new_ctx /\
  exists r, last (fst (session shipped (SetUA ua :: l ++ [Clients mC; Devices mD; Ask g]) new_ctx)) Panic = r /\
    r <> alone shipped mC mD 0 ua g.
Proof.
  exact (ex_intro _ [Ask GClientType] (ex_intro _ 0%N (ex_intro _ DeviceTypeAll (ex_intro _ camera_ua (ex_intro _ GClientType
    (filter_ignored shipped ClientTypeAll DeviceTypeAll (SetUA camera_ua :: [Ask GClientType] ++ [Clients 0; Devices DeviceTypeAll; Ask GClientType]) GClientType
       0 DeviceTypeAll 0 camera_ua ClientTypeFeedReader 0 (proj1 C19_C20_case) ltac:(vm_compute; reflexivity))))))).
Qed.
Print Assumptions C92_current_filters_refuted.

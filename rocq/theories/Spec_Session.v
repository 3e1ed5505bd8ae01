(** Which settings count for an answer: any calls on one context, and for every getter among them the user agent, header
    and filters that decide its answer. *)
From Verif Require Import Model_Base Model_Ctx Model_Parse Spec_Getters.

Inductive use :=
| SetUA (ua : bytes)            (* SetUserAgent, SetUserAgentStr *)
| SetHeader (s : bytes)         (* SetRequestedWith *)
| Clients (mask : N)            (* FilterClientType *)
| Devices (mask : N)            (* FilterDeviceType *)
| Clear                         (* Reset *)
| Ask (g : getter).

(** The calls carried out on a context, with a cache that never answers: the answers and the context afterwards. *)
Fixpoint session (T : tables) (l : list use) (c : ctx) : list (res value) * ctx :=
  match l with
  | [] => ([], c)
  | SetUA ua :: l' => session T l' (set_user_agent ua c)
  | SetHeader s :: l' => session T l' (set_requested_with s c)
  | Clients m :: l' => session T l' (filter_client_type m c)
  | Devices m :: l' => session T l' (filter_device_type m c)
  | Clear :: l' => session T l' (ctx_reset c)
  | Ask g :: l' =>
      let '(c1, r) := run_cold (run_getter T g c) in
      let '(rs, c2) := session T l' c1 in (r :: rs, c2)
  end.

(** What has been set: user agent, header, the two filters; and the filters that were set when the first getter about the
    client (about the device) was called on the user agent at hand. *)
Record settings := mkSet { s_ua : bytes; s_header : N; s_client : N; s_device : N; s_client1 : option N; s_device1 : option N }.
Definition at_first : settings := mkSet [] 0 ClientTypeAll DeviceTypeAll None None.
Definition or_else (o : option N) (m : N) : N := match o with Some x => x | None => m end.

(** For every getter called: client filter, device filter, header and user agent in force. *)
Fixpoint in_force (l : list use) (s : settings) : list (N * N * N * bytes * getter) :=
  match l with
  | [] => []
  | SetUA ua :: l' => in_force l' (mkSet ua 0 (s_client s) (s_device s) None None)
  | SetHeader h :: l' =>
      in_force l' (mkSet (s_ua s) (match h with [] => s_header s | _ => fnv1 h end) (s_client s) (s_device s) (s_client1 s) (s_device1 s))
  | Clients m :: l' => in_force l' (mkSet (s_ua s) (s_header s) m (s_device s) (s_client1 s) (s_device1 s))
  | Devices m :: l' => in_force l' (mkSet (s_ua s) (s_header s) (s_client s) m (s_client1 s) (s_device1 s))
  | Clear :: l' => in_force l' at_first
  | Ask g :: l' =>
      let mC := or_else (s_client1 s) (s_client s) in
      let mD := or_else (s_device1 s) (s_device s) in
      (mC, mD, s_header s, s_ua s, g) ::
      in_force l' (mkSet (s_ua s) (s_header s) (s_client s) (s_device s)
        (match g with
         | GClientType | GBrowser | GBrowserVersion | GBrowserVersionString | GEngine | GEngineVersion | GEngineVersionString => Some mC
         | _ => s_client1 s
         end)
        (match g with GDeviceType | GBrand | GModel => Some mD | _ => s_device1 s end))
  end.

(** The answer of a getter alone with given settings. *)
Definition lone (T : tables) (x : N * N * N * bytes * getter) : res value :=
  let '(mC, mD, h, ua, g) := x in alone T mC mD h ua g.
(** No detection of the session panics (C35, C36, C37). *)
Definition smooth (T : tables) (l : list use) : Prop :=
  forall mC mD h ua g, In (mC, mD, h, ua, g) (in_force l at_first) -> detects T mC mD ua.
(** The buffer of the context stays below four gigabytes. *)
Definition roomy (T : tables) (l : list use) (c : ctx) : Prop :=
  forall l1 l2, l = l1 ++ l2 -> (N.of_nat (length (c_buf (snd (session T l1 c)))) < 4294967296)%N.

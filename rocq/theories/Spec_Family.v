(** The user agents of three common browsers on three desktop systems, for every version number. *)
From Verif Require Import Model_Base Model_CacheEntry Model_Ctx Model_Parse Model_Shipped Spec_Getters.

(** A version number: it starts with a digit, goes on with at least one digit or dot, and does not end with a dot. *)
Definition digit (b : byte) : Prop := (48 <= bn b <= 57)%N.
Definition version_number (v : bytes) : Prop :=
  exists d r, v = d :: r /\ digit d /\ r <> [] /\ Forall (fun b => digit b \/ b = x2e) r /\ forall y, v <> y ++ [x2e].

(** The systems as the browsers name them, with the names reported. *)
Definition systems : list (bytes * bytes) :=
  [(bs "Windows NT 10.0; Win64; x64", bs "Windows"); (bs "Macintosh; Intel Mac OS X 10_15_7", bs "Mac"); (bs "X11; Linux x86_64", bs "GNU/Linux")].

Definition chrome_ua (sys v : bytes) : bytes :=
  bs "Mozilla/5.0 (" ++ sys ++ bs ") AppleWebKit/537.36 (KHTML, like Gecko) Chrome/" ++ v ++ bs " Safari/537.36".
Definition edge_ua (sys c v : bytes) : bytes := chrome_ua sys c ++ bs " Edg/" ++ v.
Definition firefox_ua (sys r v : bytes) : bytes :=
  bs "Mozilla/5.0 (" ++ sys ++ bs "; rv:" ++ r ++ bs ") Gecko/20100101 Firefox/" ++ v.

(** The user agent counts as the browser [browser] in version [version] on the system [system] (the name of the browser is asked without an application header). *)
Definition recognised (ua browser version system : bytes) (mC mD : N) : Prop :=
  (forall h, alone shipped mC mD h ua GClientType = Ok (VN 1)) /\ alone shipped mC mD 0 ua GBrowser = Ok (VB browser) /\
  (forall h, alone shipped mC mD h ua GBrowserVersionString = Ok (VB version)) /\ (forall h, alone shipped mC mD h ua GOS = Ok (VB system)).

(** The versions of the systems that are reported whatever the browser. *)
Definition releases : list (bytes * bytes) := [(bs "Windows NT 10.0; Win64; x64", bs "10"); (bs "X11; Linux x86_64", [])].

(** A numeral, and the version numbers in which everything but the major version is frozen. *)
Definition numeral (n : bytes) : Prop := n <> [] /\ Forall digit n.
Definition frozen (n : bytes) : bytes := n ++ bs ".0.0.0".
Definition frozen_short (n : bytes) : bytes := n ++ bs ".0".
(** The user agents with frozen versions on a system. *)
Inductive frozen_ua (sys : bytes) : bytes -> Prop :=
| FU_chrome n : numeral n -> frozen_ua sys (chrome_ua sys (frozen n))
| FU_edge n e : numeral n -> numeral e -> frozen_ua sys (edge_ua sys (frozen n) (frozen e))
| FU_firefox r n : numeral r -> numeral n -> frozen_ua sys (firefox_ua sys (frozen_short r) (frozen_short n)).
(** The user agent counts as a desktop computer of no particular make. *)
Definition plain_desktop (ua : bytes) (mC mD : N) : Prop :=
  forall h, alone shipped mC mD h ua GDeviceType = Ok (VN 1) /\ alone shipped mC mD h ua GBrand = Ok (VB (bs "UNK")) /\ alone shipped mC mD h ua GModel = Ok (VB []).

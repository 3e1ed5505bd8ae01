(** What the command line tool prints about one user agent, and which contents it analyses for a URL. *)
From Verif Require Import Model_Base Model_Version Model_Ctx Model_Parse Model_Single.

(** The text of an answer: strings as they are, types and versions by their String methods. *)
Inductive text_of : getter -> value -> bytes -> Prop :=
| T_string g b : text_of g (VB b) b
| T_version g v : text_of g (VV v) (version_string v)
| T_client n : text_of GClientType (VN n) (client_type_string n)
| T_device n : text_of GDeviceType (VN n) (device_type_string n).
(** The questions in order: the text before the answer, the question, the text behind it. *)
Definition questions : list (bytes * getter * bytes) := [
  (bs "origin ua: ", GUserAgent, x0a :: bs "client:" ++ [x0a]);
  (bs " * type: '", GClientType, bs "'" ++ [x0a]); (bs " * browser: '", GBrowser, bs "'" ++ [x0a]);
  (bs " * browser version: '", GBrowserVersion, bs "'" ++ [x0a]); (bs " * engine: '", GEngine, bs "'" ++ [x0a]);
  (bs " * engine version: '", GEngineVersion, x27 :: x0a :: bs "device:" ++ [x0a]);
  (bs " * type: '", GDeviceType, bs "'" ++ [x0a]); (bs " * brand: '", GBrand, bs "'" ++ [x0a]);
  (bs " * model: '", GModel, bs "'" ++ [x0a]); (bs " * os: '", GOS, bs "'" ++ [x0a]);
  (bs " * os version: '", GOSVersion, bs "'" ++ [x0a])].
(** The report: question after question, up to the first whose answer is a panic. *)
Inductive report (ans : getter -> res value) : list (bytes * getter * bytes) -> bytes -> bool -> Prop :=
| R_end : report ans [] [] true
| R_line pre g post v s l out b : ans g = Ok v -> text_of g v s -> report ans l out b ->
    report ans ((pre, g, post) :: l) (pre ++ s ++ post ++ out) b
| R_panic pre g post l : ans g = Panic -> report ans ((pre, g, post) :: l) [] false.

(** ** URLs *)

(** The last segment of a URL. *)
Definition segment (uri s : bytes) : Prop := (exists a, uri = a ++ x2f :: s) /\ ~ In x2f s.
Definition a_run := (bytes * (bytes -> option bytes) * bool)%type.
(** The run fetches [body] for the segment [s]. *)
Definition fetches (r : a_run) (s body : bytes) : Prop :=
  let '(uri, net, wr) := r in segment uri s /\ net uri = Some body /\ wr = true.
(** The contents analysed by the run behind [before], on a machine without files of earlier days: those fetched by the
    first run that could fetch for the same segment, which may be another URL, and may be the run itself. *)
Inductive analysed (before : list a_run) (r : a_run) : option bytes -> Prop :=
| N_invalid : (forall s, ~ segment (fst (fst r)) s) -> analysed before r None
| N_body s l1 x l2 body : segment (fst (fst r)) s -> before ++ [r] = l1 ++ x :: l2 -> fetches x s body ->
    (forall y b, In y l1 -> ~ fetches y s b) -> analysed before r (Some body)
| N_nothing s : segment (fst (fst r)) s -> (forall y b, In y (before ++ [r]) -> ~ fetches y s b) -> analysed before r None.

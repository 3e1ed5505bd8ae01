(** The other two modes of the command line tool.  The file written and the files read are byte strings; errors of
    WriteString are ignored by the code and not modelled. *)
From Verif Require Import Model_Base Model_CacheEntry Model_Version Model_Ctx Model_Parse Spec_Getters.

(** ** cmd/uaxpl/main.go:63-76: one user agent. *)

(** fmt.Sprintf with %s: strings as they are, the other values through their String method. *)
Definition show (g : getter) (v : value) : bytes :=
  match v with
  | VB b => b
  | VV v => version_string v
  | VN n => match g with GClientType => client_type_string n | _ => device_type_string n end
  end.
Inductive piece := Fixed (b : bytes) | Line (pre : bytes) (g : getter) (post : bytes).
Definition nl : bytes := [x0a].
(** main.go:65-76. *)
Definition single_pieces : list piece := [
  Line (bs "origin ua: ") GUserAgent nl;
  Fixed (bs "client:" ++ nl);
  Line (bs " * type: '") GClientType (bs "'" ++ nl);
  Line (bs " * browser: '") GBrowser (bs "'" ++ nl);
  Line (bs " * browser version: '") GBrowserVersion (bs "'" ++ nl);
  Line (bs " * engine: '") GEngine (bs "'" ++ nl);
  Line (bs " * engine version: '") GEngineVersion (bs "'" ++ nl);
  Fixed (bs "device:" ++ nl);
  Line (bs " * type: '") GDeviceType (bs "'" ++ nl);
  Line (bs " * brand: '") GBrand (bs "'" ++ nl);
  Line (bs " * model: '") GModel (bs "'" ++ nl);
  Line (bs " * os: '") GOS (bs "'" ++ nl);
  Line (bs " * os version: '") GOSVersion (bs "'" ++ nl)].
(** Each piece is written before the next getter runs; a panic ends the program.  The cache is private to the process:
    it starts empty, and its cleaner may drop the row at any moment ([ev], see [run_priv]).
    Result: what is in the file, the context, whether the program ended normally. *)
Fixpoint single_loop (T : tables) (ls : list piece) (c : ctx) (o : option entry) (ev : list bool) (out : bytes) : bytes * ctx * bool :=
  match ls with
  | [] => (out, c, true)
  | Fixed b :: l => single_loop T l c o ev (out ++ b)
  | Line pre g post :: l =>
      let '((c', r), o', ev') := run_priv (run_getter T g c) o ev in
      match r with
      | Ok v => single_loop T l c' o' ev' (out ++ pre ++ show g v ++ post)
      | Panic => (out, c', false)
      end
  end.
(** main.go:64 [NewCtxWithSrcStr], alias.go:8-10. *)
Definition single (T : tables) (ua : bytes) (ev : list bool) : bytes * ctx * bool :=
  single_loop T single_pieces (set_user_agent ua new_ctx) None ev [].

(** ** cmd/uaxpl/main.go:196-219 [passURL]. *)

(** Files by path.  Simplification: a file that exists can be read; a directory entry that cannot be looked at counts as
    absent. *)
Definition files := bytes -> option bytes.
Definition write_file (fs : files) (path contents : bytes) : files :=
  fun p => if beqs p path then Some contents else fs p.
(** strings.LastIndex(uri, "/"): the text behind the last slash. *)
Fixpoint behind_slash (uri : bytes) : option bytes :=
  match uri with
  | [] => None
  | b :: u => match behind_slash u with Some x => Some x | None => if beq b x2f then Some u else None end
  end.
(** [net]: http.Get; [None] stands for an error, for a status other than 200 and for a body that breaks off.
    [wr]: whether os.WriteFile succeeds.  Result: the files and the contents handed to [passRaw], [None] for an error. *)
Definition pass_url (fs : files) (net : bytes -> option bytes) (wr : bool) (uri : bytes) : files * option bytes :=
  match behind_slash uri with
  | None => (fs, None)
  | Some fname =>
      let fpath := bs "/tmp/uaxpl_" ++ fname in
      let fs1 := match fs fpath with
                 | Some _ => fs
                 | None => match net uri with
                           | Some body => if wr then write_file fs fpath body else fs
                           | None => fs
                           end
                 end in
      (fs1, fs1 fpath)
  end.
(** Several runs of the program, one after the other; the network may change between them. *)
Fixpoint runs (fs : files) (l : list (bytes * (bytes -> option bytes) * bool)) : list (option bytes) :=
  match l with
  | [] => []
  | (uri, net, wr) :: l' => let '(fs', r) := pass_url fs net wr uri in r :: runs fs' l'
  end.

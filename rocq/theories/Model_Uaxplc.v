(** The program [uaxplc] as a whole: flags, reading the database, writing the file (cmd/uaxplc/main.go and the
    [Validate] and [Compile] methods around the compilation modelled in [Model_Compiler.v] and [Model_Emit.v]).
    Simplifications: the file system, the YAML reader and [format.Source] are functions (a [world]) that do not change
    during the run; log output is left out. *)
From Verif Require Import Model_Base Model_Ctx Model_Compiler Model_Built Model_Emit.

(** ** Go's package flag, for a set of string flags (flag.FlagSet.parseOne), with ExitOnError *)

(** The name and the value behind the minus signs: split at the first equals sign that is not the first byte. *)
Fixpoint cut_eq (s : bytes) : bytes * option bytes :=
  match s with
  | [] => ([], None)
  | b :: s' => if beq b x3d then ([], Some s') else let '(n, v) := cut_eq s' in (b :: n, v)
  end.
Inductive one_arg :=
| NotFlag                                   (* the flags end here *)
| Terminator                                (* "--" *)
| BadFlag                                   (* "bad flag syntax" *)
| Flag (name : bytes) (value : option bytes).
Definition flag_body (s : bytes) : one_arg :=
  match s with
  | [] => BadFlag
  | b :: s' => if beq b x2d || beq b x3d then BadFlag else let '(n, v) := cut_eq s' in Flag (b :: n) v
  end.
Definition read_arg (a : bytes) : one_arg :=
  match a with
  | x2d :: [] => NotFlag
  | x2d :: x2d :: [] => Terminator
  | x2d :: x2d :: s => flag_body s
  | x2d :: s => flag_body s
  | _ => NotFlag
  end.

Inductive parsed :=
| Parsed (sets : list (bytes * bytes))      (* in the order of the command line *)
| Rejected                                  (* exit code 2 *)
| Helped.                                   (* -h, -help: usage, exit code 0 *)
Definition add_set (s : bytes * bytes) (p : parsed) : parsed :=
  match p with Parsed l => Parsed (s :: l) | _ => p end.
Fixpoint parse_flags (known : list bytes) (args : list bytes) : parsed :=
  match args with
  | [] => Parsed []
  | a :: rest =>
      match read_arg a with
      | NotFlag | Terminator => Parsed []
      | BadFlag => Rejected
      | Flag n v =>
          if negb (existsb (beqs n) known) then
            if beqs n (bs "help") || beqs n (bs "h") then Helped else Rejected
          else
            match v with
            | Some v => add_set (n, v) (parse_flags known rest)
            | None => match rest with
                      | [] => Rejected
                      | v :: rest' => add_set (n, v) (parse_flags known rest')
                      end
            end
      end
  end.

(** main.go:32-40: three variables with several names each; a later flag overwrites an earlier one. *)
Definition names_module : list bytes := [bs "module"; bs "mod"; bs "m"].
Definition names_input : list bytes := [bs "input"; bs "in"; bs "i"].
Definition names_target : list bytes := [bs "target"; bs "t"].
Definition known_flags : list bytes := names_module ++ names_input ++ names_target.
Definition flag_var (names : list bytes) (sets : list (bytes * bytes)) : bytes :=
  fold_left (fun v s => if existsb (beqs (fst s)) names then snd s else v) sets [].

(** ** The world around the program *)
Record world := mkWorld {
  w_home : bytes;                                        (* os.UserHomeDir, "" on error *)
  w_glob : bytes -> option (list bytes);                 (* filepath.Glob; None is ErrBadPattern *)
  w_read : bytes -> option bytes;                        (* os.ReadFile *)
  yaml_client : bytes -> option (list yclient);             (* yaml.Unmarshal *)
  yaml_os : bytes -> option (list yos);
  yaml_device : bytes -> option (list (bytes * ybrand));
  yaml_vendor : bytes -> option (list (bytes * list bytes));
  yaml_hint : bytes -> option (list (bytes * bytes));
  w_format : bytes -> option bytes;                      (* format.Source *)
  w_writes : bytes -> bool                               (* os.WriteFile succeeds *)
}.

(** strings.ReplaceAll(input, "~", hd) (mod_client.go:55-56 etc.). *)
Definition expand (W : world) (input : bytes) : bytes := flat_map (fun b => if beq b x7e then w_home W else [b]) input.
(** mod_client.go:78-89 etc.: one file of the database. *)
Definition read_one {Y} (W : world) (yaml : bytes -> option Y) (path : bytes) : option Y :=
  match w_read W path with
  | None | Some [] => None
  | Some body => yaml body
  end.
Fixpoint read_all {Y} (W : world) (yaml : bytes -> option Y) (paths : list bytes) : option (list (bytes * Y)) :=
  match paths with
  | [] => Some []
  | p :: ps =>
      match read_one W yaml p with
      | None => None
      | Some y => match read_all W yaml ps with None => None | Some l => Some ((p, y) :: l) end
      end
  end.
(** mod_client.go:58-61 etc. *)
Definition read_dir {Y} (W : world) (yaml : bytes -> option Y) (input : bytes) : option (list (bytes * Y)) :=
  match w_glob W (expand W input ++ bs "/*.yml") with
  | None => None
  | Some paths => read_all W yaml paths
  end.

(** filepath.Base: without the slashes at the end, behind the last slash. *)
Fixpoint drop_slashes (r : bytes) : bytes := match r with b :: r' => if beq b x2f then drop_slashes r' else r | [] => [] end.
Fixpoint upto_slash (r : bytes) : bytes := match r with b :: r' => if beq b x2f then [] else b :: upto_slash r' | [] => [] end.
Definition base (p : bytes) : bytes :=
  match p with
  | [] => bs "."
  | _ :: _ => match drop_slashes (rev p) with [] => bs "/" | r => rev (upto_slash r) end
  end.
(** mod_hint.go:66-84: how many pairs each file adds. *)
Fixpoint hint_counts (files : list (list (bytes * bytes))) (h : htables) : list nat :=
  match files with
  | [] => []
  | f :: fs => let h' := hint_file f h in (length (h_idx h') - length (h_idx h)) :: hint_counts fs h'
  end.

(** ** main.go:21-28, 41-80 *)
Inductive ended := Finished | Fatal | Usage | Help.        (* exit codes 0, 1, 2, 0 *)
Inductive effect := Untouched | Wrote (path contents : bytes) | Torn (path : bytes).   (* [Torn]: WriteFile failed *)

(** The text of each module, [None] for an error on the way. *)
Definition text_client (W : world) (K : compiler) (args : list bytes) (input : bytes) : option bytes :=
  match read_dir W (yaml_client W) input with
  | None => None
  | Some l => Some (emit_client args (map (fun f => base (fst f)) l) (compile_client (k_valid K) (k_client K) (map snd l)))
  end.
Definition text_device (W : world) (K : compiler) (args : list bytes) (input : bytes) : option bytes :=
  match read_dir W (yaml_device W) input with
  | None => None
  | Some l => Some (emit_device args (map (fun f => base (fst f)) l) (compile_device (k_valid K) (k_device K) (k_static K) (map snd l)))
  end.
Definition text_hint (W : world) (args : list bytes) (input : bytes) : option bytes :=
  match read_dir W (yaml_hint W) input with
  | None => None
  | Some l => Some (emit_hint args (combine (map (fun f => base (fst f)) l) (hint_counts (map snd l) (mkH buf_empty [] [] [])))
                              (compile_hint (map snd l)))
  end.
Definition text_os (W : world) (K : compiler) (args : list bytes) (input : bytes) : option bytes :=
  match read_one W (yaml_os W) (expand W input) with
  | None => None
  | Some l => Some (emit_os args (compile_os (k_valid K) (k_os K) l))
  end.
Definition text_vendor (W : world) (args : list bytes) (input : bytes) : option bytes :=
  match read_one W (yaml_vendor W) (expand W input) with
  | None => None
  | Some l => Some (emit_vendor args (compile_vendor l))
  end.

(** The end of every [Compile]: format, then write. *)
Definition put_file (W : world) (target : bytes) (text : option bytes) : ended * effect :=
  match text with
  | None => (Fatal, Untouched)
  | Some src =>
      match w_format W src with
      | None => (Fatal, Untouched)
      | Some s => if w_writes W target then (Finished, Wrote target s) else (Fatal, Torn target)
      end
  end.
Definition or_default (target default : bytes) : bytes := match target with [] => default | _ :: _ => target end.

(** The modules by name; [mod_bot.go] does nothing. *)
Definition run_module (W : world) (K : compiler) (args : list bytes) (m input target : bytes) : ended * effect :=
  if beqs m (bs "client") then put_file W (or_default target (bs "client_repo.go")) (text_client W K args input)
  else if beqs m (bs "device") then put_file W (or_default target (bs "device_repo.go")) (text_device W K args input)
  else if beqs m (bs "hint") then put_file W (or_default target (bs "hint_repo.go")) (text_hint W args input)
  else if beqs m (bs "os") then put_file W (or_default target (bs "os_repo.go")) (text_os W K args input)
  else if beqs m (bs "vendor") then put_file W (or_default target (bs "vendor_repo.go")) (text_vendor W args input)
  else (Finished, Untouched).
Definition modules : list bytes := [bs "hint"; bs "client"; bs "device"; bs "os"; bs "bot"; bs "vendor"].

(** [args] is [os.Args[1:]]. *)
Definition uaxplc (W : world) (K : compiler) (args : list bytes) : ended * effect :=
  match parse_flags known_flags args with
  | Rejected => (Usage, Untouched)
  | Helped => (Help, Untouched)
  | Parsed sets =>
      let m := flag_var names_module sets in
      let input := flag_var names_input sets in
      let target := flag_var names_target sets in
      if length m =? 0 then (Fatal, Untouched)
      else if negb (existsb (beqs m) modules) then (Fatal, Untouched)
      else if length input =? 0 then (Fatal, Untouched)
      else run_module W K args m input target
  end.

(** Reading generated Go files: the tokens of a Go source text (Go specification, "Lexical elements"), and the values
    of the variables declared in it.  Only the syntax the generated files use is read; everything else is refused.
    Not checked: that the source is valid UTF-8 without NUL and byte order marks. *)
From Verif Require Import Model_Base Model_Ctx Model_Compiler Spec_Compiler.

(** ** Tokens *)
Inductive token := Id (w : bytes) | Int (w : bytes) | Str (s : bytes) | Op (w : bytes) | Semi.

Definition in_range (c lo hi : byte) : bool := ((bn lo <=? bn c) && (bn c <=? bn hi))%N.
Definition letter (c : byte) : bool := in_range c x61 x7a || in_range c x41 x5a || beq c x5f.
Definition decimal (c : byte) : bool := in_range c x30 x39.
Definition among (c : byte) (l : bytes) : bool := existsb (beq c) l.

(** What is being read: nothing, an identifier, a number, a raw string, a string, something after a slash, a comment,
    something after [>]; [Bad] after what is not understood. *)
Inductive mode := Start | InId (a : bytes) | InNum (a : bytes) | InRaw (a : bytes) | InStr (a : bytes) | Slash | Comment | Greater | Bad.
Record lexer := mkLex { lx_toks : list token; lx_mode : mode }.   (* tokens and texts are collected backwards *)

(** A newline ends a statement after these tokens ("Semicolons"). *)
Definition ends (l : list token) : bool :=
  match l with
  | Id w :: _ => negb (existsb (beqs w) [bs "func"; bs "if"; bs "import"; bs "map"; bs "package"; bs "var"])
  | Int _ :: _ | Str _ :: _ => true
  | Op w :: _ => existsb (beqs w) [bs ")"; bs "]"; bs "}"]
  | _ => false
  end.
Definition newline (l : list token) : list token := if ends l then Semi :: l else l.

Definition step_start (l : list token) (c : byte) : lexer :=
  if letter c then mkLex l (InId [c])
  else if decimal c then mkLex l (InNum [c])
  else if beq c x60 then mkLex l (InRaw [])
  else if beq c x22 then mkLex l (InStr [])
  else if beq c x2f then mkLex l Slash
  else if beq c x3e then mkLex l Greater
  else if beq c x0a then mkLex (newline l) Start
  else if among c [x20; x09; x0d] then mkLex l Start
  else if beq c x3b then mkLex (Semi :: l) Start
  else if among c (bs "(){}[],:=.*-") then mkLex (Op [c] :: l) Start
  else mkLex l Bad.
Definition step (x : lexer) (c : byte) : lexer :=
  let l := lx_toks x in
  match lx_mode x with
  | Start => step_start l c
  | InId a => if letter c || decimal c then mkLex l (InId (c :: a)) else step_start (Id (rev a) :: l) c
  | InNum a => if letter c || decimal c then mkLex l (InNum (c :: a)) else step_start (Int (rev a) :: l) c
  | InRaw a =>
      (* carriage returns in raw strings are discarded *)
      if beq c x60 then mkLex (Str (filter (fun b => negb (beq b x0d)) (rev a)) :: l) Start else mkLex l (InRaw (c :: a))
  | InStr a =>
      if beq c x22 then mkLex (Str (rev a) :: l) Start
      else if beq c x5c || beq c x0a then mkLex l Bad else mkLex l (InStr (c :: a))
  | Slash => if beq c x2f then mkLex l Comment else mkLex l Bad
  | Comment => if beq c x0a then mkLex (newline l) Start else x
  | Greater => if beq c x3d then mkLex (Op (bs ">=") :: l) Start else mkLex l Bad
  | Bad => x
  end.
Definition lex_from (x : lexer) (s : bytes) : lexer := fold_left step s x.
(** The tokens of a text, which must end with a newline; none when it is not understood. *)
Definition lex (s : bytes) : option (list token) :=
  let x := lex_from (mkLex [] Start) s in
  match lx_mode x with Start => Some (rev (lx_toks x)) | _ => None end.

(** ** Readers *)
Definition reader (A : Type) := list token -> option (A * list token).
Definition rret {A} (a : A) : reader A := fun l => Some (a, l).
Definition rfail {A} : reader A := fun _ => None.
Definition rseq {A B} (p : reader A) (f : A -> reader B) : reader B :=
  fun l => match p l with Some (a, l') => f a l' | None => None end.
Declare Scope r_scope.
Delimit Scope r_scope with r.
Notation "x <- a ;; b" := (rseq a (fun x => b)) (at level 61, a at next level, right associativity) : r_scope.
Notation "a ;; b" := (rseq a (fun _ => b)) (at level 61, right associativity) : r_scope.

Definition tok_eqb (a b : token) : bool :=
  match a, b with
  | Id u, Id v | Int u, Int v | Str u, Str v | Op u, Op v => beqs u v
  | Semi, Semi => true
  | _, _ => false
  end.
Definition the_token (t : token) : reader unit := fun l => match l with t' :: l' => if tok_eqb t t' then Some (tt, l') else None | [] => None end.
(** The tokens of a given text. *)
Definition pieces (s : bytes) : list token :=
  let x := lex_from (mkLex [] Start) (s ++ [x20]) in match lx_mode x with Start => rev (lx_toks x) | _ => [] end.
Fixpoint the_tokens (ts : list token) : reader unit := match ts with [] => rret tt | t :: ts' => (the_token t ;; the_tokens ts')%r end.
Definition the (s : bytes) : reader unit := the_tokens (pieces s).

Definition a_string : reader bytes := fun l => match l with Str s :: l' => Some (s, l') | _ => None end.
(** A number between two bounds, in base 16, possibly negated. *)
Definition a_natural : reader N :=
  fun l => match l with Int w :: l' => match nat_literal w with Some n => Some (n, l') | None => None end | _ => None end.
Definition a_number (lo hi : Z) : reader Z :=
  (z <- (fun l => match l with
                  | Op [x2d] :: l' => (n <- a_natural ;; rret (- Z.of_N n)%Z)%r l'
                  | _ => (n <- a_natural ;; rret (Z.of_N n))%r l
                  end) ;;
   if ((lo <=? z) && (z <=? hi))%Z then rret z else rfail)%r.
Definition an_int8 : reader Z := a_number (-128) 127.
Definition an_int32 : reader Z := a_number (-2147483648) 2147483647.
Definition an_entry : reader N := (z <- a_number 0 18446744073709551615 ;; rret (Z.to_N z))%r.
Definition a_byte : reader byte := (z <- a_number 0 255 ;; rret (nb (Z.to_N z)))%r.
(** A number in base 10 without leading zeros. *)
Fixpoint dec_value (s : bytes) (acc : nat) : option nat :=
  match s with
  | [] => Some acc
  | c :: r => if decimal c then dec_value r (10 * acc + N.to_nat (bn c - 48)) else None
  end.
Definition a_length : reader nat :=
  fun l => match l with
           | Int [x30] :: l' => Some (0, l')
           | Int (x30 :: _) :: _ => None
           | Int w :: l' => match dec_value w 0 with Some n => Some (n, l') | None => None end
           | _ => None
           end.

(** Elements up to the closing brace, each followed by a comma (and none is longer than the text). *)
Fixpoint some_elements {A} (p : reader A) (fuel : nat) : reader (list A) :=
  match fuel with
  | O => rfail
  | S f => fun l => match l with
                    | Op [x7d] :: l' => Some ([], l')
                    | _ => (a <- p ;; the (bs ",") ;; r <- some_elements p f ;; rret (a :: r))%r l
                    end
  end.
Definition elements_of {A} (p : reader A) : reader (list A) := fun l => some_elements p (S (length l)) l.

(** [name = type{ elements }], as a declaration. *)
Definition variable {A} (head : bytes) (p : reader A) : reader (list A) :=
  (the head ;; l <- elements_of p ;; the (bs ";") ;; rret l)%r.
(** An array [name = [n]type{ elements }]: missing elements are empty. *)
Definition array {A} (head head' : bytes) (p : reader (list A)) : reader (list (list A)) :=
  (the head ;; n <- a_length ;; the head' ;; l <- elements_of p ;; the (bs ";") ;;
   if length l <=? n then rret (l ++ repeat [] (n - length l)) else rfail)%r.
(** A map: no key may occur twice. *)
Definition a_pair {A B} (p : reader A) (q : reader B) : reader (A * B) := (a <- p ;; the (bs ":") ;; b <- q ;; rret (a, b))%r.
Fixpoint distinct (l : list N) : bool := match l with [] => true | k :: l' => negb (existsb (N.eqb k) l') && distinct l' end.
Definition go_map {B} (head : bytes) (q : reader B) : reader (list (N * B)) :=
  (l <- variable head (a_pair an_entry q) ;; if distinct (map fst l) then rret l else rfail)%r.
(** [regexp.MustCompile(`p`)]. *)
Definition a_pattern : reader bytes := (the (bs "regexp.MustCompile(") ;; p <- a_string ;; the (bs ")") ;; rret p)%r.
Definition patterns (head : bytes) : reader (list bytes) := variable (head ++ bs " = []*regexp.Regexp{") a_pattern.

(** The beginning and the end of a file. *)
Fixpoint imports (l : list bytes) : reader unit :=
  match l with [] => rret tt | p :: l' => (s <- a_string ;; if beqs s p then the (bs ";") ;; imports l' else rfail)%r end.
Definition a_file {A} (l : list bytes) (p : reader A) : reader A :=
  (the (bs "package uaxpl; import (") ;; imports l ;; the (bs "); var (") ;; a <- p ;; the (bs ");") ;; rret a)%r.
(** The value of a whole text. *)
Definition declares {A} (p : reader A) (s : bytes) (a : A) : Prop := exists l, lex s = Some l /\ p l = Some (a, []).

(** ** The five files *)
Definition a_client : reader clientTuple :=
  (the (bs "clientTuple{matchRI:") ;; ri <- an_int32 ;; the (bs ",match64:") ;; m <- an_entry ;; the (bs ",browser64:") ;; b <- an_entry ;;
   the (bs ",version64:") ;; v <- an_entry ;; the (bs ",browserVI:") ;; vi <- an_int8 ;; the (bs ",engine64:") ;; e <- an_entry ;;
   the (bs ",engineFI:") ;; fi <- an_int32 ;; the (bs ",url64:") ;; u <- an_entry ;; the (bs ",type64:") ;; t <- an_entry ;; the (bs "}") ;;
   rret (mkClient ri m b v vi e fi u t))%r.
(** [func(s string) entry.Entry64 { if s>="t" {return e}; ... return d; }] *)
Fixpoint rules (fuel : nat) : reader engineFn :=
  match fuel with
  | O => rfail
  | S f => fun l => match l with
                    | Id w :: l' =>
                        if beqs w (bs "return") then (d <- an_entry ;; the (bs ";}") ;; rret ([], d))%r l'
                        else (the (bs "if s>=") ;; t <- a_string ;; the (bs "{return ") ;; e <- an_entry ;; the (bs "};") ;;
                              r <- rules f ;; rret ((t, e) :: fst r, snd r))%r l
                    | _ => None
                    end
  end.
Definition a_function : reader engineFn := (the (bs "func(s string) entry.Entry64 {") ;; fun l => rules (S (length l)) l)%r.
Definition go_client : reader client_out :=
  a_file [bs "github.com/koykov/entry"; bs "regexp"]
    (idx <- array (bs "__cr_idx = [") (bs "][]clientTuple{") (the (bs "{") ;; elements_of a_client) ;;
     re <- patterns (bs "__cr_re") ;; ef <- variable (bs "__cr_ef = []engineFn{") a_function ;;
     ev <- go_map (bs "__cr_ev = map[entry.Entry64]int32{") an_int32 ;; evre <- patterns (bs "__cr_evre") ;;
     b <- variable (bs "__cr_buf = []byte{") a_byte ;; rret (mkCO idx re ef ev evre b))%r.

Definition an_os_version : reader osVersionTuple :=
  (the (bs "osVersionTuple{matchRI:") ;; ri <- an_int32 ;; the (bs ",match64:") ;; m <- an_entry ;; the (bs ",versionSI:") ;; si <- an_int8 ;;
   the (bs ",version64:") ;; v <- an_entry ;; the (bs "}") ;; rret (mkOV ri m si v))%r.
Definition an_os : reader osTuple :=
  (the (bs "osTuple{name64:") ;; n <- an_entry ;; the (bs ",nameSI:") ;; ni <- an_int8 ;; the (bs ",matchRI:") ;; ri <- an_int32 ;;
   the (bs ",match64:") ;; m <- an_entry ;; the (bs ",versionSI:") ;; si <- an_int8 ;; the (bs ",version64:") ;; v <- an_entry ;;
   the (bs ",versions64:") ;; vs <- an_entry ;; the (bs "}") ;; rret (mkOS n ni ri m si v vs))%r.
Definition go_os : reader os_out :=
  a_file [bs "regexp"]
    (os <- variable (bs "__or_os = []osTuple{") an_os ;; ov <- variable (bs "__or_ov = []osVersionTuple{") an_os_version ;;
     re <- patterns (bs "__or_re") ;; b <- variable (bs "__or_buf = []byte{") a_byte ;; rret (mkOO os ov re b))%r.

Definition a_model : reader modelTuple :=
  (the (bs "modelTuple{type64:") ;; t <- an_entry ;; the (bs ",matchRI:") ;; ri <- an_int32 ;; the (bs ",match64:") ;; m <- an_entry ;;
   the (bs ",model64:") ;; n <- an_entry ;; the (bs "}") ;; rret (mkModel t ri m n))%r.
Definition a_device : reader deviceTuple :=
  (the (bs "deviceTuple{type64:") ;; t <- an_entry ;; the (bs ",brand64:") ;; b <- an_entry ;; the (bs ",matchRI:") ;; ri <- an_int32 ;;
   the (bs ",match64:") ;; m <- an_entry ;; the (bs ",modelSI:") ;; si <- an_int32 ;; the (bs ",models64:") ;; ms <- an_entry ;;
   the (bs "}") ;; rret (mkDevice t b ri m si ms))%r.
Definition go_device : reader device_out :=
  a_file [bs "regexp"]
    (idx <- array (bs "__dr_idx = [") (bs "][]deviceTuple{") (the (bs "{") ;; elements_of a_device) ;;
     dm <- variable (bs "__dr_dm = []modelTuple{") a_model ;; re <- patterns (bs "__dr_re") ;;
     b <- variable (bs "__dr_buf = []byte{") a_byte ;; rret (mkDO idx dm re b))%r.

Definition a_vendor : reader vendorTuple :=
  (the (bs "vendorTuple{brand64:") ;; b <- an_entry ;; the (bs ",range64:") ;; r <- an_entry ;; the (bs "}") ;; rret (mkVendor b r))%r.
Definition go_vendor : reader vendor_out :=
  a_file [bs "regexp"]
    (idx <- variable (bs "__vr_idx = []vendorTuple{") a_vendor ;; re <- patterns (bs "__vr_re") ;;
     b <- variable (bs "__vr_buf = []byte{") a_byte ;; rret (mkVO idx re b))%r.
Definition go_hint : reader hint_out :=
  a_file [bs "github.com/koykov/entry"]
    (idx <- go_map (bs "__hr_idx = map[uint64]entry.Entry64{") an_entry ;;
     b <- variable (bs "__hr_buf = []byte{") a_byte ;; rret (mkHO idx b))%r.

(** ** What can be written and read back *)
Definition byte_free (c : byte) (s : bytes) : Prop := ~ In c s.
Definition u64 (n : N) : Prop := (n < two64)%N.
Definition i32 (z : Z) : Prop := (-2147483648 < z <= 2147483647)%Z.
Definition i8 (z : Z) : Prop := (-128 < z <= 127)%Z.
(** Texts of comments are one line; patterns contain neither back-quotes nor carriage returns; thresholds neither
    quotes, backslashes nor newlines. *)
Definition one_line (s : bytes) : Prop := ~ In x0a s.
Definition raw_text (s : bytes) : Prop := ~ In x60 s /\ ~ In x0d s.
Definition plain_text (s : bytes) : Prop := ~ In x22 s /\ ~ In x5c s /\ ~ In x0a s.

Definition client_fits (t : clientTuple) : Prop :=
  i32 (ct_matchRI t) /\ u64 (ct_match64 t) /\ u64 (ct_browser64 t) /\ u64 (ct_version64 t) /\ i8 (ct_browserVI t) /\ u64 (ct_engine64 t) /\
  i32 (ct_engineFI t) /\ u64 (ct_url64 t) /\ u64 (ct_type64 t).
Definition function_fits (f : engineFn) : Prop := Forall (fun ve => plain_text (fst ve) /\ u64 (snd ve)) (fst f) /\ u64 (snd f).
Definition client_out_fits (o : client_out) : Prop :=
  Forall (Forall client_fits) (co_idx o) /\ Forall raw_text (co_re o) /\ Forall function_fits (co_ef o) /\
  Forall (fun kv => u64 (fst kv) /\ i32 (snd kv)) (co_ev o) /\ NoDup (map fst (co_ev o)) /\ Forall raw_text (co_evre o).
Definition os_version_fits (t : osVersionTuple) : Prop := i32 (ov_matchRI t) /\ u64 (ov_match64 t) /\ i8 (ov_versionSI t) /\ u64 (ov_version64 t).
Definition os_fits (t : osTuple) : Prop :=
  u64 (ot_name64 t) /\ i8 (ot_nameSI t) /\ i32 (ot_matchRI t) /\ u64 (ot_match64 t) /\ i8 (ot_versionSI t) /\ u64 (ot_version64 t) /\ u64 (ot_versions64 t).
Definition os_out_fits (o : os_out) : Prop := Forall os_fits (oo_os o) /\ Forall os_version_fits (oo_ov o) /\ Forall raw_text (oo_re o).
Definition model_fits (t : modelTuple) : Prop := u64 (mt_type64 t) /\ i32 (mt_matchRI t) /\ u64 (mt_match64 t) /\ u64 (mt_model64 t).
Definition device_fits (t : deviceTuple) : Prop :=
  u64 (dt_type64 t) /\ u64 (dt_brand64 t) /\ i32 (dt_matchRI t) /\ u64 (dt_match64 t) /\ i32 (dt_modelSI t) /\ u64 (dt_models64 t).
Definition device_out_fits (o : device_out) : Prop := Forall (Forall device_fits) (do_idx o) /\ Forall model_fits (do_dm o) /\ Forall raw_text (do_re o).
Definition vendor_out_fits (o : vendor_out) : Prop := Forall (fun t => u64 (vt_brand64 t) /\ u64 (vt_range64 t)) (vo_idx o) /\ Forall raw_text (vo_re o).
Definition hint_out_fits (o : hint_out) : Prop := Forall (fun kv => u64 (fst kv) /\ u64 (snd kv)) (ho_idx o) /\ NoDup (map fst (ho_idx o)).

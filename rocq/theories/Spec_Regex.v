(** What a pattern means, independently of the matcher: parse trees, which of two trees is preferred, and the language of an
    expression.  A text is the list of its runes with their widths in bytes; positions are byte positions. *)
From Verif Require Import Model_Base Model_Regex.

Definition text := list (N * nat).
Fixpoint width (v : text) : Z := match v with [] => 0%Z | (_, w) :: v' => (Z.of_nat w + width v')%Z end.

(** Parse trees. *)
Inductive tree :=
| TEps | TChar (w : nat)
| TCat (a b : tree)
| TL (a : tree) | TR (a : tree)
| TStop | TMore (a b : tree)
| TGrp (n : nat) (a : tree).

(** [parses r p t v w]: at position [p] the expression [r] matches the text [v], [w] being the text that follows, and [t]
    records how.  An iteration of a star consumes something. *)
Inductive parses : re -> Z -> tree -> text -> text -> Prop :=
| P_eps p w : parses Eps p TEps [] w
| P_cls neg rs p x wd w : cls_mem neg rs x = true -> parses (Cls neg rs) p (TChar wd) [(x, wd)] w
| P_bol w : parses Bol 0 TEps [] w
| P_eol p : parses Eol p TEps [] []
| P_cat a b p t1 t2 v1 v2 w : parses a p t1 v1 (v2 ++ w) -> parses b (p + width v1)%Z t2 v2 w ->
    parses (Cat a b) p (TCat t1 t2) (v1 ++ v2) w
| P_left a b p t v w : parses a p t v w -> parses (Alt a b) p (TL t) v w
| P_right a b p t v w : parses b p t v w -> parses (Alt a b) p (TR t) v w
| P_stop g a p w : parses (Star g a) p TStop [] w
| P_more g a p t1 t2 v1 v2 w : v1 <> [] -> parses a p t1 v1 (v2 ++ w) -> parses (Star g a) (p + width v1)%Z t2 v2 w ->
    parses (Star g a) p (TMore t1 t2) (v1 ++ v2) w
| P_grp n a p t v w : parses a p t v w -> parses (Grp n a) p (TGrp n t) v w.

(** [prefers r t t']: Perl prefers [t]: the left branch, one more iteration of a greedy star, one less of a lazy one;
    earlier choices count more. *)
Inductive prefers : re -> tree -> tree -> Prop :=
| F_cat1 a b t1 t1' t2 t2' : prefers a t1 t1' -> prefers (Cat a b) (TCat t1 t2) (TCat t1' t2')
| F_cat2 a b t t2 t2' : prefers b t2 t2' -> prefers (Cat a b) (TCat t t2) (TCat t t2')
| F_branch a b t t' : prefers (Alt a b) (TL t) (TR t')
| F_left a b t t' : prefers a t t' -> prefers (Alt a b) (TL t) (TL t')
| F_right a b t t' : prefers b t t' -> prefers (Alt a b) (TR t) (TR t')
| F_greedy a t t2 : prefers (Star true a) (TMore t t2) TStop
| F_lazy a t t2 : prefers (Star false a) TStop (TMore t t2)
| F_more1 g a t1 t1' t2 t2' : prefers a t1 t1' -> prefers (Star g a) (TMore t1 t2) (TMore t1' t2')
| F_more2 g a t t2 t2' : prefers (Star g a) t2 t2' -> prefers (Star g a) (TMore t t2) (TMore t t2')
| F_grp n a t t' : prefers a t t' -> prefers (Grp n a) (TGrp n t) (TGrp n t').

(** Bytes consumed, and the last part matched by group [n]. *)
Fixpoint size (t : tree) : Z :=
  match t with
  | TEps | TStop => 0%Z
  | TChar w => Z.of_nat w
  | TCat a b | TMore a b => (size a + size b)%Z
  | TL a | TR a | TGrp _ a => size a
  end.
Fixpoint group_of (n : nat) (p : Z) (t : tree) : option (Z * Z) :=
  match t with
  | TEps | TStop | TChar _ => None
  | TCat a b | TMore a b =>
      match group_of n (p + size a) b with Some x => Some x | None => group_of n p a end
  | TL a | TR a => group_of n p a
  | TGrp m a => if m =? n then Some (p, p + size a)%Z else group_of n p a
  end.

(** The best match: no match starts further left, and among those starting here [t] is preferred to every other. *)
Definition best (r : re) (s : text) (p : Z) (t : tree) : Prop :=
  exists u v w, s = u ++ v ++ w /\ p = width u /\ parses r p t v w /\
  (forall u' t' v' w', s = u' ++ v' ++ w' -> length u' < length u -> ~ parses r (width u') t' v' w') /\
  (forall t' v' w', v ++ w = v' ++ w' -> parses r p t' v' w' -> t' = t \/ prefers r t t').

(** Start and end of every group; -1 for a group that took no part. *)
Definition groups (ng : nat) (p : Z) (t : tree) : list Z :=
  (p :: (p + size t)%Z :: flat_map (fun n => match group_of n p t with Some (lo, hi) => [lo; hi] | None => [-1; -1]%Z end) (seq 1 ng)).

(** The language of an expression in a context: [u] before, [v] matched, [w] after. *)
Inductive lang : re -> text -> text -> text -> Prop :=
| L_eps u w : lang Eps u [] w
| L_cls neg rs u x wd w : cls_mem neg rs x = true -> lang (Cls neg rs) u [(x, wd)] w
| L_bol w : lang Bol [] [] w
| L_eol u : lang Eol u [] []
| L_cat a b u v1 v2 w : lang a u v1 (v2 ++ w) -> lang b (u ++ v1) v2 w -> lang (Cat a b) u (v1 ++ v2) w
| L_left a b u v w : lang a u v w -> lang (Alt a b) u v w
| L_right a b u v w : lang b u v w -> lang (Alt a b) u v w
| L_stop g a u w : lang (Star g a) u [] w
| L_more g a u v1 v2 w : lang a u v1 (v2 ++ w) -> lang (Star g a) (u ++ v1) v2 w -> lang (Star g a) u (v1 ++ v2) w
| L_grp n a u v w : lang a u v w -> lang (Grp n a) u v w.

(** The UTF-8 encoding of a Unicode scalar value (Unicode 15, table 3-6). *)
Definition scalar (r : N) : Prop := (r < 55296 \/ 57344 <= r < 1114112)%N.
Definition utf8 (r : N) : list N :=
  if (r <? 128)%N then [r]
  else if (r <? 2048)%N then [192 + r / 64; 128 + r mod 64]%N
  else if (r <? 65536)%N then [224 + r / 4096; 128 + r / 64 mod 64; 128 + r mod 64]%N
  else [240 + r / 262144; 128 + r / 4096 mod 64; 128 + r / 64 mod 64; 128 + r mod 64]%N.

(** Characters that stand for themselves in a pattern: ASCII, not one of \ . + * ? ( ) | [ { ^ $ *)
Definition plain (b : byte) : Prop :=
  (bn b < 128)%N /\ ~ In (bn b) [92; 46; 43; 42; 63; 40; 41; 124; 91; 123; 94; 36]%N.

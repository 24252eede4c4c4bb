(** Expressions as they are written, and what they mean to the parser. *)
Require Import ZArith Bool Ascii String List.
Require Import Verif.FactorModel Verif.ParserModel.
Import ListNotations.
Local Open Scope string_scope.
Local Open Scope list_scope.

(** operand (operator operand)* ; an operand is a number or name, a bracketed expression, a call
    with arguments, or an array element. *)
Inductive chain : Type :=
| Last (o : operand)
| Link (o : operand) (op : token) (c : chain)
with operand : Type :=
| Leaf (t : token)
| Paren (c : chain)
| Call (f : string) (args : list chain)
| Index (a : string) (i : chain) (more : list chain).

Definition syn (s : string) : token := Tok TSyntax s.
(** The tokens of an expression. *)
Fixpoint printc (c : chain) : list token :=
  match c with
  | Last o => printo o
  | Link o op c' => printo o ++ op :: printc c'
  end
with printo (o : operand) : list token :=
  match o with
  | Leaf t => [t]
  | Paren c => syn "(" :: printc c ++ [syn ")"]
  | Call f args =>
      Tok TCall f :: syn "(" ::
      (fix join l := match l with
                     | [] => []
                     | [c] => printc c
                     | c :: l' => printc c ++ syn "," :: join l'
                     end) args ++ [syn ")"]
  | Index a i more =>
      Tok TIdent a :: syn "[" :: printc i ++ syn "]" :: flat_map (fun c => syn "[" :: printc c ++ [syn "]"]) more
  end.

(** No token other than the syntax tokens has the text of a bracket, comma or line break. *)
Definition solid (s : string) : Prop :=
  ~ In s ["("; ")"; "["; "]"; "{"; "}"; ","; String (ascii_of_nat 10) ""].
Definition operator_type (t : ttype) : Prop := In t [TCompare; TArith; TBoolOp; TBitOp; TAssign].
Fixpoint wfc (c : chain) : Prop :=
  match c with
  | Last o => wfo o
  | Link o op c' => wfo o /\ operator_type (ttyp op) /\ solid (ident op) /\ wfc c'
  end
with wfo (o : operand) : Prop :=
  match o with
  | Leaf t => (ttyp t = TNumber \/ ttyp t = TIdent) /\ solid (ident t)
  | Paren c => wfc c
  | Call f args => solid f /\ (fix all l := match l with [] => True | c :: l' => wfc c /\ all l' end) args
  | Index a i more => solid a /\ wfc i /\ (fix all l := match l with [] => True | c :: l' => wfc c /\ all l' end) more
  end.

(** The meaning: operators associate to the right, all with the same precedence. *)
Inductive ast : Type :=
| ALeaf (t : token)
| ABin (op : token) (l r : ast)
| ACall (f : string) (args : list ast)
| AIndex (a : string) (ixs : list ast).
Fixpoint meanc (c : chain) : ast :=
  match c with
  | Last o => meano o
  | Link o op c' => ABin op (meano o) (meanc c')
  end
with meano (o : operand) : ast :=
  match o with
  | Leaf t => ALeaf t
  | Paren c => meanc c
  | Call f args => ACall f (map meanc args)
  | Index a i more => AIndex a (meanc i :: map meanc more)
  end.

(** How a constraint tree is read: a node without operator only passes its child on. *)
Inductive reads : ctree -> ast -> Prop :=
| reads_leaf t : ttyp t = TNumber \/ ttyp t = TIdent -> reads (Con t []) (ALeaf t)
| reads_wrap s c a : reads c a -> reads (Con (Tok TUnassigned s) [c]) a
| reads_bin s op l r a b : reads l a -> reads r b -> reads (Con (Tok TUnassigned s) [Con op []; l; r]) (ABin op a b)
| reads_call f cs args : Forall2 reads cs args -> reads (Con (Tok TCall f) cs) (ACall f args)
| reads_index a cs ixs : Forall2 reads cs ixs -> reads (Con (Tok TArrCall a) cs) (AIndex a ixs).

(** * Splitting *)
Definition has_text (s : string) (t : token) : bool := String.eqb (ident t) s.
Definition count (s : string) (ts : list token) : nat := List.length (filter (has_text s) ts).
(** Opened and not closed. *)
Definition level (op cl : string) (ts : list token) : Z := (Z.of_nat (count op ts) - Z.of_nat (count cl ts))%Z.
(** Nothing is closed that was not opened, and all is closed at the end. *)
Definition closed (op cl : string) (ts : list token) : Prop :=
  level op cl ts = 0%Z /\ forall p s, ts = p ++ s -> (0 <= level op cl p)%Z.
(** Depth in round and square brackets together. *)
Definition depth (ts : list token) : Z := (level "(" ")" ts + level "[" "]" ts)%Z.

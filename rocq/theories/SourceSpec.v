(** The grammar of source programs as sequences of tokens, and the program each sequence stands for.
    Comments are not among the tokens; [line] is the end of a line. *)
Require Import ZArith Bool Ascii String List.
Require Import Verif.FactorModel Verif.LexerSpec Verif.LangSpec.
Import ListNotations.
Local Open Scope string_scope.
Local Open Scope list_scope.

Definition sign (s : string) : token := Tok TSyntax s.
Definition line : token := sign (String nl "").
(** A number, a name or a keyword is written with letters, digits and underscores. *)
Definition word (s : string) : Prop := s <> "" /\ Forall word_char (chars s).

(** Expressions: an operand, or an operand, an operator and an expression.  Operators associate to the right,
    all with the same precedence (see C41). *)
Inductive g_operand : list token -> exp -> Prop :=
| g_num s : word s -> g_operand [Tok TNumber s] (Num s)
| g_var x : word x -> g_operand [Tok TIdent x] (Var x)
| g_paren ts e : g_chain ts e -> g_operand (sign "(" :: ts ++ [sign ")"]) e
| g_base ts e : g_chain ts e -> g_operand (Tok TCall "scalarBaseMultiply" :: sign "(" :: ts ++ [sign ")"]) (Base e)
| g_call f ts es : word f -> f <> "scalarBaseMultiply" -> g_args ts es ->
    g_operand (Tok TCall f :: sign "(" :: ts ++ [sign ")"]) (Call f es)
| g_element a ts es : word a -> g_indices ts es -> g_operand (Tok TIdent a :: ts) (Idx a es)
with g_chain : list token -> exp -> Prop :=
| g_last ts e : g_operand ts e -> g_chain ts e
| g_link ts e o ts' e' : g_operand ts e -> In o ["+"; "-"; "*"; "/"] -> g_chain ts' e' ->
    g_chain (ts ++ Tok TArith o :: ts') (Bin o e e')
with g_args : list token -> list exp -> Prop :=
| g_none : g_args [] []
| g_one ts e : g_chain ts e -> g_args ts [e]
| g_more ts e ts' es : g_chain ts e -> g_args ts' es -> es <> [] -> g_args (ts ++ sign "," :: ts') (e :: es)
(** Indices, each in brackets. *)
with g_indices : list token -> list exp -> Prop :=
| g_index ts e : g_chain ts e -> g_indices (sign "[" :: ts ++ [sign "]"]) [e]
| g_index_more ts e ts' es : g_chain ts e -> g_indices ts' es -> g_indices (sign "[" :: ts ++ sign "]" :: ts') (e :: es).
Inductive g_cond : list token -> cond -> Prop :=
| g_cmp ts e o ts' e' : g_operand ts e -> In o ["=="; "!="; "<"; "<="; ">"; ">="] -> g_chain ts' e' ->
    g_cond (ts ++ Tok TCompare o :: ts') (Cmp o e e')
| g_cond_paren ts c : g_cond ts c -> g_cond (sign "(" :: ts ++ [sign ")"]) c.

(** Names with commas between them. *)
Fixpoint listed (xs : list string) : list token :=
  match xs with
  | [] => []
  | [x] => [Tok TIdent x]
  | x :: xs' => Tok TIdent x :: sign "," :: listed xs'
  end.
Definition line_ends (rest : list token) : Prop := match rest with [] => True | t :: _ => t = line end.

(** Blocks.  A return is the last statement of its block; an if is not. *)
Inductive g_block : list token -> list stmt -> Prop :=
| g_empty : g_block [] []
| g_line ts b : g_block ts b -> g_block (line :: ts) b
| g_decl x ts e rest b : word x -> g_chain ts e -> g_block rest b -> line_ends rest ->
    g_block (Tok TVarDecl "var" :: Tok TIdent x :: Tok TAssign "=" :: ts ++ rest) (Decl x e :: b)
| g_assign x ts e rest b : word x -> g_chain ts e -> g_block rest b -> line_ends rest ->
    g_block (Tok TIdent x :: Tok TAssign "=" :: ts ++ rest) (Assign x e :: b)
| g_equal ts e e' rest b : g_args ts [e; e'] -> g_block rest b -> line_ends rest ->
    g_block (Tok TCall "equal" :: sign "(" :: ts ++ sign ")" :: rest) (Equal e e' :: b)
| g_do f ts es rest b : word f -> f <> "equal" -> g_args ts es -> g_block rest b -> line_ends rest ->
    g_block (Tok TCall f :: sign "(" :: ts ++ sign ")" :: rest) (Do f es :: b)
| g_return ts e n : g_chain ts e -> g_block (Tok TReturn "return" :: ts ++ repeat line n) [Return e]
| g_for ts c x ts' e n body bs rest b : g_cond ts c -> word x -> g_chain ts' e -> g_block body bs -> g_block rest b ->
    g_block (Tok TFor "for" :: sign "(" :: ts ++ sign ";" :: Tok TIdent x :: Tok TAssign "=" :: ts' ++ sign ")" ::
             repeat line n ++ sign "{" :: body ++ sign "}" :: rest) (For c x e bs :: b)
| g_if ts c body bs rest b : g_cond ts c -> g_block body bs -> g_block rest b -> b <> [] ->
    g_block (Tok TIf "if" :: ts ++ sign "{" :: body ++ sign "}" :: rest) (If c bs :: b)
| g_public x xs rest b : Forall word (x :: xs) -> g_block rest b ->
    g_block (Tok TPublic "public" :: sign "{" :: listed (x :: xs) ++ sign "}" :: rest) (map Public (x :: xs) ++ b)
| g_put a ts es ts' e rest b : word a -> g_indices ts es -> g_chain ts' e -> g_block rest b -> line_ends rest ->
    g_block (Tok TIdent a :: ts ++ Tok TAssign "=" :: ts' ++ rest) (Put a es e :: b)
| g_array x ts es rest b : word x -> g_args ts es -> es <> [] -> g_block rest b -> line_ends rest ->
    g_block (Tok TVarDecl "var" :: Tok TIdent x :: sign "[" :: sign "]" :: Tok TAssign "=" :: sign "{" :: ts ++ sign "}" :: rest) (array x es ++ b).
(** Parameters: names, and arrays with their sizes, which stand for their elements in order. *)
Definition decimal (s : string) : Z := fold_left (fun a c => 10 * a + (Z.of_nat (nat_of_ascii c) - 48))%Z (chars s) 0%Z.
Fixpoint positions (sizes : list Z) : list (list Z) :=
  match sizes with
  | [] => [[]]
  | k :: sizes' => flat_map (fun i => map (cons (Z.of_nat i)) (positions sizes')) (seq 0 (Z.to_nat k))
  end.
Inductive g_param : list token -> list string -> Prop :=
| g_param_name x : word x -> g_param [Tok TIdent x] [x]
| g_param_array a ds : word a -> ds <> [] -> Forall (fun d => d <> "" /\ Forall digit (chars d) /\ (0 < decimal d < 2 ^ 63)%Z) ds ->
    g_param (Tok TIdent a :: flat_map (fun d => [sign "["; Tok TNumber d; sign "]"]) ds) (map (element a) (positions (map decimal ds))).
Inductive g_params : list token -> list string -> Prop :=
| g_params_none : g_params [] []
| g_params_one ts xs : g_param ts xs -> g_params ts xs
| g_params_more ts xs ts' ys : g_param ts xs -> g_params ts' ys -> ts' <> [] -> g_params (ts ++ sign "," :: ts') (xs ++ ys).
(** Programs: functions, and the end of the file. *)
Inductive g_prog : list token -> defs -> Prop :=
| g_end : g_prog [Tok TEOF ""] []
| g_prog_line ts fs : g_prog ts fs -> g_prog (line :: ts) fs
| g_func t f ts ps body bs rest fs : word f -> g_params ts ps -> g_block body bs -> g_prog rest fs ->
    g_prog (Tok TFuncDef "func" :: Tok t f :: sign "(" :: ts ++ sign ")" :: sign "{" :: body ++ sign "}" :: rest)
           ((f, Fun ps bs) :: fs).

(** The text is this program. *)
Definition is_program (text : string) (fs : defs) : Prop :=
  exists ts, tokens_of (chars text) ts /\
    g_prog (filter (fun t => match ttyp t with TComment => false | _ => true end) ts ++ [Tok TEOF ""]) fs.

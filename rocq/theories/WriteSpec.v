(** Writing a program down as source text. *)
Require Import Bool Ascii String List.
Require Import Verif.FactorModel Verif.LexerSpec Verif.LangSpec Verif.SourceSpec.
Import ListNotations.
Local Open Scope string_scope.
Local Open Scope list_scope.

Definition bracketed (ts : list token) : list token := sign "(" :: ts ++ [sign ")"].
Fixpoint show (e : exp) : list token :=
  match e with
  | Num s => [Tok TNumber s]
  | Var x => [Tok TIdent x]
  | Bin o a b => match a with Bin _ _ _ => bracketed (show a) | _ => show a end ++ Tok TArith o :: show b
  | Base e' => Tok TCall "scalarBaseMultiply" :: bracketed (show e')
  | Call f es =>
      Tok TCall f :: bracketed ((fix many (l : list exp) : list token :=
        match l with [] => [] | [e'] => show e' | e' :: l' => show e' ++ sign "," :: many l' end) es)
  | Idx _ _ => []
  end.
Fixpoint show_all (es : list exp) : list token :=
  match es with [] => [] | [e] => show e | e :: es' => show e ++ sign "," :: show_all es' end.
Definition show_operand (e : exp) : list token := match e with Bin _ _ _ => bracketed (show e) | _ => show e end.
Definition show_cond (c : cond) : list token := show_operand (cleft c) ++ Tok TCompare (cop c) :: show (cright c).
(** A statement takes a line. *)
Fixpoint show_stmt (t : stmt) : list token :=
  match t with
  | Decl x e => Tok TVarDecl "var" :: Tok TIdent x :: Tok TAssign "=" :: show e ++ [line]
  | Assign x e => Tok TIdent x :: Tok TAssign "=" :: show e ++ [line]
  | Equal a b => Tok TCall "equal" :: sign "(" :: show_all [a; b] ++ sign ")" :: [line]
  | Do f es => Tok TCall f :: sign "(" :: show_all es ++ sign ")" :: [line]
  | Return e => Tok TReturn "return" :: show e ++ [line]
  | For c x e b =>
      Tok TFor "for" :: sign "(" :: show_cond c ++ sign ";" :: Tok TIdent x :: Tok TAssign "=" :: show e ++ sign ")" ::
        sign "{" :: line :: flat_map show_stmt b ++ sign "}" :: [line]
  | If c b => Tok TIf "if" :: show_cond c ++ sign "{" :: line :: flat_map show_stmt b ++ sign "}" :: [line]
  | Public x => Tok TPublic "public" :: sign "{" :: Tok TIdent x :: sign "}" :: [line]
  | Put _ _ _ | Array _ => []
  end.
Definition show_prog (fs : defs) : list token :=
  flat_map (fun d => Tok TFuncDef "func" :: Tok TIdent (fst d) :: sign "(" :: listed (fparams (snd d)) ++ sign ")" :: sign "{" :: line ::
    flat_map show_stmt (fbody (snd d)) ++ sign "}" :: [line]) fs.
(** A blank after every token but punctuation and the name of a called function. *)
Definition spell (t : token) : text :=
  chars (ident t) ++ match ttyp t with TSyntax | TCall => [] | _ => [" "%char] end.
Definition write (fs : defs) : string := string_of_list_ascii (flat_map spell (show_prog fs)).

(** Programs that can be written: numerals are digits; names are not keywords and do not begin with a
    digit; a return is the last statement of its block, an if is not. *)
Definition numeral (s : string) : Prop := s <> "" /\ Forall digit (chars s).
Definition a_name (x : string) : Prop :=
  word x /\ (forall t, ~ In (x, t) keywords) /\ match chars x with [] => False | c :: _ => ~ digit c end.
Inductive w_exp : exp -> Prop :=
| w_num s : numeral s -> w_exp (Num s)
| w_var x : a_name x -> w_exp (Var x)
| w_bin o a b : In o ["+"; "-"; "*"; "/"] -> w_exp a -> w_exp b -> w_exp (Bin o a b)
| w_base e : w_exp e -> w_exp (Base e)
| w_call f es : a_name f -> f <> "scalarBaseMultiply" -> w_exps es -> w_exp (Call f es)
with w_exps : list exp -> Prop :=
| w_none : w_exps []
| w_more e es : w_exp e -> w_exps es -> w_exps (e :: es).
Definition w_cond (c : cond) : Prop := In (cop c) ["=="; "!="; "<"; "<="; ">"; ">="] /\ w_exp (cleft c) /\ w_exp (cright c).
Inductive w_stmt : stmt -> Prop :=
| w_decl x e : a_name x -> w_exp e -> w_stmt (Decl x e)
| w_assign x e : a_name x -> w_exp e -> w_stmt (Assign x e)
| w_equal a b : w_exp a -> w_exp b -> w_stmt (Equal a b)
| w_do f es : a_name f -> f <> "equal" -> w_exps es -> w_stmt (Do f es)
| w_for c x e b : w_cond c -> a_name x -> w_exp e -> w_block b -> w_stmt (For c x e b)
| w_if c b : w_cond c -> w_block b -> w_stmt (If c b)
| w_public x : a_name x -> w_stmt (Public x)
with w_block : list stmt -> Prop :=
| w_nil : w_block []
| w_return e : w_exp e -> w_block [Return e]
| w_cons t b : w_stmt t -> w_block b -> (forall c b', t = If c b' -> b <> []) -> w_block (t :: b).
Definition writable (fs : defs) : Prop :=
  Forall (fun d => a_name (fst d) /\ Forall a_name (fparams (snd d)) /\ w_block (fbody (snd d))) fs.

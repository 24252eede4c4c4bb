(** What the lexer is meant to do: the pieces of a source text, and which texts it can read. *)
Require Import Bool Ascii String List.
Require Import Verif.FactorModel.
Import ListNotations.
Local Open Scope string_scope.
Local Open Scope list_scope.

Definition text := list ascii.
Definition chars (s : string) : text := list_ascii_of_string s.
Definition nl : ascii := ascii_of_nat 10.
Definition dq : ascii := ascii_of_nat 34.

Definition blank (c : ascii) : Prop := In c [" "%char; ascii_of_nat 9; ascii_of_nat 13].
Definition digit (c : ascii) : Prop := In c (chars "0123456789").
Definition punctuation (c : ascii) : Prop := c = nl \/ In c (chars "():,;{}[]").
Definition word_char (c : ascii) : Prop :=
  digit c \/ In c (chars "_abcdefghijklmnopqrstuvwxyzABCDEFGHIJKLMNOPQRSTUVWXYZ").

Definition operators : list (string * ttype) :=
  [("=", TAssign); ("-=", TAssign); ("+=", TAssign); ("*=", TAssign); ("/=", TAssign);
   ("-", TArith); ("+", TArith); ("*", TArith); ("/", TArith);
   ("||", TBoolOp); ("&&", TBoolOp); (">>", TBitOp); ("<<", TBitOp);
   ("==", TCompare); ("!=", TCompare); (">", TCompare); (">=", TCompare); ("<", TCompare); ("<=", TCompare)].
Definition keywords : list (string * ttype) :=
  [("return", TReturn); ("var", TVarDecl); ("if", TIf); ("else", TElse); ("for", TFor);
   ("func", TFuncDef); ("import", TImport); ("public", TPublic)].

(** The text that follows does not begin with such a character. *)
Definition not_before (p : ascii -> Prop) (s : text) : Prop :=
  match s with [] => True | c :: _ => ~ p c end.
Definition first (s : text) : text := match s with [] => [] | c :: _ => [c] end.

(** [piece t w s]: with [s] to follow, the text [w] is one token, of type [t]; no longer one
    begins there. *)
Inductive piece : ttype -> text -> text -> Prop :=
| piece_number w s : w <> [] -> Forall digit w -> not_before digit s -> piece TNumber w s
| piece_syntax c s : punctuation c -> piece TSyntax [c] s
| piece_long a b t s : In (string_of_list_ascii [a; b], t) operators -> piece t [a; b] s
| piece_short a t s : In (string_of_list_ascii [a], t) operators ->
    (forall b s' t', s = b :: s' -> ~ In (string_of_list_ascii [a; b], t') operators) -> piece t [a] s
| piece_comment w s : ~ In nl w -> not_before (fun c => c <> nl) s -> piece TComment ("#"%char :: w) s
| piece_keyword w t s : In (string_of_list_ascii w, t) keywords -> not_before word_char s -> piece t w s
| piece_call a w s : ~ digit a -> Forall word_char (a :: w) -> (forall t, ~ In (string_of_list_ascii (a :: w), t) keywords) ->
    first s = ["("%char] -> piece TCall (a :: w) s
| piece_name a w s : ~ digit a -> Forall word_char (a :: w) -> (forall t, ~ In (string_of_list_ascii (a :: w), t) keywords) ->
    not_before word_char s -> first s <> ["("%char] -> piece TIdent (a :: w) s.

(** The tokens of a text.  A blank at the very end counts as an empty identifier. *)
Inductive tokens_of : text -> list token -> Prop :=
| tokens_end : tokens_of [] []
| tokens_last b : blank b -> tokens_of [b] [Tok TIdent ""]
| tokens_blank b s ts : blank b -> s <> [] -> tokens_of s ts -> tokens_of (b :: s) ts
| tokens_piece t w s ts : piece t w s -> tokens_of s ts ->
    tokens_of (w ++ s) (Tok t (string_of_list_ascii w) :: ts)
| tokens_quoted w s ts : ~ In dq w -> tokens_of s ts ->
    tokens_of (dq :: w ++ dq :: s) (Tok TIdent (string_of_list_ascii w) :: ts).

(** The texts over the recognised alphabet with closed strings; & and | come in pairs, ! comes
    before =. *)
Inductive readable : text -> Prop :=
| readable_end : readable []
| readable_char c s : blank c \/ word_char c \/ punctuation c \/ In c (chars "=-+*/<>") ->
    readable s -> readable (c :: s)
| readable_pair w s : In w [chars "&&"; chars "||"; chars "!="] -> readable s -> readable (w ++ s)
| readable_comment w s : ~ In nl w -> not_before (fun c => c <> nl) s -> readable s -> readable ("#"%char :: w ++ s)
| readable_quoted w s : ~ In dq w -> readable s -> readable (dq :: w ++ dq :: s).

(** The source put together from token texts and the characters between them. *)
Fixpoint weave (gaps : list text) (ts : list token) : text :=
  match gaps, ts with
  | g :: gs, t :: ts' => g ++ chars (ident t) ++ weave gs ts'
  | g :: _, [] => g
  | [], _ => []
  end.

(** What the parser receives: of line ends in a row only the first (a comment ends the row). *)
Definition is_line_end (t : token) : Prop := ident t = String nl "".
Inductive one_per_row : list token -> list token -> Prop :=
| row_none : one_per_row [] []
| row_other t ts us : ~ is_line_end t -> one_per_row ts us -> one_per_row (t :: ts) (t :: us)
| row_line t row ts us : is_line_end t -> Forall is_line_end row -> match ts with [] => True | u :: _ => ~ is_line_end u end ->
    one_per_row ts us -> one_per_row (t :: row ++ ts) (t :: us).

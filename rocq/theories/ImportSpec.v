(** What program a text is when other texts can be imported: the functions of the files come where the
    import stands. *)
Require Import ZArith Ascii String List.
Require Import Verif.FactorModel Verif.LexerModel Verif.LexerSpec Verif.LangSpec Verif.SourceSpec.
Import ListNotations.
Local Open Scope string_scope.
Local Open Scope list_scope.

Section Files.
(** The contents of the files. *)
Variable files : string -> option string.
Definition without_comments (ts : list token) : list token := filter (fun t => match ttyp t with TComment => false | _ => true end) ts.
Inductive g_file : list token -> defs -> Prop :=
| f_end : g_file [Tok TEOF ""] []
| f_line ts fs : g_file ts fs -> g_file (line :: ts) fs
| f_func t f ts ps body bs rest fs : word f -> g_params ts ps -> g_block body bs -> g_file rest fs ->
    g_file (Tok TFuncDef "func" :: Tok t f :: sign "(" :: ts ++ sign ")" :: sign "{" :: body ++ sign "}" :: rest)
           ((f, Fun ps bs) :: fs)
| f_import x text ts fs rest fs' : x <> String nl "" -> files x = Some text -> tokens_of (chars text) ts -> g_file (without_comments ts ++ [Tok TEOF ""]) fs ->
    g_file rest fs' -> g_file (Tok TImport "import" :: Tok TIdent x :: rest) (fs ++ fs').
(** The text, with the files, is this program. *)
Definition is_program_in (text : string) (fs : defs) : Prop :=
  exists ts, tokens_of (chars text) ts /\ g_file (without_comments ts ++ [Tok TEOF ""]) fs.
End Files.
(** Tokens that begin with the import of [x]. *)
Definition begins (ts : list token) (x : string) : Prop := exists k rest, ts = repeat line k ++ Tok TImport "import" :: Tok TIdent x :: rest.

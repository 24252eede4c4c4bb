(** Model of circuitcompiler/lexer.go and rune_stack.go, and of the token readers of parser.go
    (34-58, 636-645).
    Simplification: the source is valid UTF-8 and is read byte by byte.  Every rune the lexer
    tests for is ASCII, and bytes of longer runes are no such rune, so the emitted texts are the
    same.  (On invalid UTF-8 Rewind steps back three bytes where Next took one, lexer.go:279.)
    The token channel (216) is the list of emitted tokens; line numbers (only used in the
    message of Error) are left out. *)
Require Import Bool Ascii String List.
Require Import Verif.FactorModel Verif.SparseModel.
Import ListNotations.
Local Open Scope string_scope.
Local Open Scope list_scope.

(** A rune, or [None] for EOFRune (lexer.go:18). *)
Definition rune := option ascii.

(** lexer.go:186-196: [cur] is source[start:position] in reverse, [rest] is source[position:];
    [stack] is the rewind stack (rune_stack.go). *)
Record lexer := Lex { cur : list ascii; rest : list ascii; stack : list rune; out : list token }.

(** lexer.go:48-77 *)
Definition operation_map (s : string) : option ttype :=
  if existsb (String.eqb s) ["="; "-="; "+="; "*="; "/="] then Some TAssign
  else if existsb (String.eqb s) ["-"; "+"; "*"; "/"] then Some TArith
  else if existsb (String.eqb s) ["||"; "&&"] then Some TBoolOp
  else if existsb (String.eqb s) [">>"; "<<"] then Some TBitOp
  else if existsb (String.eqb s) ["=="; "!="; ">"; ">="; "<"; "<="] then Some TCompare
  else None.
(** lexer.go:79-88 *)
Definition keyword_map (s : string) : option ttype :=
  if String.eqb s "return" then Some TReturn
  else if String.eqb s "var" then Some TVarDecl
  else if String.eqb s "if" then Some TIf
  else if String.eqb s "else" then Some TElse
  else if String.eqb s "for" then Some TFor
  else if String.eqb s "func" then Some TFuncDef
  else if String.eqb s "import" then Some TImport
  else if String.eqb s "public" then Some TPublic
  else None.

Definition newline : ascii := ascii_of_nat 10.
Definition quote : ascii := ascii_of_nat 34.
(** lexer.go:468 *)
Definition blanks : list ascii := [" "%char; ascii_of_nat 9; ascii_of_nat 13].
(** lexer.go:43-44 *)
Definition number_tokens : list ascii := list_ascii_of_string "0123456789".
Definition syntax_tokens : list ascii :=
  ["("; ")"; ":"; ","; ";"]%char ++ [newline] ++ ["{"; "}"; "["; "]"]%char.

(** strings.ContainsRune; false for EOFRune. *)
Definition contains_rune (chars : list ascii) (r : rune) : bool :=
  match r with Some c => existsb (Ascii.eqb c) chars | None => false end.
Definition is_rune (c : ascii) (r : rune) : bool := match r with Some d => Ascii.eqb d c | None => false end.
Definition is_eof (r : rune) : bool := match r with Some _ => false | None => true end.
(** string(r); EOFRune gives the encoding of U+FFFD. *)
Definition rune_string (r : rune) : string :=
  match r with
  | Some c => String c ""
  | None => String (ascii_of_nat 239) (String (ascii_of_nat 191) (String (ascii_of_nat 189) ""))
  end.

(** lexer.go:231-233 *)
Definition current (l : lexer) : string := string_of_list_ascii (rev (cur l)).
(** lexer.go:237-245 *)
Definition emit (t : ttype) (l : lexer) : lexer := Lex [] (rest l) [] (out l ++ [Tok t (current l)]).
(** lexer.go:250-253 *)
Definition ignore (l : lexer) : lexer := Lex [] (rest l) [] (out l).
(** lexer.go:292-309 *)
Definition next (l : lexer) : rune * lexer :=
  match rest l with
  | [] => (None, Lex (cur l) [] (None :: stack l) (out l))
  | c :: r => (Some c, Lex (c :: cur l) r (Some c :: stack l) (out l))
  end.
(** lexer.go:276-288; pop of an empty stack gives EOFRune (rune_stack.go:28-36), and the
    position is never before start. *)
Definition rewind (l : lexer) : lexer :=
  match stack l with
  | [] => l
  | None :: s => Lex (cur l) (rest l) s (out l)
  | Some _ :: s => match cur l with
                   | c :: k => Lex k (c :: rest l) s (out l)
                   | [] => Lex [] (rest l) s (out l)
                   end
  end.
(** lexer.go:257-262 *)
Definition peek (l : lexer) : rune * lexer := let (r, l') := next l in (r, rewind l').
(** lexer.go:266-271 *)
Definition peek_two (l : lexer) : string * lexer :=
  let (r1, l1) := next l in
  let (r2, l2) := next l1 in
  (String.append (rune_string r1) (rune_string r2), rewind (rewind l2)).

(** The loops of Take (314-320), readIdent (379-386) and readCommentLine (387-393): Next until
    the rune fails the test, then Rewind.  No test accepts EOFRune. *)
Fixpoint next_while (test : ascii -> bool) (k r : list ascii) (s : list rune) (o : list token) : lexer :=
  match r with
  | [] => Lex k [] (None :: s) o
  | c :: r' => if test c then next_while test (c :: k) r' (Some c :: s) o
               else Lex (c :: k) r' (Some c :: s) o
  end.
Definition read_while (test : ascii -> bool) (l : lexer) : lexer :=
  rewind (next_while test (cur l) (rest l) (stack l) (out l)).

(** lexer.go:366-371 *)
Definition in_range (a b c : ascii) : bool :=
  Nat.leb (nat_of_ascii a) (nat_of_ascii c) && Nat.leb (nat_of_ascii c) (nat_of_ascii b).
Definition is_letter (c : ascii) : bool := in_range "a" "z" c || in_range "A" "Z" c.
Definition is_digit (c : ascii) : bool := in_range "0" "9" c.
(** lexer.go:362-364 *)
Definition is_whitespace (r : rune) : bool :=
  is_rune " " r || is_rune (ascii_of_nat 9) r || is_rune newline r || is_rune (ascii_of_nat 13) r.

(** lexer.go:314-320 *)
Definition take (chars : list ascii) : lexer -> lexer := read_while (fun c => contains_rune chars (Some c)).
(** lexer.go:379-386 *)
Definition read_ident : lexer -> lexer := read_while (fun c => is_letter c || is_digit c || Ascii.eqb c "_").
(** lexer.go:387-393 *)
Definition read_comment_line : lexer -> lexer := read_while (fun c => negb (Ascii.eqb c newline)).

(** The state functions.  [InString] is the loop at lexer.go:410-412 as a state of its own. *)
Inductive state := Probably | White | Ident | Number | InString.

(** One state function, or one round of the string loop.  [None] for the state is nil. *)
(** lexer.go:460-472 *)
Definition probably_state (l : lexer) : outcome (option state * lexer) :=
  let (r, l) := peek l in
  if is_eof r then Ret (None, l) else Ret (Some Ident, ignore (take blanks l)).
(** lexer.go:474-491; the lexer has no error handler (parser.go:61-65), so Error panics. *)
Definition white_state (l : lexer) : outcome (option state * lexer) :=
  let (r, l) := peek l in
  if is_eof r then Ret (None, l)
  else if negb (is_whitespace r) then Panic
  else Ret (Some Ident, ignore (take blanks l)).
(** lexer.go:373-377; the following state function is called at once. *)
Definition number_state (l : lexer) : outcome (option state * lexer) :=
  probably_state (emit TNumber (take number_tokens l)).
(** lexer.go:410-416 *)
Definition string_state (l : lexer) : outcome (option state * lexer) :=
  let (r, l) := peek l in
  if negb (is_rune quote r) then Ret (Some InString, snd (next l))
  else Ret (Some Probably, ignore (snd (next (emit TIdent l)))).
(** lexer.go:395-458 *)
Definition ident_state (l : lexer) : outcome (option state * lexer) :=
  let (r, l) := peek l in
  if match r with Some c => is_digit c | None => false end then Ret (Some Number, l)
  else if contains_rune syntax_tokens r then Ret (Some Probably, emit TSyntax (snd (next l)))
  else if is_rune quote r then Ret (Some InString, ignore (snd (next l)))
  else
    let (two, l) := peek_two l in
    match operation_map two with
    | Some t => Ret (Some Probably, emit t (snd (next (snd (next l)))))
    | None =>
        match operation_map (rune_string r) with
        | Some t => Ret (Some Probably, emit t (snd (next l)))
        | None =>
            if is_rune "#" r then Ret (Some White, emit TComment (read_comment_line l))
            else
              let l := read_ident l in
              match keyword_map (current l) with
              | Some t => Ret (Some Probably, emit t l)
              | None =>
                  let (r, l) := peek l in
                  if is_rune "(" r then Ret (Some Probably, emit TCall l)
                  else Ret (Some Probably, emit TIdent l)
              end
        end
    end.
Definition step (s : state) (l : lexer) : outcome (option state * lexer) :=
  match s with
  | Probably => probably_state l
  | White => white_state l
  | Ident => ident_state l
  | Number => number_state l
  | InString => string_state l
  end.

(** lexer.go:352-358: the run loop, for [n] rounds.  [Running] carries nothing; see [emitted]
    for the tokens sent so far. *)
Fixpoint run (n : nat) (s : state) (l : lexer) : outcome (list token) :=
  match n with
  | O => Running
  | S n' => match step s l with
            | Ret (Some s', l') => run n' s' l'
            | Ret (None, l') => Ret (out l')
            | Panic => Panic
            | Running => Running
            end
  end.
(** The tokens sent within [n] rounds. *)
Fixpoint emitted (n : nat) (s : state) (l : lexer) : list token :=
  match n with
  | O => out l
  | S n' => match step s l with
            | Ret (Some s', l') => emitted n' s' l'
            | Ret (None, l') => out l'
            | _ => out l
            end
  end.
(** lexer.go:199-218: New(src, ProbablyWhitespaceState) and Start. *)
Definition start (src : list ascii) : lexer := Lex [] src [] [].
Definition lex (n : nat) (src : string) : outcome (list token) :=
  run n Probably (start (list_ascii_of_string src)).

(** lexer.go:324-338: what successive NextToken calls return; [already] is alreadyNewline. *)
Fixpoint next_tokens (already : bool) (ts : list token) : list token :=
  match ts with
  | [] => []
  | t :: ts' =>
      if String.eqb (ident t) (String newline "") then
        if already then next_tokens true ts' else t :: next_tokens true ts'
      else t :: next_tokens false ts'
  end.
(** parser.go:49-59 and 636-645: comments are dropped, an EOF token is added.  (A token of type
    EOF never comes from the lexer.) *)
Definition stack_all_tokens (ts : list token) : list token :=
  filter (fun t => negb (ttype_eqb (ttyp t) TComment)) (next_tokens false ts) ++ [Tok TEOF ""].

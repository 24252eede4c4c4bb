(** Model of circuitcompiler/parser.go (70-869) on token lists; tokens come from LexerModel.
    The parser has no error handler (newParser, 60-64), so p.error panics: [None].
    A nil slice and an empty slice are both [[]]: wherever the code tests for nil the slice is
    nil exactly when it is empty.
    Constraints sent over the channel are collected in a list.  Files are a function from names to
    tokens. *)
Require Import ZArith Bool Ascii String List.
Require Import Verif.SparseModel Verif.FactorModel Verif.LexerModel.
Import ListNotations.
Local Open Scope string_scope.
Local Open Scope list_scope.

(** parser.go:830-833 *)
Inductive ctree : Type := Con (output : token) (inputs : list ctree).
Definition output (c : ctree) : token := match c with Con o _ => o end.
Definition inputs (c : ctree) : list ctree := match c with Con _ i => i end.

Definition text_is (s : string) (t : token) : bool := String.eqb (ident t) s.
Definition break : string := String newline "".
(** lexer.go:92: Type & Operator != 0 *)
Definition is_operator (t : token) : bool :=
  match ttyp t with TCompare | TArith | TBoolOp | TBitOp | TAssign => true | _ => false end.

(** parser.go:594-600 *)
Definition combine_string (ts : list token) : string := String.concat "" (map ident ts).

(** parser.go:583-592 *)
Fixpoint remove_leading_breaks (ts : list token) : list token :=
  match ts with
  | [] => []
  | t :: ts' => if text_is break t then remove_leading_breaks ts' else ts
  end.
(** parser.go:570-578: after one trailing break it is leading ones that are removed. *)
Definition remove_trailing_breaks (ts : list token) : list token :=
  match rev ts with
  | [] => []
  | t :: r => if text_is break t then remove_leading_breaks (rev r) else ts
  end.
(** parser.go:579-581 *)
Definition remove_breaks (ts : list token) : list token := remove_leading_breaks (remove_trailing_breaks ts).

(** parser.go:685-692 *)
Fixpoint split_at_string (s : string) (ts : list token) : list token * list token :=
  match ts with
  | [] => ([], [])
  | t :: ts' => if text_is s t then ([], ts)
                else let (l, r) := split_at_string s ts' in (t :: l, r)
  end.

(** parser.go:695-715 *)
Fixpoint split_top_string (s : string) (depth : Z) (ts : list token) : list token * list token :=
  match ts with
  | [] => ([], [])
  | t :: ts' =>
      let depth := if text_is "(" t || text_is "[" t then (depth + 1)%Z else depth in
      let depth := if text_is ")" t || text_is "]" t then (depth - 1)%Z else depth in
      if text_is s t && (depth =? 0)%Z then ([], ts')
      else let (l, r) := split_top_string s depth ts' in (t :: l, r)
  end.

(** parser.go:718-743 with splitAt = Operator; (nil, Token{}, nil) is [None]. *)
Fixpoint split_top_operator (ctr1 ctr2 : Z) (ts : list token) : option (list token * token * list token) :=
  match ts with
  | [] => None
  | t :: ts' =>
      let ctr1 := if text_is "(" t then (ctr1 + 1)%Z else ctr1 in
      let ctr2 := if text_is "[" t then (ctr2 + 1)%Z else ctr2 in
      let ctr1 := if text_is ")" t then (ctr1 - 1)%Z else ctr1 in
      let ctr2 := if text_is "]" t then (ctr2 - 1)%Z else ctr2 in
      if is_operator t && (ctr1 =? 0)%Z && (ctr2 =? 0)%Z then Some ([], t, ts')
      else match split_top_operator ctr1 ctr2 ts' with
           | Some (l, o, r) => Some (t :: l, o, r)
           | None => None
           end
  end.

(** parser.go:801-815: the loop; the left part still has what precedes [start]. *)
Fixpoint closing_loop (op cl : string) (ctr : Z) (ts : list token) : option (list token * list token) :=
  match ts with
  | [] => None
  | t :: ts' =>
      let ctr := if text_is op t then (ctr + 1)%Z else ctr in
      if text_is cl t then
        let ctr := (ctr - 1)%Z in
        if (ctr =? 0)%Z then Some ([], ts')
        else match closing_loop op cl ctr ts' with Some (l, r) => Some (t :: l, r) | None => None end
      else match closing_loop op cl ctr ts' with Some (l, r) => Some (t :: l, r) | None => None end
  end.
(** parser.go:793-816; outer [None]: in[0] of an empty slice panics; inner [None]: no success. *)
Definition split_at_closing (op cl : string) (ts : list token) : option (option (list token * list token)) :=
  match ts with
  | [] => None
  | t :: _ => if text_is op t
              then Some match closing_loop op cl 0 ts with Some (l, r) => Some (tl l, r) | None => None end
              else Some (closing_loop op cl 1 ts)
  end.
(** parser.go:783-791 *)
Definition split_at_closing_brackets := split_at_closing "(" ")".
Definition split_at_closing_swing := split_at_closing "{" "}".
Definition split_at_closing_square := split_at_closing "[" "]".

(** parser.go:766-775 *)
Definition is_surrounded (ts : list token) : bool :=
  match ts with
  | [] => false
  | _ => match split_at_closing_brackets ts with Some (Some (_, [])) => true | _ => false end
  end.
(** parser.go:759-764; in[1:len(in)-1] of a single token panics.  Each round drops two tokens. *)
Fixpoint strip_loop (fuel : nat) (ts : list token) : option (list token) :=
  match fuel with
  | O => Some ts
  | S n => if is_surrounded ts
           then match ts with
                | _ :: _ :: _ => strip_loop n (removelast (tl ts))
                | _ => None
                end
           else Some ts
  end.
Definition strip_of_brackets (ts : list token) : option (list token) := strip_loop (S (List.length ts)) ts.

(** parser.go:437-542 and 545-568.  parseExpression appends one child to constraint.Inputs: the
    result.  Every recursive call is on a shorter list; [fuel] is more than the length. *)
Section Parse.
Variable parse : list token -> option ctree.

(** parser.go:556-562; each round removes a separator, so the length bounds the rounds. *)
Fixpoint arguments_loop (fuel : nat) (args : list token) : option (list ctree) :=
  match fuel with
  | O => None
  | S n =>
      let (a, r) := split_top_string "," 0 args in
      match parse (remove_breaks a) with
      | None => None
      | Some c => match r with
                  | [] => Some [c]
                  | _ => match arguments_loop n r with Some cs => Some (c :: cs) | None => None end
                  end
      end
  end.
(** parser.go:545-568: children and rest. *)
Definition argument_parse (split : list token -> option (option (list token * list token))) (ts : list token)
  : option (list ctree * list token) :=
  match split ts with
  | Some (Some (input, rem)) =>
      match input with
      | [] => Some ([], rem)
      | _ => match arguments_loop (S (List.length input)) input with
             | Some cs => Some (cs, rem)
             | None => None
             end
      end
  | _ => None
  end.
(** parser.go:529-534: the indices of an array access. *)
Fixpoint indices_loop (fuel : nat) (ts : list token) : option (list ctree) :=
  match fuel with
  | O => None
  | S n =>
      match split_at_closing_square ts with
      | None => None
      | Some lr =>
          let (l, r) := match lr with Some p => p | None => ([], []) end in
          match parse l with
          | None => None
          | Some c => match r with
                      | [] => Some [c]
                      | _ => match indices_loop n r with Some cs => Some (c :: cs) | None => None end
                      end
          end
      end
  end.
End Parse.

Fixpoint parse_expr (fuel : nat) (ts : list token) : option ctree :=
  match fuel with
  | O => None
  | S n =>
      match strip_of_brackets ts with
      | None | Some [] => None
      | Some [t] =>
          match ttyp t with TNumber | TIdent => Some (Con t []) | _ => None end
      | Some ((t0 :: t1 :: _) as st) =>
          match split_top_operator 0 0 st with
          | Some (l, o, r) =>
              match strip_of_brackets l, strip_of_brackets r with
              | Some l, Some r =>
                  match parse_expr n l, parse_expr n r with
                  | Some cl, Some cr =>
                      let wrap ts c := Con (Tok TUnassigned (combine_string ts)) [c] in
                      let one ts := Nat.eqb (List.length ts) 1 in
                      let cl' := if negb (one l) && one r then wrap l cl else cl in
                      let cr' := if one l && negb (one r) then wrap r cr else cr in
                      Some (Con (Tok TUnassigned (combine_string st)) [Con o []; cl'; cr'])
                  | _, _ => None
                  end
              | _, _ => None
              end
          | None =>
              match ttyp t0 with
              | TCall =>
                  match argument_parse (parse_expr n) split_at_closing_brackets (tl st) with
                  | Some (cs, []) => Some (Con t0 cs)
                  | _ => None
                  end
              | _ =>
                  if text_is "[" t1 && text_is "]" (last st t1) then
                    match indices_loop (parse_expr n) (List.length st) (tl (tl st)) with
                    | Some cs => Some (Con (Tok TArrCall (ident t0)) cs)
                    | None => None
                    end
                  else None
              end
          end
      end
  end.
Definition parse_expression (ts : list token) : option ctree := parse_expr (S (List.length ts)) ts.

(** parser.go:623-634: the tokens after the assignment operator, if this is one. *)
Definition is_variable_assignment (ts : list token) : option (list token) :=
  match ts with
  | a :: b :: ((_ :: _) as r) => if ttype_eqb (ttyp a) TIdent && ttype_eqb (ttyp b) TAssign then Some r else None
  | _ => None
  end.
(** parser.go:602-621 *)
Definition is_array_assignment (ts : list token) : bool :=
  match ts with
  | a :: b :: c :: d :: e :: _ =>
      ttype_eqb (ttyp a) TIdent && text_is "[" b && text_is "]" c && ttype_eqb (ttyp d) TAssign && text_is "{" e
  | _ => false
  end.
(** parser.go:424-433; sizes are positive. *)
Definition index_names (k : Z) : list string := map (fun j => "[" ++ dec (Z.of_nat j) ++ "]")%string (seq 0 (Z.to_nat k)).
Fixpoint array_string_build (dims : list Z) (res : string) : list string :=
  match dims with
  | [] => [res]
  | k :: dims' => flat_map (fun s => array_string_build dims' (res ++ s)%string) (index_names k)
  end.
(** strconv.ParseInt(s, 10, 64) of a NumberToken, and the test that it is positive (166-169). *)
Fixpoint digits_value (acc : Z) (s : string) : option Z :=
  match s with
  | EmptyString => Some acc
  | String c s' => if is_digit c then digits_value (10 * acc + Z.of_nat (nat_of_ascii c) - 48)%Z s' else None
  end.
Definition parse_dimension (c : ctree) : option Z :=
  match ttyp (output c) with
  | TNumber =>
      match digits_value 0 (ident (output c)) with
      | Some v => if (0 <? v)%Z && (v <? 2 ^ 63)%Z then Some v else None
      | None => None
      end
  | _ => None
  end.
Fixpoint all_some {A} (l : list (option A)) : option (list A) :=
  match l with
  | [] => Some []
  | Some a :: l' => match all_some l' with Some r => Some (a :: r) | None => None end
  | None :: _ => None
  end.
(** parser.go:157-188: the arguments of a function header. *)
Definition header_argument (v : ctree) : option (list ctree) :=
  match ttyp (output v) with
  | TArrCall =>
      match all_some (map parse_dimension (inputs v)) with
      | Some dims => Some (map (fun post => Con (Tok TArgument (ident (output v) ++ post)%string) []) (array_string_build dims ""))
      | None => None
      end
  | TIdent => Some [Con (Tok TArgument (ident (output v))) (inputs v)]
  | _ => None
  end.
Definition header_arguments (vs : list ctree) : option (list ctree) :=
  match all_some (map header_argument vs) with Some l => Some (concat l) | None => None end.

Definition marker (t : ttype) : ctree := Con (Tok t "") [].
Definition bind {A B} (x : option A) (f : A -> option B) : option B := match x with Some a => f a | None => None end.
Definition guard (b : bool) : option unit := if b then Some tt else None.
Notation "'do' x <- e ; k" := (bind e (fun x => k)) (at level 200, x pattern, e at level 100, k at level 200).

(** The constraints sent before, and after, those of a nested call; [done] (parser.go:107-110). *)
Definition sent := (list ctree * bool)%type.
Definition before (cs : list ctree) (s : sent) : sent := (cs ++ fst s, snd s).
(** Two calls one after the other. *)
Definition after (a b : sent) : sent := (fst a ++ fst b, snd a || snd b).

(** r != nil && r[0].Identifier != "\n" is an error (323-325, 343-345, 411-413) *)
Definition break_follows (r : list token) : bool := match r with [] => true | t :: _ => text_is break t end.

Section Statement.
(** Recursive calls; all but the one of import are on shorter lists. *)
Variable go : list token -> option sent.
(** What newParser and stackAllTokens make of the contents of a file (134-138); [None] if it cannot be
    read. *)
Variable file : string -> option (list token).

(** parser.go:289-299 and 327-337: left = expression. *)
Definition overload (l : list token) : option ctree :=
  let (lhs, e) := split_at_string "=" l in
  match e with
  | [] => None
  | _ :: e' =>
      do a <- parse_expression lhs;
      do b <- parse_expression e';
      Some (Con (Tok TOverload "") [a; b])
  end.

(** parser.go:214-227: one arm of an if-else chain; constraints and rest. *)
Definition if_arm (skip : nat) (parse_it : bool) (typ : ttype) (rest : list token) : option (sent * list token) :=
  let (condition, rest) := split_at_string "{" rest in
  do c <- (if parse_it then
             (if Nat.ltb (List.length condition) skip then None
              else do e <- parse_expression (skipn skip condition); Some (Con (Tok typ "") [e]))
           else Some (marker typ));
  match split_at_closing_swing rest with
  | Some (Some (body, rest')) =>
      do s <- go body;
      Some (([c] ++ fst s ++ [marker TNestedEnd], snd s), rest')
  | _ => None
  end.
(** parser.go:231-235: the else-if arms.  rest[0] of an empty slice, and rest[1] of a single else,
    panic.  Each round shortens rest. *)
Fixpoint else_ifs (fuel : nat) (rest : list token) : option (sent * bool * list token) :=
  match fuel with
  | O => None
  | S n =>
      match rest with
      | [] => None
      | a :: r =>
          if ttype_eqb (ttyp a) TElse then
            match r with
            | [] => None
            | b :: _ =>
                if ttype_eqb (ttyp b) TIf then
                  do (s, rest') <- if_arm 2 true TElse rest;
                  do (s', _, rest'') <- else_ifs n rest';
                  Some (after s s', true, rest'')
                else Some (([], false), false, rest)
            end
          else Some (([], false), false, rest)
      end
  end.

(** parser.go:112-421, on tokens without surrounding breaks. *)
Definition statement (ts : list token) : option sent :=
  match ts with
  | [] => Some ([], false)
  | t0 :: r0 =>
      match ttyp t0 with
      | TEOF => Some ([], true)                                                  (* 107-110 *)
      | TPublic =>                                                               (* 113-127 *)
          match r0 with
          | b :: r1 =>
              do _ <- guard (text_is "{" b);
              do (cs, rest) <- argument_parse parse_expression split_at_closing_swing r1;
              do s <- go rest;
              Some (before (map (fun c => Con (Tok TPublic (ident (output c))) (inputs c)) cs) s)
          | [] => None
          end
      | TImport =>                                                               (* 128-140 *)
          match r0 with
          | name :: rest =>
              do _ <- guard (ttype_eqb (ttyp name) TIdent);
              do toks <- file (ident name);
              go (removelast toks ++ rest)
          | [] => None
          end
      | TFuncDef =>                                                              (* 141-207 *)
          match r0 with
          | name :: b :: r1 =>
              do _ <- guard (text_is "(" b);
              do (cs, rest) <- argument_parse parse_expression split_at_closing_brackets r1;
              do args <- header_arguments cs;
              match rest with
              | b' :: r2 =>
                  do _ <- guard (text_is "{" b');
                  match split_at_closing_swing r2 with
                  | Some (Some (l, r)) =>
                      do sl <- go l;
                      do sr <- go r;
                      Some (before [Con (Tok TFuncDef (ident name)) args] (after sl (before [marker TNestedEnd] sr)))
                  | _ => None
                  end
              | [] => None
              end
          | _ => None
          end
      | TIf =>                                                                   (* 208-247 *)
          do (s1, rest) <- if_arm 1 true TIf ts;
          do (s2, has, rest) <- else_ifs (S (List.length rest)) rest;
          match rest with
          | [] => None
          | a :: _ =>
              let is_else := ttype_eqb (ttyp a) TElse in
              do _ <- guard (negb (negb is_else && has));
              do (s3, rest) <- (if is_else then if_arm 1 false TElse rest else Some (([], false), rest));
              do s <- go rest;
              Some (after s1 (after s2 (after s3 (before [marker TIfEnd] s))))
          end
      | TFor =>                                                                  (* 248-320 *)
          match r0 with
          | b :: r1 =>
              do _ <- guard (text_is "(" b);
              let (l, r) := split_at_string ";" r1 in
              match r with
              | [] => None
              | _ :: r =>
                  do cond <- parse_expression l;
                  match split_at_closing_brackets r with
                  | Some (Some (l, r)) =>
                      do _ <- is_variable_assignment l;
                      do v <- overload l;
                      match remove_leading_breaks r with
                      | b' :: r' =>
                          do _ <- guard (text_is "{" b');
                          match split_at_closing_swing r' with
                          | Some (Some (l, r)) =>
                              do sl <- go l;
                              do sr <- go r;
                              Some (before [Con (Tok TFor "") [cond; v]] (after sl (before [marker TNestedEnd] sr)))
                          | _ => None
                          end
                      | [] => None
                      end
                  | _ => None
                  end
              end
          | [] => None
          end
      | TIdent =>                                                                (* 321-340 *)
          let (l, r) := split_at_string break ts in
          do v <- overload l;
          do s <- go r;
          Some (before [v] s)
      | TVarDecl =>                                                              (* 341-385 *)
          let (l, r) := split_at_string break ts in
          match is_variable_assignment r0 with
          | Some rem =>
              match rem with
              | f :: rem' =>
                  if ttype_eqb (ttyp f) TFuncDef then
                    match r0 with name :: _ => go (f :: name :: rem') | [] => None end
                  else if Nat.ltb (List.length l) 3 then None
                  else
                    do e <- parse_expression (skipn 3 l);
                    do s <- go r;
                    Some (before [Con (Tok TVarDecl (ident (nth 1 l t0))) [e]] s)
              | [] => None
              end
          | None =>
              if is_array_assignment (tl l) then
                do (cs, rest) <- argument_parse parse_expression split_at_closing_swing (skipn 5 l);
                do _ <- guard (match rest with [] => true | _ => false end);
                do s <- go r;
                Some (before [Con (Tok TArrDecl (ident (nth 1 l t0))) cs] s)
              else Some ([], false)        (* 386: nothing more is read *)
          end
      | TReturn =>                                                               (* 387-403 *)
          let (l, r) := split_at_string break ts in
          do cs <- (if Nat.ltb 1 (List.length l) then do e <- parse_expression (tl l); Some [e] else Some []);
          do _ <- guard (match remove_breaks r with [] => true | _ => false end);
          Some ([Con (Tok TReturn "") cs], false)
      | TCall =>                                                                 (* 404-417 *)
          do (cs, r) <- argument_parse parse_expression split_at_closing_brackets r0;
          do _ <- guard (break_follows r);
          do s <- go r;
          Some (before [Con t0 cs] s)
      | _ => None                                                                (* 419-420 *)
      end
  end.
End Statement.

(** parser.go:100-422.  A file that imports itself is read for ever: [None] for all [fuel]. *)
Fixpoint statement_in (file : string -> option (list token)) (fuel : nat) (ts : list token) : option sent :=
  match fuel with
  | O => None
  | S n => statement (statement_in file n) file (remove_breaks ts)
  end.
(** parser.go:71-98: tokens to the constraints, in order.  Without an EOF token at the end of the
    chain the parser goroutine returns and Parse waits for ever: inner [None].  No file can be read
    here; see [parse_files] for the others. *)
Definition parse_tokens (ts : list token) : option (option (list ctree)) :=
  match statement_in (fun _ => None) (S (List.length ts)) ts with
  | None => None
  | Some (cs, done) => Some (if done then Some cs else None)
  end.
(** The tokens of a file (parser.go:133-138), [n] steps of the lexer allowed. *)
Definition load (files : string -> option string) (n : nat) (name : string) : option (list token) :=
  match files name with
  | Some text => match lex n text with SparseModel.Ret ts => Some (stack_all_tokens ts) | _ => None end
  | None => None
  end.
(** parser.go:71-98 with the files there are.  [None]: a panic, or not done in [n] steps. *)
Definition parse_files (files : string -> option string) (n : nat) (text : string) : option (list ctree) :=
  match lex n text with
  | SparseModel.Ret ts =>
      match statement_in (load files n) n (stack_all_tokens ts) with
      | Some (cs, true) => Some cs
      | _ => None
      end
  | _ => None
  end.

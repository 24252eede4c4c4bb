(** C39-C40: the lexer. *)
Require Import Bool Ascii String List Lia.
Require Import Verif.FactorModel Verif.SparseModel Verif.LexerModel Verif.LexerSpec Verif.LexerProofs.
Import ListNotations.
Local Open Scope string_scope.
Local Open Scope list_scope.

(** * C39: exactly the tokens of the text *)
Theorem C39_tokens : forall src ts, (exists n, lex n src = Ret ts) <-> tokens_of (chars src) ts.
Proof.
  intros src ts. split.
  - intros [n E]. destruct (lex_dichotomy (chars src)) as [[ts' T]|[_ L]].
    + assert (K := lex_complete _ _ T []). cbn [app] in K.
      replace ts with ts'; [easy|]. eapply ends_unique; [exact K|]. now exists n.
    + specialize (L [] n). unfold lex in E. unfold start, chars in *. congruence.
  - intros T. exact (lex_complete _ _ T []).
Qed.
Print Assumptions C39_tokens.
Theorem C39_terminates : forall src, readable (chars src) <-> exists n ts, lex n src = Ret ts.
Proof.
  intros src. rewrite readable_iff. split; intros H.
  - destruct H as [ts T]. apply C39_tokens in T. destruct T as [n E]. now exists n, ts.
  - destruct H as [n [ts E]]. exists ts. apply C39_tokens. now exists n.
Qed.
Print Assumptions C39_terminates.
Theorem C39_lossless : forall src ts n, lex n src = Ret ts -> exists gaps,
  List.length gaps = S (List.length ts) /\ Forall (Forall (fun c => blank c \/ c = dq)) gaps /\ weave gaps ts = chars src.
Proof. intros src ts n E. apply tokens_weave, C39_tokens. now exists n. Qed.
Print Assumptions C39_lossless.
(** More rounds change nothing, and no source makes the lexer panic. *)
Theorem C39_no_panic : forall src n, lex n src <> Panic.
Proof.
  intros src n E. destruct (lex_dichotomy (chars src)) as [[ts T]|[_ L]].
  - destruct (lex_complete _ _ T []) as [m K]. unfold lex, start, chars in *.
    assert (P : forall n s l k, run n s l = Panic -> run (n + k) s l = Panic).
    { clear. induction n as [|n IH]; intros s l k H; [discriminate|]. cbn [run Nat.add] in *.
      destruct (step s l) as [[[s'|] l']| |]; auto; discriminate. }
    apply P with (k := m) in E. apply run_ret_more with (k := n) in K. rewrite PeanoNat.Nat.add_comm in K. congruence.
  - specialize (L [] n). unfold lex, start, chars in *. congruence.
Qed.
Print Assumptions C39_no_panic.

Definition sample : string :=
  "func main(x,y) { #doubled" ++ String nl "" ++ "var a2=x*12" ++ String nl "" ++ "return f(a2) >= y}".
Definition sample_tokens : list token :=
  [Tok TFuncDef "func"; Tok TCall "main"; Tok TSyntax "("; Tok TIdent "x"; Tok TSyntax ","; Tok TIdent "y"; Tok TSyntax ")";
   Tok TSyntax "{"; Tok TComment "#doubled"; Tok TSyntax (String nl ""); Tok TVarDecl "var"; Tok TIdent "a2"; Tok TAssign "=";
   Tok TIdent "x"; Tok TArith "*"; Tok TNumber "12"; Tok TSyntax (String nl ""); Tok TReturn "return"; Tok TCall "f";
   Tok TSyntax "("; Tok TIdent "a2"; Tok TSyntax ")"; Tok TCompare ">="; Tok TIdent "y"; Tok TSyntax "}"].
Example C39_case : lex 200 sample = Ret sample_tokens /\ readable (chars sample) /\ tokens_of (chars sample) sample_tokens.
Proof.
  assert (E : lex 200 sample = Ret sample_tokens) by (vm_compute; reflexivity).
  split; [exact E|]. split; [apply C39_terminates|apply C39_tokens]; eauto.
Qed.

(** A blank at the end of the text yields a token with no text at all. *)
Theorem C39_empty_token_refuted : exists src ts n, ~ In dq (chars src) /\ lex n src = Ret ts /\ In (Tok TIdent "") ts.
Proof.
  exists "return x ", [Tok TReturn "return"; Tok TIdent "x"; Tok TIdent ""], 20.
  split; [cbn; intros H; repeat destruct H as [H|H]; try discriminate; easy|]. split; [reflexivity|cbn; auto].
Qed.
Print Assumptions C39_empty_token_refuted.

(** The parser receives the tokens with one line end for each row of them, without the comments, and an EOF. *)
Lemma next_rows ts : one_per_row ts (next_tokens false ts) /\
  exists row ts', ts = row ++ ts' /\ Forall is_line_end row /\ match ts' with [] => True | u :: _ => ~ is_line_end u end /\ next_tokens true ts = next_tokens false ts' /\
    one_per_row ts' (next_tokens false ts').
Proof.
  induction ts as [|t ts [A (row & ts' & -> & B & C & D & F)]].
  - split; [constructor|]. exists [], []. repeat split; constructor.
  - cbn [next_tokens]. destruct (String.eqb_spec (ident t) (String newline "")) as [E|E].
    + split; [rewrite D; now apply row_line|]. exists (t :: row), ts'. repeat (split; [auto|]); auto.
    + assert (R : one_per_row (t :: row ++ ts') (t :: next_tokens false (row ++ ts'))) by now apply row_other.
      split; [exact R|]. exists [], (t :: row ++ ts'). cbn [next_tokens]. destruct (String.eqb_spec (ident t) (String newline "")); [easy|]. split; [reflexivity|]. split; [constructor|]. split; [exact E|]. split; [reflexivity|exact R].
Qed.
Theorem C39_lines : forall ts, exists us, one_per_row ts us /\
  stack_all_tokens ts = filter (fun t => match ttyp t with TComment => false | _ => true end) us ++ [Tok TEOF ""].
Proof.
  intros ts. exists (next_tokens false ts). split; [apply next_rows|]. unfold stack_all_tokens. f_equal. apply filter_ext. intros t. now destruct (ttyp t).
Qed.
Print Assumptions C39_lines.
Example C39_lines_case : exists ts, tokens_of (chars "a

# c

b") ts /\ List.length ts = 7 /\ stack_all_tokens ts = [Tok TIdent "a"; Tok TSyntax (String nl ""); Tok TSyntax (String nl ""); Tok TIdent "b"; Tok TEOF ""].
Proof.
  assert (E : lex 100 "a

# c

b" = Ret [Tok TIdent "a"; Tok TSyntax (String nl ""); Tok TSyntax (String nl ""); Tok TComment "# c"; Tok TSyntax (String nl ""); Tok TSyntax (String nl ""); Tok TIdent "b"]) by (vm_compute; reflexivity).
  eexists. split; [apply C39_tokens; exists 100; exact E|]. split; vm_compute; reflexivity.
Qed.

(** * C40: divergence *)
Theorem C40_loops : forall src, ~ readable (chars src) -> forall n, lex n src = Running.
Proof.
  intros src R n. destruct (lex_dichotomy (chars src)) as [H|[_ L]].
  - apply readable_iff in H. tauto.
  - apply L.
Qed.
Print Assumptions C40_loops.
(** A character that begins nothing: empty identifiers for ever. *)
Theorem C40_floods : forall c r,
  ~ (blank c \/ word_char c \/ punctuation c \/ In c (chars "=-+*/<>#&|!") \/ c = dq) ->
  forall n, emitted (S (n + n)) Probably (start (c :: r)) = repeat (Tok TIdent "") n.
Proof.
  intros c r N n.
  assert (B : contains_rune blanks (Some c) = false) by (apply (bool_iff_false _ _ (is_blank_ok c)); tauto).
  assert (W : is_word c = false) by (apply (bool_iff_false _ _ (is_word_ok c)); tauto).
  assert (P : plain c).
  { split; [|split].
    - apply (bool_iff_false _ _ (is_digit_ok c)). unfold word_char in N. tauto.
    - apply (bool_iff_false _ _ (is_punct_ok c)). tauto.
    - apply Ascii.eqb_neq. intros E. apply N. now repeat right. }
  assert (O : forall d, operation_map (String.append (String c "") d) = None).
  { intros d. apply (map_none _ _ operators_ok). intros t H. apply N. do 3 right. left.
    cbn [String.append operators In] in H.
    repeat destruct H as [H|H]; try contradiction; injection H as <- _ _; cbn; tauto. }
  assert (H : Ascii.eqb c "#" = false) by (apply Ascii.eqb_neq; intros ->; apply N; do 3 right; left; cbn; tauto).
  destruct (stuck_loops c r P B (O _) (O "") H W []) as [_ [_ E]]. cbn [app] in E.
  cbn [emitted]. change (step Probably (start (c :: r))) with (step Probably (Lex [] (c :: r) [] [])).
  rewrite probably_blanks by easy. cbn [left]. rewrite B. apply E.
Qed.
Print Assumptions C40_floods.
Lemma unreadable c s : scan Code (chars (String c s)) = false -> ~ readable (chars (String c s)).
Proof. intros E R. apply readable_scan in R. congruence. Qed.
Example C40_case : ~ readable (chars "a $ b") /\ ~ readable (chars ("import " ++ dquote ++ "std")) /\ ~ readable (chars "a & b") /\
  ~ (blank "$" \/ word_char "$" \/ punctuation "$" \/ In "$"%char (chars "=-+*/<>#&|!") \/ "$"%char = dq).
Proof.
  repeat split; try (apply unreadable; vm_compute; reflexivity).
  intros H. destruct H as [H|[H|[H|[H|H]]]].
  - apply is_blank_ok in H. discriminate.
  - apply is_word_ok in H. discriminate.
  - apply is_punct_ok in H. discriminate.
  - apply mem_in in H. discriminate.
  - discriminate.
Qed.

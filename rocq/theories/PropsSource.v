(** Properties of the front end as a whole: program text in, constraints and gates out. *)
Require Import ZArith Znumtheory Lia Bool Ascii String List Permutation.
Require Import Verif.Cong Verif.SparseModel Verif.FqModel Verif.FactorModel Verif.FactorSpec Verif.FactorProofs Verif.PropsFactor Verif.ExprModel Verif.ExprSpec Verif.ExprProofs Verif.PropsExpr
  Verif.LexerModel Verif.LexerSpec Verif.LexerProofs Verif.PropsLexer Verif.ParserModel Verif.SourceSpec Verif.SourceProofs Verif.WriteSpec Verif.WriteProofs
  Verif.CircuitModel Verif.LangSpec Verif.PropsLang Verif.PropsProgram.
Import ListNotations.
Local Open Scope string_scope.
Local Open Scope list_scope.
Local Open Scope nat_scope.

(** The constraints the parser makes of a text. *)
Definition constraints (text : string) (cs : list ctree) : Prop :=
  exists n0 ts, (forall n, lex (n0 + n) text = SparseModel.Ret ts) /\ parse_tokens (stack_all_tokens ts) = Some (Some cs).
Lemma constraints_compile text cs sort hash q : constraints text cs ->
  exists n0, forall n, n0 <= n -> compile_text sort hash q n text = (p <- build sort hash q n cs ;; run_program sort hash q n p).
Proof.
  intros (n0 & ts & L & P). exists n0. intros n Hn. unfold compile_text. replace n with (n0 + (n - n0)) at 1 by lia. rewrite L, P. reflexivity.
Qed.
Lemma compiled_constraints text cs sort hash q n r st : constraints text cs -> compile_text sort hash q n text = Done (r, st) ->
  exists p, build sort hash q n cs = Done p /\ run_program sort hash q n p = Done (r, st).
Proof.
  intros (n0 & ts & L & P). unfold compile_text. destruct (lex n text) as [ts'| |] eqn:E; try discriminate.
  assert (ts' = ts). { unfold lex in E. apply run_ret_more with (k := n0) in E. specialize (L n). unfold lex in L. rewrite PeanoNat.Nat.add_comm in L. rewrite E in L. now injection L. }
  subst ts'. rewrite P. destruct (build sort hash q n cs) as [p| | |]; try discriminate. cbn. eauto.
Qed.

(** ** C83.  A text of the grammar is read as the program it is. *)
Theorem C83_read : forall text fs, is_program text fs -> exists cs, constraints text cs /\ enc_prog fs cs.
Proof. intros text fs H. destruct (text_read _ _ H) as (n0 & ts & cs & L & P & En). exists cs. split; auto. now exists n0, ts. Qed.
Print Assumptions C83_read.
(** A text is at most one program. *)
Theorem C83_unambiguous : forall text fs fs', is_program text fs -> is_program text fs' -> fs = fs'.
Proof. exact program_unique. Qed.
Print Assumptions C83_unambiguous.
(** From the text to the gates and back. *)
Theorem C83_sound : forall sort hash q gx text fs n r st w v asked, (forall l, Permutation (sort l) l) -> prime q ->
  is_program text fs -> prog_ok fs -> compile_text sort hash q n text = Done (r, st) ->
  no_collision (strace st) -> Forall distinct_names (sstored st) -> all_hold q gx w (gates (scoll st)) -> program_means q gx fs w v asked ->
  match v with Some u => lin w (strip (rvals r)) ==[q] num_of u | None => strip (rvals r) = [] end /\
  Forall (fun e => fst e ==[q] snd e) asked.
Proof.
  intros sort hash q gx text fs n r st w v asked Hs Hq P Pk C NC Dn HA M. destruct (C83_read _ _ P) as (cs & Cs & En).
  destruct (compiled_constraints _ _ _ _ _ _ _ _ Cs C) as (p & Eb & Er). exact (C74_sound sort hash q gx fs cs n n p r st w v asked Hs Hq Pk En Eb Er NC Dn HA M).
Qed.
Print Assumptions C83_sound.
Theorem C83_complete : forall sort hash q gx text fs n r st w v asked, (forall l, Permutation (sort l) l) -> prime q ->
  is_program text fs -> prog_ok fs -> compile_text sort hash q n text = Done (r, st) ->
  no_collision (strace st) -> Forall distinct_names (sstored st) -> program_means q gx fs w v asked -> Forall (fun e => fst e ==[q] snd e) asked ->
  exists w', (forall x, name_ok x -> w' x = w x) /\ all_hold q gx w' (gates (scoll st)) /\
    match v with Some u => lin w' (strip (rvals r)) ==[q] num_of u | None => strip (rvals r) = [] end.
Proof.
  intros sort hash q gx text fs n r st w v asked Hs Hq P Pk C NC Dn M A. destruct (C83_read _ _ P) as (cs & Cs & En).
  destruct (compiled_constraints _ _ _ _ _ _ _ _ Cs C) as (p & Eb & Er). exact (C75_complete sort hash q gx fs cs n n p r st w v asked Hs Hq Pk En Eb Er NC Dn M A).
Qed.
Print Assumptions C83_complete.
(** What C81 and C82 ask of a program. *)
Theorem C83_compiles : forall sort hash q text fs ins body n r st, is_program text fs -> prog_ok fs -> find_at "main" fs = Some (Fun ins body) ->
  compile_text sort hash q n text = Done (r, st) -> no_collision (strace st) -> Forall distinct_names (sstored st) ->
  exists p, compiles sort hash q fs ins p r st.
Proof.
  intros sort hash q text fs ins body n r st P Pk Em C NC Dn. destruct (C83_read _ _ P) as (cs & Cs & En).
  destruct (compiled_constraints _ _ _ _ _ _ _ _ Cs C) as (p & Eb & Er). exists p. split; auto. split; [eauto|]. split; auto. exists cs, n, n. auto.
Qed.
Print Assumptions C83_compiles.
(** A block that ends with an if is not read: the parser indexes an empty slice.  (Nothing after the closing
    bracket, or one end of line.) *)
Theorem C83_if_last : forall fl n ts c body bs k, g_cond ts c -> g_block body bs -> k <= 1 ->
  statement_in fl n (Tok TIf "if" :: ts ++ sign "{" :: body ++ sign "}" :: repeat line k) = None.
Proof. exact if_last. Qed.
Print Assumptions C83_if_last.

(** So the first of these texts does not compile; the second, with one line more, is a program. *)
Definition C83_bad := "
func main(x,y){
	if 1==1 {
		equal(x,y)
	}
}
".
Definition C83_text := "# comment
func main(x,y){

	public{x,y}
	if (1==1) {   # always
		equal(x,y)
	}
	# 1 - (y*y + 2) is 1 - (y * (y + 2))
	f( 1-(y*y+2) ,x)

	return f(x, g())*scalarBaseMultiply(3)
}
func f(a,b){
	for( a<4 ; a=a+1) 
	{  b = 2*b }
	return b
}
func g(){ return 007
}
".
Definition C83_defs : defs :=
  [("main", Fun ["x"; "y"]
     [Public "x"; Public "y";
      If (Cmp "==" (Num "1") (Num "1")) [Equal (Var "x") (Var "y")];
      Do "f" [Bin "-" (Num "1") (Bin "*" (Var "y") (Bin "+" (Var "y") (Num "2"))); Var "x"];
      Return (Bin "*" (Call "f" [Var "x"; Call "g" []]) (Base (Num "3")))]);
   ("f", Fun ["a"; "b"]
     [For (Cmp "<" (Var "a") (Num "4")) "a" (Bin "+" (Var "a") (Num "1")) [Assign "b" (Bin "*" (Num "2") (Var "b"))];
      Return (Var "b")]);
   ("g", Fun [] [Return (Num "007")])].
Lemma word_test s : forallb is_word (chars s) = true -> s <> "" -> word s.
Proof. intros H N. split; auto. apply Forall_forall. intros c Hc. apply is_word_ok. rewrite forallb_forall in H. auto. Qed.
Ltac wd := apply word_test; [reflexivity|discriminate].
Lemma lexed n text ts : lex n text = SparseModel.Ret ts -> tokens_of (chars text) ts.
Proof. intros H. apply C39_tokens. now exists n. Qed.
Definition tokens_in (text : string) : list token := match lex 1000 text with SparseModel.Ret ts => ts | _ => [] end.
Definition C83_bad_tokens : list token := Eval vm_compute in tokens_in C83_bad.
Lemma C83_bad_lex : lex 1000 C83_bad = SparseModel.Ret C83_bad_tokens.
Proof. vm_compute. reflexivity. Qed.
Lemma C83_bad_parse : parse_tokens (stack_all_tokens C83_bad_tokens) = None.
Proof. vm_compute. reflexivity. Qed.
Lemma lex_more n k text ts : lex n text = SparseModel.Ret ts -> n <= k -> lex k text = SparseModel.Ret ts.
Proof. intros L H. replace k with (n + (k - n)) by lia. unfold lex in *. now apply run_ret_more. Qed.
Theorem C83_if_last_refuted : exists text, text = C83_bad /\ readable (chars text) /\
  forall sort hash q, exists n0, forall n, n0 <= n -> compile_text sort hash q n text = Panic.
Proof.
  exists C83_bad. split; [reflexivity|]. split; [apply C39_terminates; exists 1000, C83_bad_tokens; exact C83_bad_lex|].
  intros sort hash q. exists 1000. intros n Hn. unfold compile_text. rewrite (lex_more 1000 n C83_bad C83_bad_tokens C83_bad_lex Hn). rewrite C83_bad_parse. reflexivity.
Qed.
Print Assumptions C83_if_last_refuted.
Definition C83_tokens : list token := Eval vm_compute in tokens_in C83_text.
Lemma C83_lex : lex 1000 C83_text = SparseModel.Ret C83_tokens.
Proof. vm_compute. reflexivity. Qed.
Ltac first_of k L := eval cbn [firstn] in (firstn k L).
Ltac rest_of k L := eval cbn [skipn] in (skipn k L).
Ltac cut k := match goal with |- ?g ?L ?b => let a := first_of k L in let r := rest_of k L in change (g (a ++ r) b) end.
Ltac cut1 k := match goal with |- ?g (?t :: ?L) ?b => let a := first_of k L in let r := rest_of k L in change (g (t :: a ++ r) b) end.
Ltac cut2 k := match goal with |- ?g (?t :: ?u :: ?L) ?b => let a := first_of k L in let r := rest_of k L in change (g (t :: u :: a ++ r) b) end.
Ltac leaf := apply g_last; first [apply g_num; wd | apply g_var; wd].
Ltac oper := first [apply g_num; wd | apply g_var; wd].
Ltac link := cut 1; apply g_link; [oper|cbn; tauto|].
Ltac fn k ps := match goal with |- g_prog (?a :: ?b :: ?c :: ?L) ?fs => let L2 := rest_of k L in let s := eval vm_compute in (split_at_closing_swing L2) in
  match s with Some (Some (?body, ?rest)) => change (g_prog (a :: b :: sign "(" :: listed ps ++ sign ")" :: sign "{" :: body ++ sign "}" :: rest) fs) end end;
  apply g_func; [wd|apply listed_params; repeat (constructor; [wd|]); constructor| |].
Ltac args := match goal with |- g_block (?a :: ?b :: ?L) ?fs => let s := eval vm_compute in (split_at_closing_brackets L) in
  match s with Some (Some (?l, ?rest)) => change (g_block (a :: sign "(" :: l ++ sign ")" :: rest) fs) end end.
Example C83_case : is_program C83_text C83_defs.
Proof.
  exists C83_tokens. split; [apply (lexed 1000); exact C83_lex|].
  match goal with |- g_prog ?l _ => let l' := eval vm_compute in l in change (g_prog l' C83_defs) end. unfold C83_defs.
  apply g_prog_line.
  fn 5 ["x"; "y"].
  { do 2 apply g_line.
    match goal with |- g_block (?a :: ?b :: ?x :: ?c :: ?y :: ?d :: ?L) (?p :: ?q :: ?bs) => change (g_block (a :: sign "{" :: listed ["x"; "y"] ++ sign "}" :: L) (map Public ["x"; "y"] ++ bs)) end.
    apply g_public; [repeat (constructor; [wd|]); constructor|]. apply g_line.
    match goal with |- g_block (?a :: ?L) ?bs => let l := first_of 5 L in let L2 := rest_of 6 L in let s := eval vm_compute in (split_at_closing_swing L2) in
      match s with Some (Some (?body, ?rest)) => change (g_block (a :: l ++ sign "{" :: body ++ sign "}" :: rest) bs) end end.
    apply g_if; [| | |discriminate].
    - apply (g_cond_paren [_; _; _]). cut 1. apply g_cmp; [oper|cbn; tauto|leaf].
    - apply g_line. args. apply g_equal; [|apply g_line, g_empty|reflexivity]. cut 1. apply g_more; [leaf|apply g_one; leaf|discriminate].
    - do 2 apply g_line. args. apply g_do; [wd|discriminate| | |reflexivity].
      + cut 9. apply g_more; [|apply g_one; leaf|discriminate]. link. apply g_last. apply (g_paren [_; _; _; _; _]). link. link. leaf.
      + do 2 apply g_line. cut1 13. apply (g_return [_; _; _; _; _; _; _; _; _; _; _; _; _] _ 1). cut 8. apply g_link; [|cbn; tauto|].
        * apply (g_call "f" [_; _; _; _; _]); [wd|discriminate|]. cut 1. apply g_more; [leaf| |discriminate]. apply g_one, g_last. apply (g_call "g" []); [wd|discriminate|constructor].
        * apply g_last. apply (g_base [_]). leaf. }
  apply g_prog_line. fn 5 ["a"; "b"].
  { apply g_line.
    match goal with |- g_block (?a :: ?b :: ?L) ?bs => let c := first_of 3 L in let L1 := rest_of 6 L in let e := first_of 3 L1 in let L2 := rest_of 6 L1 in let s := eval vm_compute in (split_at_closing_swing L2) in
      match s with Some (Some (?body, ?rest)) => change (g_block (a :: sign "(" :: c ++ sign ";" :: Tok TIdent "a" :: Tok TAssign "=" :: e ++ sign ")" :: repeat line 1 ++ sign "{" :: body ++ sign "}" :: rest) bs) end end.
    apply g_for; [|wd| | |].
    - cut 1. apply g_cmp; [oper|cbn; tauto|leaf].
    - link. leaf.
    - cut2 3. apply g_assign; [wd| |constructor|exact I]. link. leaf.
    - apply g_line. apply (g_return [_] _ 1). leaf. }
  apply g_prog_line. fn 2 (@nil string).
  { apply (g_return [_] _ 1). leaf. }
  apply g_prog_line, g_end.
Qed.

(** An assignment with an operation, though the lexer knows its operator, is not read either. *)
Theorem C83_compound : forall fl n x o ts e rest, word x -> In o ["+="; "-="; "*="; "/="] -> g_chain ts e -> line_ends rest ->
  statement_in fl n (Tok TIdent x :: Tok TAssign o :: ts ++ rest) = None.
Proof. exact compound_fails. Qed.
Print Assumptions C83_compound.
Definition C83_plus := "
func main(x){
	x += 1
	return x
}
".
Definition C83_plus_tokens : list token := Eval vm_compute in tokens_in C83_plus.
Lemma C83_plus_lex : lex 1000 C83_plus = SparseModel.Ret C83_plus_tokens.
Proof. vm_compute. reflexivity. Qed.
Lemma C83_plus_parse : parse_tokens (stack_all_tokens C83_plus_tokens) = None.
Proof. vm_compute. reflexivity. Qed.
Theorem C83_compound_refuted : exists text, text = C83_plus /\ readable (chars text) /\
  forall sort hash q, exists n0, forall n, n0 <= n -> compile_text sort hash q n text = Panic.
Proof.
  exists C83_plus. split; [reflexivity|]. split; [apply C39_terminates; exists 1000, C83_plus_tokens; exact C83_plus_lex|].
  intros sort hash q. exists 1000. intros n Hn. unfold compile_text. rewrite (lex_more 1000 n C83_plus C83_plus_tokens C83_plus_lex Hn). rewrite C83_plus_parse. reflexivity.
Qed.
Print Assumptions C83_compound_refuted.
(** var with neither x = ... nor x[] = {... after it: nothing more is read, and Parse waits for ever. *)
Definition declares (ts : list token) : Prop :=
  exists x o e ts', ts = x :: o :: e :: ts' /\ ttyp x = TIdent /\ ttyp o = TAssign.
Definition declares_array (line : list token) : Prop :=
  exists x b c o d ts', line = x :: b :: c :: o :: d :: ts' /\ ttyp x = TIdent /\ ident b = "["%string /\ ident c = "]"%string /\ ttyp o = TAssign /\ ident d = "{"%string.
Definition on_line (ts line : list token) : Prop :=
  exists rest, ts = line ++ rest /\ Forall (fun t => ident t <> break) line /\ match rest with [] => True | t :: _ => ident t = break end.
Lemma split_at_line ts : on_line ts (fst (split_at_string break ts)).
Proof.
  induction ts as [|t ts (r & E & F & N)]; [exists []; repeat constructor|]. cbn [split_at_string]. unfold text_is. destruct (String.eqb_spec (ident t) break) as [T|T].
  - exists (t :: ts). split; [reflexivity|]. split; [constructor|exact T].
  - destruct (split_at_string break ts) as [l r'] eqn:S. cbn [fst] in *. exists r. split; [cbn; congruence|]. split; auto.
Qed.
Theorem C83_var_dropped : forall all t ts, remove_breaks all = t :: ts -> ttyp t = TVarDecl -> ident t <> break -> ~ declares ts ->
  (forall line, on_line ts line -> ~ declares_array line) -> parse_tokens all = Some None.
Proof.
  intros all t ts R T NB ND NA. unfold parse_tokens. cbn [statement_in]. rewrite R. unfold statement. rewrite T.
  assert (B : text_is break t = false) by (unfold text_is; now apply String.eqb_neq). cbn [split_at_string]. rewrite B.
  assert (L := split_at_line ts). destruct (split_at_string break ts) as [l r]. cbn [fst tl] in *.
  replace (is_variable_assignment ts) with (@None (list token)).
  2:{ symmetry. destruct ts as [|x [|o [|e ts']]]; try reflexivity. cbn [is_variable_assignment]. destruct (ttype_eqb (ttyp x) TIdent && ttype_eqb (ttyp o) TAssign) eqn:E; auto.
      exfalso. apply ND. apply andb_prop in E. destruct E as [E1 E2]. exists x, o, e, ts'. repeat split; [destruct (ttyp x)|destruct (ttyp o)]; auto; discriminate. }
  replace (is_array_assignment l) with false; [reflexivity|]. symmetry. destruct (is_array_assignment l) eqn:E; auto. exfalso. apply (NA l L).
  destruct l as [|x [|b [|c [|o [|d l']]]]]; try discriminate. cbn [is_array_assignment] in E. repeat (apply andb_prop in E; destruct E as [E ?]).
  exists x, b, c, o, d, l'. repeat split; try (now apply String.eqb_eq); [destruct (ttyp x)|destruct (ttyp o)]; auto; discriminate.
Qed.
Print Assumptions C83_var_dropped.
Definition C83_alone := "
var z
func main(x,y){
	return x*y
}
".
Definition C83_alone_tokens : list token := Eval vm_compute in tokens_in C83_alone.
Lemma C83_alone_lex : lex 1000 C83_alone = SparseModel.Ret C83_alone_tokens.
Proof. vm_compute. reflexivity. Qed.
Theorem C83_var_refuted : exists text, text = C83_alone /\ readable (chars text) /\
  forall sort hash q, exists n0, forall n, n0 <= n -> compile_text sort hash q n text = Running.
Proof.
  exists C83_alone. split; [reflexivity|]. split; [apply C39_terminates; exists 1000, C83_alone_tokens; exact C83_alone_lex|].
  intros sort hash q. exists 1000. intros n Hn. unfold compile_text. rewrite (lex_more 1000 n C83_alone C83_alone_tokens C83_alone_lex Hn).
  replace (parse_tokens (stack_all_tokens C83_alone_tokens)) with (@Some (option (list ctree)) None); [reflexivity|]. symmetry.
  match goal with |- parse_tokens ?l = _ => let l' := eval vm_compute in l in change (parse_tokens l' = Some None) end.
  eapply C83_var_dropped; [reflexivity|reflexivity|discriminate| |].
  - intros (x & o & e & ts' & E & _ & A). injection E as <- <- <- <-. discriminate.
  - intros line (rest & E & F & _) (x & b & c & o & d & ts' & -> & _ & B & _). cbn [app] in E. injection E as <- <-. discriminate.
Qed.
Print Assumptions C83_var_refuted.
(** The program of C81, which meets the hypotheses of C83_sound, C83_complete and C83_compiles. *)
Definition C81_tokens : list token := Eval vm_compute in tokens_in C81_text.
Lemma C81_lex : lex 1000 C81_text = SparseModel.Ret C81_tokens.
Proof. vm_compute. reflexivity. Qed.
Lemma C83_program : is_program C81_text C81_defs.
Proof.
  exists C81_tokens. split; [apply (lexed 1000); exact C81_lex|].
  match goal with |- g_prog ?l _ => let l' := eval vm_compute in l in change (g_prog l' C81_defs) end. unfold C81_defs.
  apply g_prog_line. fn 5 ["x"; "y"].
  { apply g_line. 
    match goal with |- g_block (?a :: ?b :: ?y :: ?d :: ?L) (?p :: ?bs) => change (g_block (a :: sign "{" :: listed ["y"] ++ sign "}" :: L) (map Public ["y"] ++ bs)) end.
    apply g_public; [repeat (constructor; [wd|]); constructor|]. apply g_line.
    match goal with |- ?g (?t :: ?u :: ?v :: ?L) ?b => let a := first_of 1 L in let r := rest_of 1 L in change (g (t :: u :: v :: a ++ r) b) end.
    apply g_decl; [wd|leaf| |reflexivity]. apply g_line.
    match goal with |- g_block (?a :: ?b :: ?L) ?bs => let c := first_of 3 L in let L1 := rest_of 6 L in let e := first_of 3 L1 in let L2 := rest_of 5 L1 in let s := eval vm_compute in (split_at_closing_swing L2) in
      match s with Some (Some (?body, ?rest)) => change (g_block (a :: sign "(" :: c ++ sign ";" :: Tok TIdent "k" :: Tok TAssign "=" :: e ++ sign ")" :: repeat line 0 ++ sign "{" :: body ++ sign "}" :: rest) bs) end end.
    apply g_for; [|wd| | |].
    - cut 1. apply g_cmp; [oper|cbn; tauto|leaf].
    - link. leaf.
    - apply g_line. cut2 6. apply g_assign; [wd| |apply g_line; constructor|reflexivity]. cut 4. apply g_link; [|cbn; tauto|leaf].
      apply (g_call "sq" [_]); [wd|discriminate|]. apply g_one. leaf.
    - apply g_line. args. apply g_equal; [| |reflexivity].
      + cut 3. apply g_more; [link; leaf|apply g_one; leaf|discriminate].
      + apply g_line. apply (g_return [_; _; _] _ 1). link. leaf. }
  apply g_prog_line. fn 3 ["a"].
  { apply g_line. apply (g_return [_; _; _] _ 1). link. leaf. }
  apply g_prog_line, g_end.
Qed.
Example C83_met : exists p r st, is_program C81_text C81_defs /\ compiles sort_factors toy_hash 101 C81_defs ["x"; "y"] p r st /\
  compile_text sort_factors toy_hash 101 1000 C81_text = Done (r, st) /\ program_means 101 (fun _ => 0%Z) C81_defs C81_w (Some (Wire 85)) [(4, 4)]%Z.
Proof.
  destruct C81_case as (p & r & st & _ & A & _ & _ & B & C & _). exists p, r, st. split; [exact C83_program|]. split; [exact A|]. split; [exact B|exact C].
Qed.

(** ** C84.  Every program that can be written down is read back. *)
Theorem C84_written : forall fs, writable fs -> is_program (write fs) fs.
Proof. exact written. Qed.
Print Assumptions C84_written.
Theorem C84_roundtrip : forall fs, writable fs -> exists cs, constraints (write fs) cs /\ enc_prog fs cs /\
  forall fs', is_program (write fs) fs' -> fs' = fs.
Proof.
  intros fs W. assert (P := written fs W). destruct (C83_read _ _ P) as (cs & C & En). exists cs. split; auto. split; auto. intros fs' P'. exact (program_unique _ _ _ P' P).
Qed.
Print Assumptions C84_roundtrip.
Theorem C84_injective : forall fs fs', writable fs -> writable fs' -> write fs = write fs' -> fs = fs'.
Proof. intros fs fs' W W' E. apply (program_unique (write fs)); [now apply written|]. rewrite E. now apply written. Qed.
Print Assumptions C84_injective.
Lemma name_test x : forallb is_word (chars x) = true -> match chars x with [] => false | c :: _ => negb (is_digit c) end = true ->
  forallb (fun k => negb (String.eqb x (fst k))) keywords = true -> a_name x.
Proof.
  intros A B C. assert (N : x <> "") by (intros ->; discriminate). split; [now apply word_test|]. split.
  - intros t I. rewrite forallb_forall in C. specialize (C _ I). cbn in C. rewrite String.eqb_refl in C. discriminate.
  - destruct (chars x) as [|c r]; [discriminate|]. intros D. apply is_digit_ok in D. rewrite D in B. discriminate.
Qed.
Ltac nmd := apply name_test; reflexivity.
Ltac nml := split; [discriminate|repeat (constructor; [cbn; tauto|]); constructor].
Ltac wr := repeat first [nmd | nml | apply w_num | apply w_var | apply w_bin; [cbn; tauto| |] | apply w_base | apply w_call; [|discriminate|] | apply w_more | apply w_none
  | apply w_return | apply w_nil | apply w_cons; [| |intros ? ? X; first [discriminate X|discriminate]] | apply w_decl | apply w_assign | apply w_equal | apply w_do; [|discriminate|] | apply w_for | apply w_if | apply w_public
  | split; [cbn; tauto|split; cbn [cleft cright]]].
Example C84_case : writable C83_defs /\ write C83_defs =
"func main (x ,y ){
public {x }
public {y }
if 1 == 1 {
equal(x ,y )
}
f(1 - y * y + 2 ,x )
return f(x ,g())* scalarBaseMultiply(3 )
}
func f (a ,b ){
for (a < 4 ;a = a + 1 ){
b = 2 * b 
}
return b 
}
func g (){
return 007 
}
".
Proof.
  split; [|vm_compute; reflexivity]. unfold C83_defs. repeat (constructor; [split; [nmd|split; [repeat (constructor; [nmd|]); constructor|cbn [snd fbody]; wr]]|]). constructor.
Qed.

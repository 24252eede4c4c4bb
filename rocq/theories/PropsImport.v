(** Properties of programs that consist of several files. *)
Require Import ZArith Znumtheory Lia Bool Ascii String List Permutation.
Require Import Verif.Cong Verif.SparseModel Verif.FqModel Verif.FactorModel Verif.FactorSpec Verif.FactorProofs Verif.PropsFactor Verif.ExprModel Verif.ExprSpec Verif.ExprProofs Verif.PropsExpr
  Verif.LexerModel Verif.LexerSpec Verif.LexerProofs Verif.PropsLexer Verif.ParserModel Verif.SourceSpec Verif.SourceProofs Verif.WriteSpec Verif.WriteProofs
  Verif.CircuitModel Verif.LangSpec Verif.PropsLang Verif.PropsProgram Verif.PropsSource Verif.PropsAccept Verif.ImportSpec Verif.ImportProofs.
Import ListNotations.
Local Open Scope string_scope.
Local Open Scope list_scope.
Local Open Scope nat_scope.

(** ** C88.  Importing a file puts its functions where the import stands. *)
Theorem C88_read : forall files text fs, is_program_in files text fs ->
  exists n0 cs, (forall n, n0 <= n -> parse_files files n text = Some cs) /\ enc_prog fs cs.
Proof. exact files_read. Qed.
Print Assumptions C88_read.
(** A program in one text is that program whatever files there are, and is compiled in the same way. *)
Theorem C88_alone : forall sort hash q files text fs, is_program text fs -> is_program_in files text fs /\
  exists n0, forall n, n0 <= n -> compile_files sort hash q files n text = compile_text sort hash q n text.
Proof.
  intros sort hash q files text fs P. split; [destruct P as (ts & T & G); exists ts; split; [exact T|apply plain_file; exact G]|].
  destruct (C83_read _ _ P) as (cs & (n0 & ts & L & Q) & _). exists (Nat.max n0 (S (List.length (stack_all_tokens ts)))). intros n Hn.
  assert (Lx : lex n text = SparseModel.Ret ts) by (replace n with (n0 + (n - n0)) by lia; apply L). unfold compile_files, compile_text, parse_files. rewrite Lx, Q.
  unfold parse_tokens in Q. destruct (statement_in (fun _ => None) (S (List.length (stack_all_tokens ts))) (stack_all_tokens ts)) as [[cs' [|]]|] eqn:E; try discriminate. injection Q as ->.
  assert (M : forall x, leads (None : option (list token)) (load files n x)) by discriminate.
  assert (X := statement_in_more (fun _ => None) (load files n) M _ (n - S (List.length (stack_all_tokens ts))) _ _ E).
  replace (S (List.length (stack_all_tokens ts)) + (n - S (List.length (stack_all_tokens ts)))) with n in X by lia. now rewrite X.
Qed.
Print Assumptions C88_alone.
Lemma compiled_files sort hash q files text fs n r st : is_program_in files text fs -> compile_files sort hash q files n text = Done (r, st) ->
  exists cs p, enc_prog fs cs /\ build sort hash q n cs = Done p /\ run_program sort hash q n p = Done (r, st).
Proof.
  intros P C. destruct (C88_read _ _ _ P) as (n0 & cs & H & En). unfold compile_files in C. destruct (parse_files files n text) as [cs'|] eqn:E; [|discriminate].
  assert (cs' = cs). { apply (parse_files_more files n n0 text) in E. rewrite H in E by lia. now injection E. }
  subst cs'. destruct (build sort hash q n cs) as [p| | |] eqn:Eb; try discriminate. exists cs, p. auto.
Qed.
(** The gates of a program in several files mean what the program means. *)
Theorem C88_sound : forall sort hash q gx files text fs n r st w v asked, (forall l, Permutation (sort l) l) -> prime q ->
  is_program_in files text fs -> prog_ok fs -> compile_files sort hash q files n text = Done (r, st) ->
  no_collision (strace st) -> Forall distinct_names (sstored st) -> all_hold q gx w (gates (scoll st)) -> program_means q gx fs w v asked ->
  match v with Some u => lin w (strip (rvals r)) ==[q] num_of u | None => strip (rvals r) = [] end /\
  Forall (fun e => fst e ==[q] snd e) asked.
Proof.
  intros sort hash q gx files text fs n r st w v asked Hs Hq P Pk C NC Dn HA M. destruct (compiled_files _ _ _ _ _ _ _ _ _ P C) as (cs & p & En & Eb & Er).
  exact (C74_sound sort hash q gx fs cs n n p r st w v asked Hs Hq Pk En Eb Er NC Dn HA M).
Qed.
Print Assumptions C88_sound.
Theorem C88_complete : forall sort hash q gx files text fs n r st w v asked, (forall l, Permutation (sort l) l) -> prime q ->
  is_program_in files text fs -> prog_ok fs -> compile_files sort hash q files n text = Done (r, st) ->
  no_collision (strace st) -> Forall distinct_names (sstored st) -> program_means q gx fs w v asked -> Forall (fun e => fst e ==[q] snd e) asked ->
  exists w', (forall x, name_ok x -> w' x = w x) /\ all_hold q gx w' (gates (scoll st)) /\
    match v with Some u => lin w' (strip (rvals r)) ==[q] num_of u | None => strip (rvals r) = [] end.
Proof.
  intros sort hash q gx files text fs n r st w v asked Hs Hq P Pk C NC Dn M A. destruct (compiled_files _ _ _ _ _ _ _ _ _ P C) as (cs & p & En & Eb & Er).
  exact (C75_complete sort hash q gx fs cs n n p r st w v asked Hs Hq Pk En Eb Er NC Dn M A).
Qed.
Print Assumptions C88_complete.
(** Well-formed programs in several files are accepted. *)
Theorem C88_accepted : forall sort hash q files text fs, is_program_in files text fs -> prog_ok fs -> publics_at_main fs ->
  exists cs n0 p, enc_prog fs cs /\ (forall n, n0 <= n -> build sort hash q n cs = Done p) /\
    forall n, n0 <= n -> compile_files sort hash q files n text = run_program sort hash q n p.
Proof.
  intros sort hash q files text fs P Ok Pm. destruct (C88_read _ _ _ P) as (n1 & cs & H & En). destruct (C85_accepted sort hash q fs cs Ok Pm En) as (n0 & p & B & _).
  exists cs, (Nat.max n0 n1), p. split; auto. split; [intros n L; apply B; lia|]. intros n L. unfold compile_files. rewrite H by lia. rewrite B by lia. reflexivity.
Qed.
Print Assumptions C88_accepted.
(** Files that begin by importing each other are read for ever: no number of steps is enough. *)
Theorem C88_cycle : forall sort hash q files (P : string -> Prop),
  (forall x, P x -> x <> String nl "" /\ forall text n ts, files x = Some text -> lex n text = SparseModel.Ret ts -> exists y, P y /\ begins (stack_all_tokens ts) y) ->
  forall n text ts x, lex n text = SparseModel.Ret ts -> P x -> begins (stack_all_tokens ts) x -> compile_files sort hash q files n text = Running.
Proof.
  intros sort hash q files P H n text ts x L Px B. unfold compile_files, parse_files. rewrite L. now rewrite (import_cycle files P H n n _ x Px B).
Qed.
Print Assumptions C88_cycle.

(** The program of C81, in two files. *)
Definition C88_main := "
func main(x,y){
	public{y}
	var k = 1
	for( k<4 ; k=k+k){
		x = sq(x) + y
	}
	equal(x*y,k)
	return x/y
}
import ""lib/square""
".
Definition C88_square := "func sq(a){ # from another file
	return a*a
}
".
Definition C88_files (x : string) : option string := if String.eqb x "lib/square" then Some C88_square else None.
Definition C88_a := "import ""b""
func f(x){
	return x
}
".
Definition C88_b := "
import ""a""
".
Definition C88_loop (x : string) : option string := if String.eqb x "a" then Some C88_a else if String.eqb x "b" then Some C88_b else None.
Definition C88_tokens : list token := Eval vm_compute in tokens_in C88_main.
Lemma C88_lex : lex 1000 C88_main = SparseModel.Ret C88_tokens.
Proof. vm_compute. reflexivity. Qed.
Definition C88_square_tokens : list token := Eval vm_compute in tokens_in C88_square.
Lemma C88_square_lex : lex 1000 C88_square = SparseModel.Ret C88_square_tokens.
Proof. vm_compute. reflexivity. Qed.
Lemma C88_square_read : g_prog (without_comments C88_square_tokens ++ [Tok TEOF ""]) [("sq", Fun ["a"] [Return (Bin "*" (Var "a") (Var "a"))])].
Proof.
  match goal with |- g_prog ?l ?fs => let l' := eval vm_compute in l in change (g_prog l' fs) end. fn 3 ["a"].
  { apply g_line. apply (g_return [_; _; _] _ 1). link. leaf. }
  apply g_prog_line, g_end.
Qed.
Lemma C88_program : is_program_in C88_files C88_main C81_defs.
Proof.
  exists C88_tokens. split; [apply (lexed 1000); exact C88_lex|].
  match goal with |- g_file _ ?l _ => let l' := eval vm_compute in l in change (g_file C88_files l' C81_defs) end.
  match goal with |- g_file _ ?l _ => let n := eval cbn in (List.length l - 4) in let a := first_of n l in let r := rest_of n l in
    change (g_file C88_files (a ++ r) (firstn 1 C81_defs ++ [("sq", Fun ["a"] [Return (Bin "*" (Var "a") (Var "a"))])])); eapply (plain_append C88_files (a ++ [Tok TEOF ""])); [|reflexivity|] end.
  - match goal with |- g_prog ?l _ => let l' := eval cbn [app] in l in change (g_prog l' (firstn 1 C81_defs)) end. unfold C81_defs. cbn [firstn].
    apply g_prog_line. fn 5 ["x"; "y"].
    { apply g_line.
      match goal with |- g_block (?a :: ?b :: ?y :: ?d :: ?L) (?p :: ?bs) => change (g_block (a :: sign "{" :: listed ["y"] ++ sign "}" :: L) (map Public ["y"] ++ bs)) end.
      apply g_public; [repeat (constructor; [wd|]); constructor|]. apply g_line.
      match goal with |- ?g (?t :: ?u :: ?v :: ?L) ?b => let a := first_of 1 L in let r := rest_of 1 L in change (g (t :: u :: v :: a ++ r) b) end.
      apply g_decl; [wd|leaf| |reflexivity]. apply g_line.
      match goal with |- g_block (?a :: ?b :: ?L) ?bs => let c := first_of 3 L in let L1 := rest_of 6 L in let e := first_of 3 L1 in let L2 := rest_of 5 L1 in let s := eval vm_compute in (split_at_closing_swing L2) in
        match s with Some (Some (?body, ?rest)) => change (g_block (a :: sign "(" :: c ++ sign ";" :: Tok TIdent "k" :: Tok TAssign "=" :: e ++ sign ")" :: repeat line 0 ++ sign "{" :: body ++ sign "}" :: rest) bs) end end.
      apply g_for; [|wd| | |].
      - cut 1. apply g_cmp; [oper|cbn; tauto|leaf].
      - link. leaf.
      - apply g_line. cut2 6. apply g_assign; [wd| |apply g_line; constructor|reflexivity]. cut 4. apply g_link; [|cbn; tauto|leaf].
        apply (g_call "sq" [_]); [wd|discriminate|]. apply g_one. leaf.
      - apply g_line. args. apply g_equal; [| |reflexivity].
        + cut 3. apply g_more; [link; leaf|apply g_one; leaf|discriminate].
        + apply g_line. apply (g_return [_; _; _] _ 1). link. leaf. }
    apply g_prog_line, g_end.
  - apply (f_import C88_files "lib/square" C88_square C88_square_tokens [("sq", Fun ["a"] [Return (Bin "*" (Var "a") (Var "a"))])] [line; Tok TEOF ""] []); [discriminate|reflexivity|apply (lexed 1000); exact C88_square_lex| |apply f_line, f_end].
    apply plain_file. exact C88_square_read.
Qed.
Example C88_case : is_program_in C88_files C88_main C81_defs /\ prog_ok C81_defs /\ publics_at_main C81_defs /\
  compile_files sort_factors toy_hash 101 C88_files 1000 C88_main = compile_text sort_factors toy_hash 101 1000 C81_text.
Proof. split; [exact C88_program|]. split; [exact C81_ok|]. split; [exact C85_at_main|]. vm_compute. reflexivity. Qed.
Definition C88_a_tokens : list token := Eval vm_compute in tokens_in C88_a.
Lemma C88_a_lex : lex 1000 C88_a = SparseModel.Ret C88_a_tokens.
Proof. vm_compute. reflexivity. Qed.
Definition C88_b_tokens : list token := Eval vm_compute in tokens_in C88_b.
Lemma C88_b_lex : lex 1000 C88_b = SparseModel.Ret C88_b_tokens.
Proof. vm_compute. reflexivity. Qed.
Definition C88_again := "import ""a""".
Lemma C88_again_lex : lex 1000 C88_again = SparseModel.Ret [Tok TImport "import"; Tok TIdent "a"].
Proof. vm_compute. reflexivity. Qed.
Lemma C88_a_begins : begins (stack_all_tokens C88_a_tokens) "b".
Proof. exists 0. eexists. vm_compute. reflexivity. Qed.
Lemma C88_b_begins : begins (stack_all_tokens C88_b_tokens) "a".
Proof. exists 1. eexists. vm_compute. reflexivity. Qed.
Lemma lex_once m m' l l' text : lex m text = SparseModel.Ret l -> lex m' text = SparseModel.Ret l' -> l = l'.
Proof. unfold lex. intros E E'. apply run_ret_more with (k := m') in E. apply run_ret_more with (k := m) in E'. rewrite PeanoNat.Nat.add_comm in E'. rewrite E in E'. now injection E'. Qed.
Example C88_loop_case : forall n, compile_files sort_factors toy_hash 101 C88_loop (1000 + n) C88_again = Running.
Proof.
  intros n. apply (C88_cycle sort_factors toy_hash 101 C88_loop (fun x => x = "a" \/ x = "b")) with (ts := [Tok TImport "import"; Tok TIdent "a"]) (x := "a").
  - intros x [->| ->]; (split; [discriminate|]); intros text m ts F E.
    + exists "b". split; [now right|]. unfold C88_loop in F. cbn [String.eqb Ascii.eqb Bool.eqb] in F. injection F as <-. rewrite (lex_once _ _ _ _ _ E C88_a_lex). exact C88_a_begins.
    + exists "a". split; [now left|]. unfold C88_loop in F. cbn [String.eqb Ascii.eqb Bool.eqb] in F. injection F as <-. rewrite (lex_once _ _ _ _ _ E C88_b_lex). exact C88_b_begins.
  - exact (lex_more 1000 (1000 + n) _ _ C88_again_lex (PeanoNat.Nat.le_add_r _ _)).
  - now left.
  - exists 0, [Tok TEOF ""]. reflexivity.
Qed.

(** How the parser reads chains of if, else if and else (parser.go:208-247). *)
Require Import ZArith Lia Bool Ascii String List.
Require Import Verif.FactorModel Verif.LexerModel Verif.LexerSpec Verif.LexerProofs Verif.ParserModel Verif.LangSpec Verif.SourceSpec Verif.SourceProofs.
Import ListNotations.
Local Open Scope string_scope.
Local Open Scope list_scope.
Local Open Scope nat_scope.

(** ** Specification *)
(** The else-if arms of a chain, each with its condition and its block. *)
Inductive g_elifs : list token -> list (cond * list stmt) -> Prop :=
| ge_none : g_elifs [] []
| ge_more ts c body bs rest l : g_cond ts c -> g_block body bs -> g_elifs rest l ->
    g_elifs (Tok TElse "else" :: Tok TIf "if" :: ts ++ sign "{" :: body ++ sign "}" :: rest) ((c, bs) :: l).
(** The constraints of an arm, and of arms in order. *)
Definition enc_arm (k : ttype) (a : cond * list stmt) (cs : list ctree) : Prop :=
  exists cc cb, enc_cond (fst a) cc /\ enc_block (snd a) cb /\ cs = Con (Tok k "") [cc] :: cb ++ [Con (Tok TNestedEnd "") []].
Inductive enc_elifs : list (cond * list stmt) -> list ctree -> Prop :=
| ee_none : enc_elifs [] []
| ee_more a l cs cs' : enc_arm TElse a cs -> enc_elifs l cs' -> enc_elifs (a :: l) (cs ++ cs').
Definition chain_start (ts body : list token) : list token := Tok TIf "if" :: ts ++ sign "{" :: body ++ [sign "}"].
Definition chain_else (body : list token) : list token := Tok TElse "else" :: sign "{" :: body ++ [sign "}"].

(** ** Proofs *)
Lemma trim_end p w t rest : p = w ++ [t] -> text_is break t = false -> starts p ->
  exists rest', remove_breaks (p ++ rest) = p ++ rest' /\ (rest' = rest \/ exists x, text_is break x = true /\ rest = rest' ++ [x]).
Proof.
  intros E T S. assert (S' : forall r, starts (p ++ r)) by (intros r; rewrite E in *; destruct w; exact S). unfold remove_breaks, remove_trailing_breaks. destruct rest as [|r rest _] using rev_ind.
  - exists []. split; auto. rewrite app_nil_r. rewrite E at 1. rewrite rev_app_distr. cbn [rev app]. rewrite T. now rewrite leading_id.
  - rewrite app_assoc, rev_app_distr. cbn [rev app]. rewrite rev_involutive. destruct (text_is break r) eqn:B.
    + exists rest. rewrite (leading_id (p ++ rest)) by apply S'. split; [apply leading_id, S'|right; eauto].
    + exists (rest ++ [r]). split; auto. rewrite <- app_assoc. apply leading_id, S'.
Qed.
Lemma arm_read go pre typ ts c body bs rest : Forall (fun t => text_is "{" t = false) pre -> g_cond ts c -> g_block body bs -> exists c1, enc_cond c c1 /\
  if_arm go (List.length pre) true typ (pre ++ ts ++ sign "{" :: body ++ sign "}" :: rest) =
  ParserModel.bind (go body) (fun s => Some (([Con (Tok typ "") [c1]] ++ fst s ++ [marker TNestedEnd], snd s), rest)).
Proof.
  intros Q Gc Gb. destruct (cond_parse _ _ Gc) as (c1 & E1 & En). exists c1. split; auto. unfold if_arm. rewrite app_assoc.
  rewrite (split_quiet "{" (pre ++ ts) (sign "{" :: body ++ sign "}" :: rest)); [|apply Forall_app; split; [exact Q|apply quiet_swing; now apply (cond_read _ _ Gc)]|right; eexists; eexists; split; reflexivity].
  replace (Nat.ltb (List.length (pre ++ ts)) (List.length pre)) with false by (symmetry; apply Nat.ltb_ge; rewrite app_length; lia).
  rewrite skipn_app, skipn_all, Nat.sub_diag. cbn [skipn app]. rewrite E1. cbn [ParserModel.bind]. rewrite (body_split_brace body bs rest Gb). reflexivity.
Qed.
Lemma elifs_read fl n elifs l : g_elifs elifs l -> forall body bs rest k, List.length elifs < k -> List.length elifs < n -> g_block body bs ->
  exists cs, enc_elifs l cs /\ else_ifs (statement_in fl n) k (elifs ++ chain_else body ++ rest) = Some ((cs, false), match l with [] => false | _ => true end, chain_else body ++ rest).
Proof.
  induction 1 as [|ts c body1 bs1 tl l Gc Gb Ge IH]; intros body bs rest k Hk Hn G; (destruct k as [|k]; [lia|]).
  - exists []. split; [constructor|]. reflexivity.
  - cbn [List.length] in Hk, Hn. rewrite app_length in Hk, Hn. cbn [List.length] in Hk, Hn. rewrite app_length in Hk, Hn. cbn [List.length] in Hk, Hn.
    destruct (arm_read (statement_in fl n) [Tok TElse "else"; Tok TIf "if"] TElse ts c body1 bs1 (tl ++ chain_else body ++ rest)) as (c1 & En & Ea); [repeat constructor|auto|auto|].
    destruct (block_read fl n body1 bs1 Gb) as (cb & Eb & Enb); [lia|]. destruct (IH body bs rest k) as (cs & Ecs & Er); [lia|lia|auto|].
    exists ((Con (Tok TElse "") [c1] :: cb ++ [Con (Tok TNestedEnd "") []]) ++ cs). split; [constructor; auto; exists c1, cb; auto|].
    cbn [app List.length] in Ea |- *. rewrite <- app_assoc. cbn [app]. rewrite <- app_assoc. cbn [app else_ifs ttyp ttype_eqb].
    match goal with |- context [if_arm ?g 2 true TElse ?x] => replace (if_arm g 2 true TElse x) with (if_arm g 2 true TElse (Tok TElse "else" :: Tok TIf "if" :: ts ++ sign "{" :: body1 ++ sign "}" :: tl ++ chain_else body ++ rest)) by reflexivity end.
    rewrite Ea, Eb. cbn [ParserModel.bind fst snd]. rewrite Er. cbn [ParserModel.bind after fst snd orb app]. reflexivity.
Qed.

(** ** C104.  A chain that ends with else is read: the arms in order, the else, the end mark, and what follows.
    Unlike an if without else (C83) it may be the last statement of its block. *)
Theorem C104_chain : forall fl n ts c body bs elifs l body' bs' rest b,
  g_cond ts c -> g_block body bs -> g_elifs elifs l -> g_block body' bs' -> g_block rest b ->
  List.length (chain_start ts body ++ elifs ++ chain_else body' ++ rest) < n ->
  exists c1 c2 c3 c4, enc_arm TIf (c, bs) c1 /\ enc_elifs l c2 /\ enc_block bs' c3 /\ enc_block b c4 /\
    statement_in fl n (chain_start ts body ++ elifs ++ chain_else body' ++ rest) =
    Some (c1 ++ c2 ++ (Con (Tok TElse "") [] :: c3 ++ [Con (Tok TNestedEnd "") []]) ++ Con (Tok TIfEnd "") [] :: c4, false).
Proof.
  intros fl n ts c body bs elifs l body' bs' rest b Gc Gb Ge Gb' G L. destruct n as [|n]; [lia|]. cbn [statement_in].
  destruct (trim_end (chain_start ts body ++ elifs ++ chain_else body') (chain_start ts body ++ elifs ++ Tok TElse "else" :: sign "{" :: body') (sign "}") rest) as (rest' & Et & Er).
  { unfold chain_else. rewrite <- !app_assoc. reflexivity. } { reflexivity. } { reflexivity. }
  assert (G' : g_block rest' b).
  { destruct Er as [->|(x & Bx & Ex)]; auto. apply (trailing_line rest b G). rewrite Ex. f_equal. f_equal. assert (X := block_lines _ _ G). rewrite Ex in X. apply Forall_app in X. destruct X as [_ X]. inversion X; auto. }
  assert (L' : List.length rest' <= List.length rest) by (destruct Er as [->|(x & _ & ->)]; rewrite ?app_length; lia).
  rewrite <- !app_assoc in Et. rewrite Et. clear Et Er.
  unfold chain_start in *. cbn [app List.length] in *. rewrite !app_length in L. cbn [List.length] in L. rewrite !app_length in L. unfold chain_else in L. cbn [List.length] in L. rewrite app_length in L. cbn [List.length] in L.
  rewrite <- app_assoc. cbn [app]. rewrite <- app_assoc. cbn [app].
  destruct (arm_read (statement_in fl n) [Tok TIf "if"] TIf ts c body bs (elifs ++ chain_else body' ++ rest')) as (c1 & En & Ea); [repeat constructor|auto|auto|].
  destruct (block_read fl n body bs Gb) as (cb & Eb & Enb); [lia|]. rewrite Eb in Ea. cbn [ParserModel.bind fst snd app List.length] in Ea.
  destruct (elifs_read fl n elifs l Ge body' bs' rest' (S (List.length (elifs ++ chain_else body' ++ rest')))) as (c2 & Ec2 & Ee); [rewrite app_length; lia|lia|auto|].
  destruct (block_read fl n body' bs' Gb') as (c3 & Eb3 & En3); [lia|]. destruct (block_read fl n rest' b G') as (c4 & Eb4 & En4); [lia|].
  exists (Con (Tok TIf "") [c1] :: cb ++ [Con (Tok TNestedEnd "") []]), c2, c3, c4. split; [exists c1, cb; auto|]. do 3 (split; auto).
  cbn [statement ttyp]. rewrite Ea. cbn [ParserModel.bind]. rewrite Ee. cbn [ParserModel.bind].
  assert (El : if_arm (statement_in fl n) 1 false TElse (chain_else body' ++ rest') = Some (([marker TElse] ++ c3 ++ [marker TNestedEnd], false), rest')).
  { unfold if_arm, chain_else. cbn [app]. rewrite <- app_assoc. cbn [app]. change (split_at_string "{" (Tok TElse "else" :: sign "{" :: body' ++ sign "}" :: rest')) with ([Tok TElse "else"], sign "{" :: body' ++ sign "}" :: rest').
    cbn [ParserModel.bind]. rewrite (body_split_brace body' bs' rest' Gb'), Eb3. reflexivity. }
  remember (chain_else body' ++ rest') as w eqn:Ew. unfold chain_else in Ew. cbn [app] in Ew. destruct w as [|t0 w']; [discriminate|]. assert (t0 = Tok TElse "else") by congruence. subst t0. cbn [ttyp ttype_eqb negb andb guard ParserModel.bind].
  rewrite El. cbn [ParserModel.bind]. rewrite Eb4. cbn [ParserModel.bind after before fst snd orb app]. unfold marker. f_equal; f_equal; cbn [app]; rewrite <- ?app_assoc; reflexivity.
Qed.
Print Assumptions C104_chain.

(** A chain with else if but no else at its end is an error. *)
Lemma elifs_alone go elifs l : g_elifs elifs l -> l <> [] -> forall rest k, match rest with [] => True | t :: _ => ttyp t <> TElse end ->
  else_ifs go k (elifs ++ rest) = None \/ exists s t r, else_ifs go k (elifs ++ rest) = Some (s, true, t :: r) /\ ttyp t <> TElse.
Proof.
  induction 1 as [|ts c body1 bs1 tl l Gc Gb Ge IH]; intros N rest k R; [now destruct N|]. destruct k as [|k]; [now left|].
  destruct (arm_read go [Tok TElse "else"; Tok TIf "if"] TElse ts c body1 bs1 (tl ++ rest)) as (c1 & _ & Ea); [repeat constructor|auto|auto|].
  cbn [app List.length] in Ea |- *. rewrite <- app_assoc. cbn [app]. rewrite <- app_assoc. cbn [app else_ifs ttyp ttype_eqb]. rewrite Ea.
  destruct (go body1) as [s|]; [|now left]. cbn [ParserModel.bind].
  destruct l as [|a l].
  - inversion Ge; subst. cbn [app]. destruct k as [|k]; [now left|]. cbn [else_ifs]. destruct rest as [|t r]; [now left|].
    assert (F : ttype_eqb (ttyp t) TElse = false) by (destruct (ttyp t); auto; contradiction). rewrite F. cbn [ParserModel.bind]. right. eauto.
  - destruct (IH ltac:(discriminate) rest k R) as [->|(s' & t & r & -> & Nt)]; [now left|]. cbn [ParserModel.bind]. right. eauto.
Qed.
Theorem C104_else_required : forall fl n ts c body bs elifs l rest,
  g_cond ts c -> g_block body bs -> g_elifs elifs l -> l <> [] -> match rest with [] => True | t :: _ => ttyp t <> TElse end ->
  statement_in fl n (chain_start ts body ++ elifs ++ rest) = None.
Proof.
  intros fl n ts c body bs elifs l rest Gc Gb Ge N R. destruct n as [|n]; [reflexivity|]. cbn [statement_in].
  assert (Last : exists w, elifs = w ++ [sign "}"]).
  { clear - Ge N. induction Ge as [|ts c body bs tl l Gc Gb Ge IH]; [now destruct N|]. destruct l as [|a l].
    - inversion Ge; subst. exists (Tok TElse "else" :: Tok TIf "if" :: ts ++ sign "{" :: body). cbn [app]. now rewrite <- app_assoc.
    - destruct (IH ltac:(discriminate)) as (w & ->). exists (Tok TElse "else" :: Tok TIf "if" :: ts ++ sign "{" :: body ++ sign "}" :: w). cbn [app]. rewrite <- app_assoc. cbn [app]. now rewrite <- app_assoc. }
  destruct Last as (w & Ew).
  destruct (trim_end (chain_start ts body ++ elifs) (chain_start ts body ++ w) (sign "}") rest) as (rest' & Et & Er).
  { rewrite Ew. now rewrite app_assoc. } { reflexivity. } { reflexivity. }
  assert (R' : match rest' with [] => True | t :: _ => ttyp t <> TElse end) by (destruct Er as [->|(x & _ & ->)]; [exact R|destruct rest'; [exact I|exact R]]).
  rewrite <- !app_assoc in Et. rewrite Et. unfold chain_start. cbn [app]. rewrite <- app_assoc. cbn [app]. rewrite <- app_assoc. cbn [app].
  destruct (arm_read (statement_in fl n) [Tok TIf "if"] TIf ts c body bs (elifs ++ rest')) as (c1 & _ & Ea); [repeat constructor|auto|auto|]. cbn [app List.length] in Ea.
  cbn [statement ttyp]. rewrite Ea. destruct (statement_in fl n body) as [s|]; [|reflexivity]. cbn [ParserModel.bind].
  destruct (elifs_alone (statement_in fl n) elifs l Ge N rest' (S (List.length (elifs ++ rest'))) R') as [->|(s' & t & r & -> & Nt)]; [reflexivity|]. cbn [ParserModel.bind].
  assert (F : ttype_eqb (ttyp t) TElse = false) by (destruct (ttyp t); auto; contradiction). rewrite F. reflexivity.
Qed.
Print Assumptions C104_else_required.

(** The lexer's tokens of a chain with two else-ifs; without its last arm it is an error. *)
Definition C104_cond (x n : string) : list token := [Tok TIdent x; Tok TCompare "=="; Tok TNumber n].
Definition C104_body (n : string) : list token := [Tok TIdent "a"; Tok TAssign "="; Tok TNumber n].
Definition C104_elifs : list token :=
  [Tok TElse "else"; Tok TIf "if"] ++ C104_cond "x" "2" ++ [sign "{"] ++ C104_body "5" ++ [sign "}"] ++
  [Tok TElse "else"; Tok TIf "if"] ++ C104_cond "y" "3" ++ [sign "{"] ++ C104_body "6" ++ [sign "}"].
Definition C104_arms : list (cond * list stmt) :=
  [(Cmp "==" (Var "x") (Num "2"), [Assign "a" (Num "5")]); (Cmp "==" (Var "y") (Num "3"), [Assign "a" (Num "6")])].
Lemma C104_word s : forallb (fun c => existsb (Ascii.eqb c) (chars "axy1234567")) (chars s) = true -> s <> "" -> word s.
Proof.
  intros H N. split; auto. apply Forall_forall. intros c Hc. rewrite forallb_forall in H. apply H in Hc. apply existsb_exists in Hc. destruct Hc as (d & Hd & E). apply Ascii.eqb_eq in E. subst d.
  apply is_word_ok. repeat (destruct Hd as [<-|Hd]; [reflexivity|]). destruct Hd.
Qed.
Lemma C104_cond_ok x n : word x -> word n -> g_cond (C104_cond x n) (Cmp "==" (Var x) (Num n)).
Proof. intros X N. apply (g_cmp [Tok TIdent x] (Var x) "==" [Tok TNumber n]); [now constructor|now left|constructor; now constructor]. Qed.
Lemma C104_body_ok n : word n -> g_block (C104_body n) [Assign "a" (Num n)].
Proof. intros N. apply (g_assign "a" [Tok TNumber n] (Num n) [] []); [apply C104_word; [reflexivity|discriminate]|constructor; now constructor|constructor|exact I]. Qed.
Example C104_case :
  lex 200 "if x==1{a=4}else if x==2{a=5}else if y==3{a=6}else{a=7}" = SparseModel.Ret (chain_start (C104_cond "x" "1") (C104_body "4") ++ C104_elifs ++ chain_else (C104_body "7")) /\
  g_cond (C104_cond "x" "1") (Cmp "==" (Var "x") (Num "1")) /\ g_block (C104_body "4") [Assign "a" (Num "4")] /\ g_elifs C104_elifs C104_arms /\
  g_block (C104_body "7") [Assign "a" (Num "7")] /\ C104_arms <> [].
Proof.
  assert (W : forall s, forallb (fun c => existsb (Ascii.eqb c) (chars "axy1234567")) (chars s) = true -> s <> "" -> word s) by exact C104_word.
  split; [vm_compute; reflexivity|]. split; [apply C104_cond_ok; apply W; (reflexivity || discriminate)|]. split; [apply C104_body_ok; apply W; (reflexivity || discriminate)|].
  split; [|split; [apply C104_body_ok; apply W; (reflexivity || discriminate)|discriminate]].
  apply (ge_more (C104_cond "x" "2") _ (C104_body "5")); [apply C104_cond_ok; apply W; (reflexivity || discriminate)|apply C104_body_ok; apply W; (reflexivity || discriminate)|].
  apply (ge_more (C104_cond "y" "3") _ (C104_body "6") _ []); [apply C104_cond_ok; apply W; (reflexivity || discriminate)|apply C104_body_ok; apply W; (reflexivity || discriminate)|constructor].
Qed.
Example C104_sample : exists cs, statement_in (fun _ => None) 100 (chain_start (C104_cond "x" "1") (C104_body "4") ++ C104_elifs ++ chain_else (C104_body "7")) = Some (cs, false) /\
  map (fun c => ttyp (output c)) cs = [TIf; TOverload; TNestedEnd; TElse; TOverload; TNestedEnd; TElse; TOverload; TNestedEnd; TElse; TOverload; TNestedEnd; TIfEnd].
Proof. eexists. split; [vm_compute; reflexivity|reflexivity]. Qed.

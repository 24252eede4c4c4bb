(** Tasks after a return (circuitcompiler/Programm.go:183-208, 275-289, 525-608). *)
Require Import ZArith Lia Bool Ascii String List.
Require Import Verif.FqModel Verif.FactorModel Verif.LexerModel Verif.ParserModel Verif.CircuitModel Verif.LangHeap Verif.PropsFactor Verif.PropsLang Verif.PropsCircuit Verif.PropsReturn.
Import ListNotations.
Local Open Scope string_scope.
Local Open Scope list_scope.
Local Open Scope nat_scope.

Lemma return_flag sort hash q n a c st r st' : ttyp (output c) = TReturn -> compile sort hash q n a c st = Done (r, st') -> rflag r = true.
Proof.
  intros T E. destruct n as [|n]; [discriminate|]. cbn [compile] in E. rewrite T in E. destruct (inputs c) as [|i [|j l]].
  - injection E as <- _. reflexivity.
  - apply bind_inv in E. destruct E as ([r1 st1] & _ & E). injection E as <- _. reflexivity.
  - now apply binary_flag in E.
Qed.

(** ** C112.  What follows a return is never run: with any tasks after it, or none, the result, the gates and the panics are the same, in main and in every other function. *)
Theorem C112_function : forall sort hash q n a c before after st, ttyp (output c) = TReturn ->
  run_tasks (compile sort hash q n a) (before ++ c :: after) st = run_tasks (compile sort hash q n a) (before ++ [c]) st.
Proof.
  intros sort hash q n a c before after st T. revert st. induction before as [|t before IH]; intros st; cbn [app run_tasks].
  - destruct (compile sort hash q n a c st) as [[r st1]| | |] eqn:E; cbn [bind]; auto. now rewrite (return_flag _ _ _ _ _ _ _ _ _ T E).
  - destruct (compile sort hash q n a t st) as [[r st1]| | |]; cbn [bind]; auto. destruct (rflag r); auto.
Qed.
Print Assumptions C112_function.
Theorem C112_main : forall sort hash q n a c before after st, ttyp (output c) = TReturn ->
  execute_tasks sort hash (compile sort hash q n a) (before ++ c :: after) st = execute_tasks sort hash (compile sort hash q n a) (before ++ [c]) st.
Proof.
  intros sort hash q n a c before after st T. revert st. induction before as [|t before IH]; intros st; cbn [app execute_tasks].
  - destruct (compile sort hash q n a c st) as [[r st1]| | |] eqn:E; cbn [bind]; auto. rewrite (return_flag _ _ _ _ _ _ _ _ _ T E). reflexivity.
  - destruct (compile sort hash q n a t st) as [[r st1]| | |]; cbn [bind]; auto. destruct (complete sort hash st1 (strip (rvals r))) as [st2| | |]; cbn [bind]; auto. destruct (rflag r); auto.
Qed.
Print Assumptions C112_main.
(** main of this program, with an equality put after its return: one gate, as without. *)
Definition C112_text := "
func main(x,y){
	var z = x*y
	return z
}
".
Example C112_case :
  match build sort_factors toy_hash 101 100 (tree_of 1000 C112_text) with
  | Done p =>
      match map ftasks (pheap p) with
      | _ :: Some [d; c] :: _ => ttyp (output c) = TReturn /\
          match execute_tasks sort_factors toy_hash (compile sort_factors toy_hash 101 100 1) [d; c; Con (Tok TCall "equal") [leaf (Tok TIdent "x"); leaf (Tok TIdent "y")]] (St (pheap p) (Coll [] []) [] []) with
          | Done (_, st) => List.length (gates (scoll st)) = 1
          | _ => False
          end
      | _ => False
      end
  | _ => False
  end.
Proof. vm_compute. repeat split. Qed.

Definition is_break (t : token) : Prop := ident t = break.
Lemma break_iff t : text_is break t = true <-> is_break t.
Proof. unfold text_is, is_break. rewrite String.eqb_eq. split; congruence. Qed.
Lemma lead_nil l : remove_leading_breaks l = [] -> Forall is_break l.
Proof. induction l as [|t l IH]; cbn [remove_leading_breaks]; auto. destruct (text_is break t) eqn:B; [|discriminate]. intros H. constructor; [now apply break_iff|auto]. Qed.
Lemma lead_twice l : remove_leading_breaks (remove_leading_breaks l) = remove_leading_breaks l.
Proof. induction l as [|t l IH]; auto. cbn [remove_leading_breaks]. destruct (text_is break t) eqn:B; auto. cbn [remove_leading_breaks]. now rewrite B. Qed.
Lemma breaks_nil r : remove_breaks r = [] -> Forall is_break r.
Proof.
  unfold remove_breaks, remove_trailing_breaks. destruct (rev r) as [|x r'] eqn:E; [apply (f_equal (@rev token)) in E; rewrite rev_involutive in E; subst r; intros _; constructor|].
  destruct (text_is break x) eqn:B; [|apply lead_nil]. rewrite lead_twice. intros H. apply lead_nil in H. apply (f_equal (@rev token)) in E. rewrite rev_involutive in E. cbn [rev] in E. subst r.
  apply Forall_app. split; auto. constructor; auto. now apply break_iff.
Qed.
Lemma line_cut ts : forall l r, split_at_string break ts = (l, r) -> ts = l ++ r /\ Forall (fun t => ~ is_break t) l.
Proof.
  induction ts as [|t ts IH]; cbn [split_at_string]; intros l r E; [injection E as <- <-; auto|]. destruct (text_is break t) eqn:B; [injection E as <- <-; auto|].
  destruct (split_at_string break ts) as [l1 r1]. injection E as <- <-. destruct (IH l1 r1 eq_refl) as [-> F]. split; auto. constructor; auto. intros C. apply break_iff in C. congruence.
Qed.
Lemma trim_cases t ts : ~ is_break t -> exists ts', remove_breaks (t :: ts) = t :: ts' /\ (ts = ts' \/ exists x, is_break x /\ ts = ts' ++ [x]).
Proof.
  intros N. assert (B : text_is break t = false) by (destruct (text_is break t) eqn:B; auto; apply break_iff in B; tauto).
  unfold remove_breaks, remove_trailing_breaks. destruct (rev (t :: ts)) as [|x r'] eqn:E; [apply (f_equal (@rev token)) in E; rewrite rev_involutive in E; discriminate|].
  apply (f_equal (@rev token)) in E. rewrite rev_involutive in E. cbn [rev] in E. destruct (text_is break x) eqn:X.
  - rewrite lead_twice. destruct (rev r') as [|y l]; cbn [app] in E; [injection E as -> _; congruence|]. injection E as <- ->. cbn [remove_leading_breaks]. rewrite B. exists l. split; auto. right. exists x. split; auto. now apply break_iff.
  - cbn [remove_leading_breaks]. rewrite B. exists ts. auto.
Qed.

(** In a text, a return is the last statement of its block: the parser panics unless only line breaks follow the line of the return. *)
Theorem C112_last : forall file n t ts s, ttyp t = TReturn -> ~ is_break t -> statement_in file n (t :: ts) = Some s ->
  exists line rest cs, ts = line ++ rest /\ Forall (fun t => ~ is_break t) line /\ Forall is_break rest /\ s = ([Con (Tok TReturn "") cs], false).
Proof.
  intros file n t ts s T N E. destruct n as [|n]; [discriminate|]. cbn [statement_in] in E. destruct (trim_cases t ts N) as (ts' & R & H). rewrite R in E. unfold statement in E. rewrite T in E.
  destruct (split_at_string break (t :: ts')) as [l r] eqn:S. apply line_cut in S. destruct S as [S F]. destruct l as [|t' line]; cbn [app] in S; [subst r|].
  { cbn in E. exfalso. assert (X : remove_breaks (t :: ts') = []) by (destruct (remove_breaks (t :: ts')); [auto|discriminate]). apply breaks_nil in X. inversion X. tauto. }
  injection S as <- ->. destruct (if Nat.ltb 1 _ then _ else _) as [cs|]; [|discriminate]. destruct (remove_breaks r) eqn:X; [|discriminate]. cbn in E. injection E as <-. apply breaks_nil in X.
  inversion F; subst. destruct H as [->|(x & Bx & ->)].
  - exists line, r, cs. auto.
  - exists line, (r ++ [x]), cs. rewrite app_assoc. repeat split; auto. apply Forall_app. auto.
Qed.
Print Assumptions C112_last.
Example C112_last_case : exists s, statement_in (fun _ => None) 5 [Tok TReturn "return"; Tok TIdent "x"; Tok TSyntax break; Tok TSyntax break] = Some s /\
  statement_in (fun _ => None) 5 [Tok TReturn "return"; Tok TIdent "x"; Tok TSyntax break; Tok TReturn "return"] = None.
Proof. eexists. split; vm_compute; reflexivity. Qed.

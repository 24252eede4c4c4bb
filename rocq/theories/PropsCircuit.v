(** Plausible claims about the circuit compiler that fail. *)
Require Import ZArith Lia Bool Ascii String List.
Require Import Verif.Cong Verif.FqModel Verif.FactorModel Verif.FactorSpec Verif.FactorProofs Verif.ExprProofs Verif.PropsFactor Verif.PropsExpr
  Verif.LexerModel Verif.ParserModel Verif.CircuitModel Verif.LangSpec Verif.PropsLang.
Import ListNotations.
Local Open Scope string_scope.
Local Open Scope list_scope.
Local Open Scope Z_scope.

(** The gates and the result of a program, as the model computes them for q = 101. *)
Definition compiled (text : string) : res (factors * list gate) :=
  '(r, st) <- compile_text sort_factors toy_hash 101 1000 text ;; Done (strip (rvals r), gates (scoll st)).
Definition on (l : list (string * Z)) (x : string) : Z := match find_at x l with Some z => z | None => 0 end.
Definition gate_okb (w : assignment) (g : gate) : bool :=
  match gtyp g with
  | GMul => (lin w (gleft g) * lin w (gright g) - lin w (gout g)) mod 101 =? 0
  | GAdd => (lin w (gleft g) - lin w (gout g)) mod 101 =? 0
  | GEqual => (lin w (gleft g) - lin w (gright g)) mod 101 =? 0
  | _ => false
  end.
Lemma gate_okb_ok w g : gate_okb w g = true -> gate_holds 101 (fun _ => 0) w g.
Proof.
  assert (M : forall z, (z mod 101 =? 0) = true -> (101 | z)) by (intros z H; apply Z.mod_divide; [discriminate|]; now apply Z.eqb_eq).
  unfold gate_okb, gate_holds, cong. destruct (gtyp g); try discriminate; apply M.
Qed.
(** All gates hold under w, and the result is [z] mod 101. *)
Definition gives_b (o : res (factors * list gate)) (w : assignment) (z : Z) : bool :=
  match o with Done (f, gs) => forallb (gate_okb w) gs && ((lin w f - z) mod 101 =? 0) | _ => false end.
Lemma gives_b_ok o w z : gives_b o w z = true -> exists f gs, o = Done (f, gs) /\ all_hold 101 (fun _ => 0) w gs /\ lin w f ==[101] z.
Proof.
  destruct o as [[f gs]| | |]; try discriminate. cbn. intros H. apply andb_true_iff in H. destruct H as [A B]. exists f, gs. split; auto. split.
  - apply Forall_forall. intros g Ig. apply gate_okb_ok. rewrite forallb_forall in A. auto.
  - apply Z.mod_divide; [discriminate|]. now apply Z.eqb_eq.
Qed.

(** ** C76.  In [if c {A} else {B}] with a true condition, B is executed too. *)
Definition C76_text := "
func main(x,y){
	var z = 0
	if 1==1 {
		z = x
	} else {
		z = y
	}
	return z
}
".
Theorem C76_else_refuted : exists text, text = C76_text /\ exists f gs, compiled text = Done (f, gs) /\
  forall w, all_hold 101 (fun _ => 0) w gs -> lin w f = w "y".
Proof.
  exists C76_text. split; [reflexivity|]. assert (E : compiled C76_text = Done (wire "y" 1, [])) by (vm_compute; reflexivity). exists (wire "y" 1), []. split; [exact E|].
  intros w _. rewrite lin_wire. apply Z.mul_1_l.
Qed.
Print Assumptions C76_else_refuted.
(** Two nested ifs do not compile. *)
Theorem C76_nested_refuted : exists text, text = "
func main(x,y){
	var z = 0
	if 1==1 {
		if 2==2 {
			z = x
		}
		z = y
	}
	return z
}
" /\ tree_of 1000 text <> [] /\ compiled text = Panic.
Proof. eexists. split; [reflexivity|]. split; [|vm_compute; reflexivity]. vm_compute. discriminate. Qed.
Print Assumptions C76_nested_refuted.

(** ** C77.  A return inside a loop does not end the function. *)
Definition C77_text := "
func main(x,y){
	var k = 0
	for( k<2 ; k=k+1){
		return x
	}
	return y
}
".
Theorem C77_return_refuted : exists text, text = C77_text /\ exists f gs, compiled text = Done (f, gs) /\
  forall w, all_hold 101 (fun _ => 0) w gs -> lin w f = w "y".
Proof.
  exists C77_text. split; [reflexivity|]. assert (E : compiled C77_text = Done (wire "y" 1, [])) by (vm_compute; reflexivity). exists (wire "y" 1), []. split; [exact E|].
  intros w _. rewrite lin_wire. apply Z.mul_1_l.
Qed.
Print Assumptions C77_return_refuted.

(** ** C78.  A loop that counts down to zero never ends. *)
Definition C78_text := "
func main(x,y){
	var i = 3
	for( i>=0 ; i=i-1){
	}
	return x*y
}
".
Section Forever.
Variable sort : factors -> factors.
Variable hash : string -> Z.
Definition built : heap := Eval vm_compute in match build sort_factors toy_hash 101 10 (tree_of 1000 C78_text) with Done p => pheap p | _ => [] end.
Definition loop : ctree := Eval vm_compute in nth 1 (match ftasks (nth 1 built zero_function) with Some ts => ts | None => [] end) (leaf (Tok TNone "")).
Definition mem (j : nat) (junk : heap) : heap :=
  let m := nth 1 built zero_function in
  [nth 0 built zero_function; with_funs m [("x", 2%nat); ("y", 3%nat); ("i", j); ("1for", 5%nat)]; nth 2 built zero_function; nth 3 built zero_function;
   nth 4 built zero_function; nth 5 built zero_function] ++ junk.
Definition counts (st : state) : Prop :=
  exists k junk ob v, sheap st = mem (6 + k) junk /\ nth_error junk k = Some ob /\ fnum ob = Some v /\ 0 <= v < 101.

Lemma read_i n st : counts st -> exists f, is_number f = true /\ 0 <= mult f < 101 /\
  compile sort hash 101 (S n) 1 (leaf (Tok TIdent "i")) st = Done (Ret [(f, true)] false None, st).
Proof.
  intros (k & junk & ob & v & Eh & Nk & En & Hv). exists (Fac (Tok TNumber (fname ob)) v). split; [reflexivity|]. split; [exact Hv|].
  cbn [compile leaf output ttyp ident]. rewrite Eh.
  change (find_fun (mem (6 + k) junk) 1 "i") with (Done (A := option (nat * nat)) (Some (1%nat, (6 + k)%nat))).
  cbn [bind]. change (fetch (mem (6 + k) junk) (6 + k)) with (fetch junk k). unfold fetch at 1. rewrite Nk. cbn [get bind]. rewrite En. reflexivity.
Qed.
Lemma fetch_last (h : heap) o : fetch (h ++ [o]) (List.length h) = Done o.
Proof. unfold fetch. rewrite nth_error_app2, Nat.sub_diag; auto. Qed.
Lemma store_last (h : heap) o o' : store (h ++ [o]) (List.length h) o' = h ++ [o'].
Proof. induction h as [|x h IH]; [reflexivity|]. cbn. now rewrite IH. Qed.
Lemma run_body n st : counts st -> exists st', counts st' /\ compile sort hash 101 (S (S n)) 1 (call_of "1for") st = Done (nothing, st').
Proof.
  intros (k & junk & ob & v & Eh & Nk & En & Hv). destruct st as [h c t l]. cbn [sheap] in Eh. subst h.
  exists (St (mem (6 + k) (junk ++ [nth 5 built zero_function])) c t (l ++ [])). split.
  - exists k, (junk ++ [nth 5 built zero_function]), ob, v. split; [reflexivity|split; [|auto]]. rewrite nth_error_app1; auto. apply nth_error_Some. congruence.
  - set (m := S n). cbn [compile call_of leaf output ttyp ident inputs String.eqb Ascii.eqb Bool.eqb existsb orb sheap]. subst m.
    change (find_fun (mem (6 + k) junk) 1 "1for") with (Done (A := option (nat * nat)) (Some (1%nat, 5%nat))). cbn [bind].
    assert (F : flat_copy (S n) (mem (6 + k) junk) 5 = Done (mem (6 + k) junk ++ [nth 5 built zero_function], List.length (mem (6 + k) junk))).
    { unfold flat_copy. change (fetch (mem (6 + k) junk) 5) with (Done (nth 5 built zero_function)). cbn [bind flat_copy_in].
      change (fetch (mem (6 + k) junk) 5) with (Done (nth 5 built zero_function)). cbn [bind]. unfold alloc. change (ffuns (nth 5 built zero_function)) with (@nil (string * nat)).
      cbn [copy_funs bind]. change (ftasks (nth 5 built zero_function)) with (Some (@nil ctree)). cbn [get bind]. rewrite store_last. reflexivity. }
    rewrite F. cbn [bind comp_all with_heap sheap scoll strace sstored argument_functions]. unfold gets_loaded_with. rewrite fetch_last. cbn [bind].
    change (finputs (nth 5 built zero_function)) with (@nil string). cbn [List.length Nat.ltb Nat.leb load_inputs bind]. rewrite fetch_last. cbn [bind Nat.eqb]. rewrite store_last, fetch_last.
    reflexivity.
Qed.
Lemma minus_one f : is_number f = true -> exists g, is_number g = true /\ 0 <= mult g < 101 /\
  add_factors_m 101 [(f, true)] (plain (negate_factors (strip [(Fac (Tok TNumber "1") 1, false)]))) = [(g, false)].
Proof.
  intros Hf. unfold add_factors_m. cbn [negate_factors map plain strip add_loop_m add_into_m fst]. unfold add_factor.
  change (ttyp (ftok (Fac _ _))) with TNumber. change (is_number (Fac (Tok TNumber "1") 1)) with true. cbn iota. cbn [ftok ttyp]. unfold is_number in Hf. replace (both_number (ttyp (ftok f)) TNumber) with true by (destruct (ttyp (ftok f)); try discriminate Hf; reflexivity).
  cbn iota zeta. cbn [app filter fst mult]. set (z := fadd 101 (mult f) _). assert (Hz : 0 <= z < 101) by (unfold z, fadd; apply Z.mod_pos_bound; reflexivity).
  destruct (z =? 0) eqn:E; cbn [negb]; eexists; (split; [|split; [|reflexivity]]); try reflexivity; cbn [mult]; lia.
Qed.
Definition next_i : ctree := nth 1 (inputs loop) (leaf (Tok TNone "")).
Lemma count_down n st : counts st -> compile sort hash 101 n 1 next_i st = Running \/ exists r st', counts st' /\ compile sort hash 101 n 1 next_i st = Done (r, st').
Proof.
  intros C. destruct n as [|[|[|n]]]; [now left| |left; destruct st; reflexivity|right].
  { left. destruct st; reflexivity. }
  destruct (read_i n st C) as (f & Nf & Hf & Ef). destruct (minus_one f Nf) as (g & Ng & Hg & Eg).
  change (compile sort hash 101 (S (S (S n))) 1 next_i st) with
    ('(r, st2) <- compile sort hash 101 (S (S n)) 1 (Con (Tok TUnassigned "i-1") [leaf (Tok TArith "-"); leaf (Tok TIdent "i"); leaf (Tok TNumber "1")]) st ;;
     w <- find_fun (sheap st2) 1 "i" ;;
     match w with
     | None => Panic
     | Some (o, _) =>
         match strip (rvals r), rfun r with
         | [], Some a => h <- set_fun (sheap st2) o "i" a ;; Done (nothing, with_heap st2 h)
         | f, _ => '(h1, a) <- factors_function 101 (sheap st2) f ;;
                   h <- set_fun h1 o "i" a ;; Done (Ret (rvals r) false None, stored (with_heap st2 h) [f])
         end
     end).
  change (compile sort hash 101 (S (S n)) 1 (Con (Tok TUnassigned "i-1") [leaf (Tok TArith "-"); leaf (Tok TIdent "i"); leaf (Tok TNumber "1")]) st) with
    ('(ra, st1) <- compile sort hash 101 (S n) 1 (leaf (Tok TIdent "i")) st ;;
     '(v, st3) <- operate sort hash 101 st1 "-" (rvals ra) [(Fac (Tok TNumber "1") 1, false)] ;; Done (Ret v false None, st3)).
  rewrite Ef. cbn [bind rvals]. unfold operate. cbn [String.eqb Ascii.eqb Bool.eqb shared existsb snd orb]. rewrite Eg. cbn [bind rvals rfun strip map fst].
  destruct C as (k & junk & ob & v & Eh & Nk & En & Hv). destruct st as [h c t l]. cbn [sheap] in Eh |- *. subst h.
  change (find_fun (mem (6 + k) junk) 1 "i") with (Done (A := option (nat * nat)) (Some (1%nat, (6 + k)%nat))). cbn [bind factors_function]. unfold alloc.
  eexists _, _. split; [|reflexivity].
  exists (List.length junk), (junk ++ [factor_function g]), (factor_function g), (mult g). split; [reflexivity|]. split; [rewrite nth_error_app2, Nat.sub_diag; auto|]. split; [|exact Hg].
  unfold factor_function. rewrite Ng. reflexivity.
Qed.
Lemma never_ends n : forall st, counts st -> compile sort hash 101 n 1 loop st = Running.
Proof.
  induction n as [|n IH]; [reflexivity|]. intros st C.
  assert (T : static_condition (compile sort hash 101 n 1) (nth 0 (inputs loop) (leaf (Tok TNone ""))) st = Running \/
              static_condition (compile sort hash 101 n 1) (nth 0 (inputs loop) (leaf (Tok TNone ""))) st = Done (true, st)).
  { destruct n as [|n]; [now left|right].
    assert (C' : counts (St (sheap st) (Coll [] []) [] (sstored st))) by exact C.
    destruct (read_i n _ C') as (f & Nf & Hf & Ef). unfold static_condition. cbn [nth inputs loop]. unfold aside. unfold leaf in Ef. rewrite Ef. cbn [bind sheap scoll strace sstored rvals strip map fst].
    change (compile sort hash 101 (S n) 1 (Con (Tok TNumber "0") []) (St (sheap st) (Coll [] []) [] (sstored st))) with
      (Done (Ret [(Fac (Tok TNumber "0") 0, false)] false None, St (sheap st) (Coll [] []) [] (sstored st))).
    cbn [bind rvals strip map fst sheap sstored output ident mult]. rewrite Nf. cbn [andb is_number ftok ttyp ttype_eqb mult].
    change (compare_as ">=" (mult f) 0) with (Done (0 <=? mult f)). replace (0 <=? mult f) with true by (symmetry; apply Z.leb_le; lia). destruct st. reflexivity. }
  change (compile sort hash 101 (S n) 1 loop st) with
    ('(go, st1) <- static_condition (compile sort hash 101 n 1) (nth 0 (inputs loop) (leaf (Tok TNone ""))) st ;;
     if go then
       '(r, st2) <- compile sort hash 101 n 1 (call_of "1for") st1 ;;
       if rflag r then Done (Ret (rvals r) true (rfun r), st2)
       else '(_, st3) <- compile sort hash 101 n 1 next_i st2 ;; compile sort hash 101 n 1 loop st3
     else Done (nothing, st1)).
  destruct T as [T|T]; rewrite T; [reflexivity|]. cbn [bind].
  destruct n as [|[|n]]; [reflexivity| |].
  { destruct st as [h c t l]. destruct C as (k & junk & ob & v & Eh & _). cbn [sheap] in Eh. subst h. reflexivity. }
  destruct (run_body n st C) as (st2 & C2 & E2). rewrite E2. cbn [bind rflag nothing].
  destruct (count_down (S (S n)) st2 C2) as [E3|(r & st3 & C3 & E3)]; rewrite E3; [reflexivity|]. cbn [bind]. exact (IH st3 C3).
Qed.
End Forever.
Definition loop_stmts : list ctree := Eval vm_compute in tree_of 1000 C78_text.
Lemma loop_built sort hash n : build sort hash 101 (5 + n) loop_stmts = Done (Program built (Some 1%nat) ["1"]).
Proof. vm_compute. reflexivity. Qed.
Lemma loop_small sort hash n : (n < 5)%nat -> build sort hash 101 n loop_stmts = Running.
Proof. intros H. do 5 (destruct n as [|n]; [vm_compute; reflexivity|]). lia. Qed.
Lemma loop_tree : tree_of 1000 C78_text = loop_stmts.
Proof. vm_compute. reflexivity. Qed.
Theorem C78_countdown_refuted : exists text, tree_of 1000 text <> [] /\ forall sort hash n n' p,
  build sort hash 101 n (tree_of 1000 text) = Done p -> run_program sort hash 101 n' p = Running.
Proof.
  exists C78_text. rewrite loop_tree. split; [discriminate|]. intros sort hash n n' p E.
  destruct (Nat.lt_ge_cases n 5) as [H|H]; [rewrite loop_small in E by exact H; discriminate E|].
  replace n with (5 + (n - 5))%nat in E by lia. rewrite loop_built in E. injection E as <-.
  unfold run_program. cbn [pmain get bind pheap]. change (fetch built 1) with (Done (nth 1 built zero_function)). cbn [bind].
  change (ftasks (nth 1 built zero_function)) with (Some [Con (Tok TOverload "") [leaf (Tok TVarDecl "i"); leaf (Tok TNumber "3")]; loop;
    Con (Tok TReturn "") [Con (Tok TUnassigned "x*y") [leaf (Tok TArith "*"); leaf (Tok TIdent "x"); leaf (Tok TIdent "y")]]]).
  cbn [get bind]. destruct n' as [|[|n']]; [reflexivity|reflexivity|]. set (m := S (S n')). cbn [execute_tasks].
  assert (E1 : exists r st, compile sort hash 101 m 1 (Con (Tok TOverload "") [leaf (Tok TVarDecl "i"); leaf (Tok TNumber "3")]) (St built (Coll [] []) [] []) = Done (r, st) /\
    counts st /\ strip (rvals r) = [Fac (Tok TNumber "3") 3] /\ rflag r = false).
  { subst m. eexists _, _. split; [reflexivity|]. split; [|split; reflexivity].
    exists 0%nat, [factor_function (Fac (Tok TNumber "3") 3)], (factor_function (Fac (Tok TNumber "3") 3)), 3. split; [reflexivity|]. split; [reflexivity|]. split; [reflexivity|lia]. }
  destruct E1 as (r & st & E1 & C & R & F). rewrite E1. cbn [bind]. rewrite R, F.
  replace (complete sort hash st [Fac (Tok TNumber "3") 3]) with (Done st) by (destruct st; reflexivity). cbn [bind].
  rewrite (never_ends sort hash m st C). reflexivity.
Qed.
Print Assumptions C78_countdown_refuted.

(** ** C79.  A constraint asked for while a condition is evaluated is lost: f asks a = b, and is called. *)
Definition C79_text := "
func main(x,y){
	if f(x,y)==1 {
		return x*y
	}
	return x
}
func f(a,b){
	equal(a,b)
	return 1
}
".
Theorem C79_condition_refuted : exists text, text = C79_text /\ exists f gs w, compiled text = Done (f, gs) /\
  all_hold 101 (fun _ => 0) w gs /\ w "x" = 2 /\ w "y" = 3 /\ lin w f ==[101] 6.
Proof.
  exists C79_text. split; [reflexivity|]. set (w := on [("x", 2); ("y", 3); ("3034001365382168", 6)]).
  assert (E : gives_b (compiled C79_text) w 6 = true) by (vm_compute; reflexivity).
  destruct (gives_b_ok _ _ _ E) as (f & gs & A & B & C). exists f, gs, w. split; [exact A|]. split; [exact B|]. split; [reflexivity|]. split; [reflexivity|exact C].
Qed.
Print Assumptions C79_condition_refuted.

(** ** C80.  Subtracting a variable that holds a number overwrites the variable (the model stops there). *)
Theorem C80_subtract_refuted : exists text, text = "
func main(x,y){
	var a = 3
	var b = x-a
	return b*y
}
" /\ compiled text = Alias.
Proof. eexists. split; [reflexivity|]. vm_compute. reflexivity. Qed.
Print Assumptions C80_subtract_refuted.
(** Before its declaration in a block a name already means the block's variable. *)
Definition C80_text := "
func main(x,y){
	var b = x
	if 1==1 {
		b = y
		var b = 7
	}
	return b
}
".
Theorem C80_before_declaration_refuted : exists text, text = C80_text /\ exists f gs, compiled text = Done (f, gs) /\
  forall w, all_hold 101 (fun _ => 0) w gs -> lin w f = w "x".
Proof.
  exists C80_text. split; [reflexivity|]. assert (E : compiled C80_text = Done (wire "x" 1, [])) by (vm_compute; reflexivity). exists (wire "x" 1), []. split; [exact E|].
  intros w _. rewrite lin_wire. apply Z.mul_1_l.
Qed.
Print Assumptions C80_before_declaration_refuted.

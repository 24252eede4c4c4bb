(** Which gates compiling may add: nothing is removed or changed, and no identifier is used twice (circuitcompiler/Programm.go:64-74, 183-610). *)
Require Import ZArith Lia Bool Ascii String List.
Require Import Verif.FqModel Verif.FactorModel Verif.FactorProofs Verif.LexerModel Verif.ParserModel Verif.CircuitModel Verif.LangSpec Verif.LangHeap Verif.PropsFactor Verif.PropsLang Verif.PropsCircuit.
Import ListNotations.
Local Open Scope string_scope.
Local Open Scope list_scope.
Local Open Scope nat_scope.

(** Spec: c' has the gates of c, then new ones, each under an identifier not used before. *)
Inductive grew : collector -> collector -> Prop :=
| grew_refl : forall c, grew c c
| grew_step : forall c c' g, grew c c' -> ~ In (gid g) (known c') -> grew c (Coll (gates c' ++ [g]) (gid g :: known c')).

Lemma grew_trans a b c : grew a b -> grew b c -> grew a c.
Proof. intros A B. induction B; auto. constructor; auto. Qed.
Lemma grew_gates c c' : grew c c' -> exists gs, gates c' = gates c ++ gs /\ known c' = rev (map gid gs) ++ known c /\ (NoDup (known c) -> NoDup (known c')).
Proof.
  induction 1 as [c|c c' g G (gs & A & B & D) N]; [exists []; rewrite app_nil_r; auto|]. exists (gs ++ [g]). cbn [gates known]. split; [now rewrite A, app_assoc|].
  split; [rewrite map_app, rev_app_distr, B; reflexivity|]. intros X. constructor; auto.
Qed.

Ltac ub E v E1 := apply bind_inv in E; destruct E as (v & E1 & E).
Ltac up E v w E1 := apply bind_inv in E; destruct E as ([v w] & E1 & E).
Section S.
Variable sort : factors -> factors.
Variable hash : string -> Z.
Variable q : Z.
Notation compile := (compile sort hash q).

Lemma collect_grew c g fin c' i : (forall g, gid (fin g) = gid g) -> collect sort hash c g fin = Some (c', i) -> grew c c'.
Proof.
  intros F. unfold collect. destruct (with_id sort hash g) as [g'|]; [|discriminate]. destruct (contains c (gid g')) eqn:E; intros [= <- _]; [constructor|].
  rewrite <- (F g'). constructor; [constructor|]. rewrite F. intros I. enough (contains c (gid g') = true) by congruence. apply existsb_exists. exists (gid g'). split; auto. apply String.eqb_refl.
Qed.
Ltac coll := match goal with |- context [collect ?s ?h ?c ?g ?f] => let E := fresh "E" in destruct (collect s h c g f) as [[? ?]|] eqn:E; [|discriminate]; apply collect_grew in E; [|reflexivity] end.
Lemma op_grew c op l r c' f : compile_op sort hash q c op l r = Some (c', f) -> grew c c'.
Proof.
  unfold compile_op, compile_mul, compile_div.
  destruct (String.eqb op "*").
  { destruct (_ || _). { destruct (mul_factors _ _ _); [|discriminate]. intros [= <- _]. constructor. }
    destruct (extract_constant _ _ _ _) as [[[? ?] ?]|]; [|discriminate]. coll. intros [= <- _]. auto. }
  destruct (String.eqb op "/").
  { destruct (is_single_number r). { destruct (invert_factors _ _); [|discriminate]. destruct (mul_factors _ _ _); [|discriminate]. intros [= <- _]. constructor. }
    destruct (factor_signature _ _) as [[? ?]|]; [|discriminate]. destruct (factor_signature _ _) as [[? ?]|]; [|discriminate]. destruct (fdiv _ _ _); [|discriminate]. coll. intros [= <- _]. auto. }
  destruct (String.eqb op "+"); [intros [= <- _]; constructor|]. destruct (String.eqb op "-"); [intros [= <- _]; constructor|discriminate].
Qed.
Lemma equal_grew c l r c' : compile_equal sort hash c l r = Some c' -> grew c c'.
Proof. unfold compile_equal. coll. intros [= <-]. auto. Qed.
Lemma add_gate_grew c l r c' f : compile_add_gate sort hash q c l r = Some (c', f) -> grew c c'.
Proof. unfold compile_add_gate. destruct (extract_constant _ _ _ _) as [[[? ?] ?]|]; [|discriminate]. coll. intros [= <- _]. auto. Qed.
Lemma base_grew c e c' f : compile_base sort hash c e = Some (c', f) -> grew c c'.
Proof. unfold compile_base. coll. intros [= <- _]. auto. Qed.
Lemma bits_grew t is : forall c c', add_bits sort hash c t is = Some c' -> grew c c'.
Proof. induction is as [|i is IH]; cbn [add_bits]; intros c c'; [intros [= <-]; constructor|]. coll. intros X. eapply grew_trans; eauto. Qed.
Lemma split_grew c f c' : compile_split sort hash q c f = Some c' -> grew c c'.
Proof.
  unfold compile_split. destruct f as [|x [|]]; try discriminate. destruct (add_bits _ _ _ _ _) as [c1|] eqn:E1; [|discriminate]. apply bits_grew in E1. coll.
  intros [= <-]. eapply grew_trans; eauto.
Qed.
Lemma function_grew c f c' : complete_function sort hash c f = Some c' -> grew c c'.
Proof.
  unfold complete_function. destruct f as [|x f]; [intros [= <-]; constructor|]. destruct (is_single_number _); [intros [= <-]; constructor|].
  destruct (match f with [] => _ | _ => _ end); [intros [= <-]; constructor|]. destruct (list_signature _ _); [|discriminate]. coll. intros [= <-]. auto.
Qed.

(** The same for states. *)
Definition sgrew (st st' : state) : Prop := grew (scoll st) (scoll st').
Definition keeps (comp : ctree -> state -> res (ret * state)) : Prop := forall c st r st', comp c st = Done (r, st') -> sgrew st st'.
Lemma sgrew_refl st : sgrew st st. Proof. constructor. Qed.
Lemma sgrew_trans a b c : sgrew a b -> sgrew b c -> sgrew a c. Proof. apply grew_trans. Qed.
Lemma submit_coll st g st' : submit st g = Done st' -> scoll st' = scoll st.
Proof. unfold submit. destruct g; cbn; [|discriminate]. now intros [= <-]. Qed.
Lemma aside_coll comp c st r st' : aside comp c st = Done (r, st') -> scoll st' = scoll st.
Proof. unfold aside. intros E. apply bind_inv in E. destruct E as ([? ?] & _ & E). injection E as _ <-. reflexivity. Qed.
Lemma index_coll comp ins : forall st s st', index_names comp ins st = Done (s, st') -> scoll st' = scoll st.
Proof.
  induction ins as [|i ins IH]; cbn [index_names]; intros st s st' E; [injection E as _ <-; reflexivity|]. apply bind_inv in E. destruct E as ([r st1] & E1 & E). apply aside_coll in E1.
  destruct (strip _) as [|f [|]]; try discriminate. destruct (is_number f); [|discriminate]. apply bind_inv in E. destruct E as (z & _ & E). apply bind_inv in E. destruct E as ([s2 st2] & E2 & E).
  apply IH in E2. injection E as _ <-. congruence.
Qed.
Lemma resolve_coll comp c st s st' : resolve_name comp c st = Done (s, st') -> scoll st' = scoll st.
Proof. unfold resolve_name. intros E. apply bind_inv in E. destruct E as ([? ?] & E1 & E). apply index_coll in E1. injection E as _ <-. auto. Qed.
Lemma condition_coll comp c st t st' : static_condition comp c st = Done (t, st') -> scoll st' = scoll st.
Proof.
  unfold static_condition. destruct (inputs c) as [|o [|a [|b l]]]; try discriminate. intros E. apply bind_inv in E. destruct E as ([ra st1] & E1 & E). apply bind_inv in E. destruct E as ([rb st2] & E2 & E).
  apply aside_coll in E1. apply aside_coll in E2. destruct (strip (rvals ra)) as [|x [|]]; try discriminate. destruct (strip (rvals rb)) as [|y [|]]; try discriminate.
  destruct (_ && _); [|discriminate]. apply bind_inv in E. destruct E as (? & _ & E). injection E as _ <-. congruence.
Qed.
Lemma all_grew comp cs : keeps comp -> forall st rs st', comp_all comp cs st = Done (rs, st') -> sgrew st st'.
Proof.
  intros K. induction cs as [|c cs IH]; cbn [comp_all]; intros st rs st' E; [injection E as _ <-; constructor|]. apply bind_inv in E. destruct E as ([r st1] & E1 & E).
  apply bind_inv in E. destruct E as ([rs2 st2] & E2 & E). injection E as _ <-. eapply sgrew_trans; eauto.
Qed.
Lemma tasks_grew comp ts : keeps comp -> forall st r st', run_tasks comp ts st = Done (r, st') -> sgrew st st'.
Proof.
  intros K. induction ts as [|t ts IH]; cbn [run_tasks]; intros st r st' E; [injection E as _ <-; constructor|]. apply bind_inv in E. destruct E as ([r1 st1] & E1 & E).
  destruct (rflag r1); [injection E as _ <-; eauto|]. eapply sgrew_trans; eauto.
Qed.
Lemma operate_grew st op l r v st' : operate sort hash q st op l r = Done (v, st') -> sgrew st st'.
Proof.
  unfold operate. destruct (String.eqb op "+"); [intros [= _ <-]; constructor|]. destruct (String.eqb op "-"); [destruct (shared r); [discriminate|intros [= _ <-]; constructor]|].
  destruct (String.eqb op "*" && _).
  { destruct l; [intros [= _ <-]; constructor|]. destruct r; [intros [= _ <-]; constructor|]. intros E. apply bind_inv in E. destruct E as (? & _ & E). injection E as _ <-. constructor. }
  intros E. apply bind_inv in E. destruct E as ([c f] & E1 & E). unfold get in E1. destruct (compile_op _ _ _ _ _ _ _) as [[c1 f1]|] eqn:EO; [|discriminate]. injection E1 as -> ->. apply op_grew in EO.
  cbv zeta in E. destruct (String.eqb op "*").
  { destruct (extract_constant _ _ _ _) as [[[? ?] ?]|]; [|discriminate]. apply bind_inv in E. destruct E as (st2 & E2 & E). apply submit_coll in E2. injection E as _ <-. unfold sgrew. rewrite E2. exact EO. }
  destruct (String.eqb op "/" && _); [|injection E as _ <-; exact EO].
  destruct (factor_signature _ _) as [[? ?]|]; [|discriminate]. destruct (factor_signature _ _) as [[? ?]|]; [|discriminate]. apply bind_inv in E. destruct E as (st2 & E2 & E). apply submit_coll in E2. injection E as _ <-. unfold sgrew. rewrite E2. exact EO.
Qed.
Lemma binary_grew comp ins b st r st' : keeps comp -> binary sort hash q comp ins b st = Done (r, st') -> sgrew st st'.
Proof.
  intros K. unfold binary. destruct ins as [|o [|x [|y [|]]]]; try discriminate. destruct (ttyp (output o)); try discriminate. destruct (existsb _ _); [|discriminate]. intros E.
  apply bind_inv in E. destruct E as ([ra st1] & E1 & E). apply bind_inv in E. destruct E as ([rb st2] & E2 & E). apply bind_inv in E. destruct E as ([v st3] & E3 & E). injection E as _ <-.
  apply operate_grew in E3. eapply sgrew_trans; [eapply K; eauto|]. eapply sgrew_trans; [eapply K; eauto|]. auto.
Qed.
Lemma get_done {A} (x : option A) a : get x = Done a -> x = Some a.
Proof. destruct x; cbn; [now intros [= ->]|discriminate]. Qed.

Lemma compile_grew n : forall a, keeps (compile n a).
Proof.
  induction n as [|n IH]; intros a c st r st' E; [discriminate|]. cbn [CircuitModel.compile] in E. cbv zeta in E. pose proof (IH a) as K.
  assert (B : forall ins b, binary sort hash q (compile n a) ins b st = Done (r, st') -> sgrew st st') by (intros ins b; now apply binary_grew).
  destruct (ttyp (output c)); try (exact (B _ _ E)).
  - (* TNumber *) ub E v E1. injection E as _ <-. constructor.
  - (* TIdent *) ub E w E1. destruct w as [[? f]|]; [|discriminate]. ub E ob E2. destruct (fnum ob); [injection E as _ <-; constructor|].
    destruct (finputs ob); [|injection E as _ <-; constructor]. ub E k E3. destruct k as [[? con]|]; [|discriminate]. eapply K; eauto.
  - (* TCall *)
    destruct (String.eqb (ident (output c)) "BREAK"). { up E rs st1 E1. injection E as _ <-. eapply all_grew; eauto. }
    destruct (String.eqb (ident (output c)) "SPLIT").
    { destruct (inputs c) as [|i [|]]; try discriminate. up E r1 st1 E1. destruct (strip (rvals r1)) as [|f [|]]; try discriminate. ub E c' E2. ub E g E3. injection E as _ <-.
      apply get_done in E2. apply split_grew in E2. eapply sgrew_trans; [eapply K; eauto|exact E2]. }
    destruct (String.eqb (ident (output c)) "AND"); [discriminate|].
    destruct (existsb (String.eqb (ident (output c))) ["NAND"; "OR"; "NOT"]); [exact (B _ _ E)|].
    destruct (String.eqb (ident (output c)) "addGateConstraint").
    { destruct (inputs c) as [|x [|y [|]]]; try discriminate. up E ra st1 E1. up E rb st2 E2. up E c' f E3. apply get_done in E3. apply add_gate_grew in E3.
      destruct (extract_constant _ _ _ _) as [[[? ?] ?]|]; [|discriminate]. ub E st3 E4. apply submit_coll in E4. injection E as _ <-.
      eapply sgrew_trans; [eapply K; eauto|]. eapply sgrew_trans; [eapply K; eauto|]. unfold sgrew. rewrite E4. exact E3. }
    destruct (String.eqb (ident (output c)) "scalarBaseMultiply").
    { destruct (inputs c) as [|x [|]]; try discriminate. up E ra st1 E1. up E c' f E3. apply get_done in E3. apply base_grew in E3. ub E st2 E4. apply submit_coll in E4. injection E as _ <-.
      eapply sgrew_trans; [eapply K; eauto|]. unfold sgrew. rewrite E4. exact E3. }
    destruct (String.eqb (ident (output c)) "equal").
    { destruct (inputs c) as [|x [|y [|]]]; try discriminate. up E ra st1 E1. up E rb st2 E2. ub E c' E3. apply get_done in E3. apply equal_grew in E3. ub E st3 E4. apply submit_coll in E4. injection E as _ <-.
      eapply sgrew_trans; [eapply K; eauto|]. eapply sgrew_trans; [eapply K; eauto|]. unfold sgrew. rewrite E4. exact E3. }
    ub E w E1. destruct w as [[? f]|]; [|discriminate]. up E h1 nxt E2. up E rs st2 E3. up E args h2 E4. up E h3 ready E5. apply all_grew in E3; auto. change (sgrew st st2) in E3.
    destruct ready; [|injection E as _ <-; exact E3]. ub E ob E6. ub E ts E7. up E r1 st4 E8. apply tasks_grew in E8; auto. injection E as _ <-. eapply sgrew_trans; [exact E3|exact E8].
  - (* TIfCall *) ub E w E1. destruct w as [[? f]|]; [|discriminate]. ub E ob E2. ub E ts E3. apply tasks_grew in E; auto.
  - (* TOverload *) destruct (inputs c) as [|lhs [|e [|]]]; try discriminate. up E name st1 E1.
    assert (H1 : scoll st1 = scoll st) by (destruct (ttyp (output lhs)); try (injection E1 as _ <-; reflexivity); eapply resolve_coll; eauto).
    up E r2 st2 E2. apply K in E2. assert (H2 : sgrew st st2) by (unfold sgrew in *; now rewrite <- H1). ub E w E3. destruct w as [[o ?]|]; [|discriminate].
    assert (H3 : scoll st' = scoll st2).
    { destruct (strip (rvals r2)); [destruct (rfun r2)|]; [ub E h E4; injection E as _ <-; reflexivity| |]; up E h1 a1 E4; ub E h E5; injection E as _ <-; reflexivity. }
    unfold sgrew. rewrite H3. exact H2.
  - (* TArrCall *) up E name st1 E1. apply resolve_coll in E1. ub E k E2. destruct k as [[? con]|]; [|discriminate]. up E r2 st2 E3. injection E as _ <-. apply K in E3. unfold sgrew in *. now rewrite <- E1.
  - (* TUnassigned *) destruct (inputs c) as [|i [|j l]]; [|eapply K; eauto|exact (B _ _ E)]. ub E ob E1. destruct (lookup _ _); [|discriminate]. eapply K; eauto.
  - (* TArgument *) injection E as _ <-. constructor.
  - (* TIf *) up E go st1 E1. assert (H1 : scoll st1 = scoll st) by (destruct (inputs c); [injection E1 as _ <-; reflexivity|eapply condition_coll; eauto]).
    destruct go; [apply K in E; unfold sgrew in *; now rewrite <- H1|]. injection E as _ <-. unfold sgrew. rewrite H1. constructor.
  - (* TFor *) destruct (inputs c) as [|cond more]; [discriminate|]. up E go st1 E1. apply condition_coll in E1. destruct go; [|injection E as _ <-; unfold sgrew; rewrite E1; constructor].
    up E r2 st2 E2. apply K in E2. assert (H2 : sgrew st st2) by (unfold sgrew in *; now rewrite <- E1). destruct (rflag r2); [injection E as _ <-; exact H2|].
    destruct more as [|next more]; [discriminate|]. up E r3 st3 E3. apply K in E3. apply K in E. eapply sgrew_trans; [exact H2|]. eapply sgrew_trans; eauto.
  - (* TReturn *) destruct (inputs c) as [|i [|j l]]; [injection E as _ <-; constructor| |exact (B _ _ E)]. up E r2 st2 E1. injection E as _ <-. eapply K; eauto.
Qed.
Lemma complete_grew st f st' : complete sort hash st f = Done st' -> sgrew st st'.
Proof.
  unfold complete. intros E. ub E c E1. apply get_done in E1. apply function_grew in E1. cbv zeta in E. unfold sgrew.
  enough (H : scoll st' = c) by (rewrite H; exact E1).
  destruct f as [|x [|y l]]; [injection E as <-; reflexivity|destruct (_ || _); [injection E as <-; reflexivity|]|]; ub E i E2; apply submit_coll in E; exact E.
Qed.
Lemma execute_grew comp ts : keeps comp -> forall st r st', execute_tasks sort hash comp ts st = Done (r, st') -> sgrew st st'.
Proof.
  intros K. induction ts as [|t ts IH]; cbn [execute_tasks]; intros st r st' E; [injection E as _ <-; constructor|]. up E r1 st1 E1. ub E st2 E2. apply complete_grew in E2. apply K in E1.
  assert (H : sgrew st st2) by (eapply sgrew_trans; eauto). destruct (rflag r1); [injection E as _ <-; exact H|]. eapply sgrew_trans; eauto.
Qed.
Lemma program_grew n p r st : run_program sort hash q n p = Done (r, st) -> grew (Coll [] []) (scoll st).
Proof. unfold run_program. intros E. ub E m E1. ub E ob E2. ub E ts E3. apply execute_grew in E; [exact E|apply compile_grew]. Qed.
End S.

(** ** C107.  Compiling a constraint keeps the gates there are, in order and unchanged, and puts new ones after them. *)
Theorem C107_append : forall sort hash q n a c st r st', compile sort hash q n a c st = Done (r, st') -> exists gs, gates (scoll st') = gates (scoll st) ++ gs.
Proof. intros sort hash q n a c st r st' E. apply compile_grew in E. apply grew_gates in E. destruct E as (gs & A & _). eauto. Qed.
Print Assumptions C107_append.
(** So does executing tasks, with the gates that complete their results. *)
Theorem C107_execute : forall sort hash q n a ts st r st', execute_tasks sort hash (compile sort hash q n a) ts st = Done (r, st') -> exists gs, gates (scoll st') = gates (scoll st) ++ gs.
Proof. intros sort hash q n a ts st r st' E. apply execute_grew in E; [|apply compile_grew]. apply grew_gates in E. destruct E as (gs & A & _). eauto. Qed.
Print Assumptions C107_execute.
(** A branch that is not taken, or a loop that is not entered, adds no gate, whatever its condition computes. *)
Theorem C107_condition : forall sort hash q n a x cond l st st', static_condition (compile sort hash q n a) cond st = Done (false, st') ->
  compile sort hash q (S n) a (Con (Tok TIf x) (cond :: l)) st = Done (nothing, st') /\ compile sort hash q (S n) a (Con (Tok TFor x) (cond :: l)) st = Done (nothing, st') /\
  gates (scoll st') = gates (scoll st).
Proof. intros sort hash q n a x cond l st st' E. assert (H := condition_coll _ _ _ _ _ E). cbn [compile output inputs ttyp]. rewrite E. cbn [bind]. rewrite H. auto. Qed.
Print Assumptions C107_condition.
(** No two gates of a program, in one file or several, have one identifier, whatever the hash. *)
Theorem C107_distinct : forall sort hash q n r st, (exists text, compile_text sort hash q n text = Done (r, st)) \/ (exists files text, compile_files sort hash q files n text = Done (r, st)) ->
  NoDup (map gid (gates (scoll st))).
Proof.
  intros sort hash q n r st H. assert (G : grew (Coll [] []) (scoll st)).
  { destruct H as [(text & E)|(files & text & E)].
    - unfold compile_text in E. destruct (lex n text) as [toks| |]; try discriminate. destruct (parse_tokens _) as [[cs|]|]; try discriminate. ub E p E1. eapply program_grew; eauto.
    - unfold compile_files in E. destruct (parse_files _ _ _) as [cs|]; [|discriminate]. ub E p E1. eapply program_grew; eauto. }
  apply grew_gates in G. destruct G as (gs & A & B & D). cbn [gates known app] in *. rewrite A. rewrite app_nil_r in B. apply NoDup_rev in D; [|constructor]. now rewrite B, rev_involutive in D.
Qed.
Print Assumptions C107_distinct.
(** The product x*y, asked for twice, is one gate; the square of it is another. *)
Example C107_case : exists r st, compile_text sort_factors toy_hash 101 1000 "
func main(x,y){
	var a = x*y
	return a*(x*y)
}
" = Done (r, st) /\ List.length (gates (scoll st)) = 2 /\ List.length (strace st) = 3.
Proof. eexists. eexists. split; [vm_compute; reflexivity|]. split; reflexivity. Qed.
(** A condition that computes a product, asks for an equality, and does not hold. *)
Definition C107_text := "
func main(x,y){
	if f(x,y)==2 {
		return x*y
	}
	return x
}
func f(a,b){
	equal(a*b,b)
	return 1
}
".
Example C107_condition_case :
  match build sort_factors toy_hash 101 100 (tree_of 1000 C107_text) with
  | Done p =>
      match map ftasks (pheap p) with
      | [_; _; _; _; _; _; _; Some [t]; _] =>
          match inputs t with
          | cond :: _ => ttyp (output t) = TIf /\ exists st', static_condition (compile sort_factors toy_hash 101 100 7) cond (St (pheap p) (Coll [] []) [] []) = Done (false, st')
          | [] => False
          end
      | _ => False
      end
  | _ => False
  end.
Proof. vm_compute. split; [reflexivity|]. eexists. reflexivity. Qed.

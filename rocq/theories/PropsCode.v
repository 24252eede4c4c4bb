(** What running a program leaves alone: the objects of functions, blocks and variables (circuitcompiler/Programm.go:147-610, circuit.go:357-377). *)
Require Import ZArith Lia Bool Ascii String List.
Require Import Verif.FqModel Verif.FactorModel Verif.LexerModel Verif.ParserModel Verif.CircuitModel Verif.LangSpec Verif.LangHeap Verif.PropsFactor Verif.PropsLang Verif.PropsCircuit.
Import ListNotations.
Local Open Scope string_scope.
Local Open Scope list_scope.
Local Open Scope nat_scope.

(** Spec: every object of h is still there, with its name, value, parameters, context, tasks and constraints, and with the same declared names. *)
Definition kept (h h' : heap) : Prop := forall a o, nth_error h a = Some o -> exists o', nth_error h' a = Some o' /\
  fname o' = fname o /\ fnum o' = fnum o /\ finputs o' = finputs o /\ fctx o' = fctx o /\ ftasks o' = ftasks o /\ fcons o' = fcons o /\ map fst (ffuns o') = map fst (ffuns o).
Lemma kept_refl h : kept h h.
Proof. intros a o H. exists o. auto 10. Qed.
Lemma kept_trans h h1 h2 : kept h h1 -> kept h1 h2 -> kept h h2.
Proof.
  intros A B a o H. destruct (A a o H) as (o1 & N1 & A1 & A2 & A3 & A4 & A5 & A6 & A7). destruct (B a o1 N1) as (o2 & N2 & B1 & B2 & B3 & B4 & B5 & B6 & B7).
  exists o2. repeat split; congruence.
Qed.
Lemma kept_older h h' : older h h' -> kept h h'.
Proof. intros O a o H. exists o. split; [eapply older_nth; eauto|auto 10]. Qed.
Lemma kept_new h h' a o : kept h h' -> List.length h <= a -> kept h (store h' a o).
Proof. intros K L b ob H. assert (b < List.length h) by (apply nth_error_Some; congruence). rewrite nth_store_ne by lia. apply K; auto. Qed.
Lemma kept_length h h' : kept h h' -> List.length h <= List.length h'.
Proof.
  intros K. destruct h as [|x h]; [cbn; lia|]. set (l := x :: h) in *. destruct (nth_error l (List.length h)) as [o|] eqn:E.
  - destruct (K _ _ E) as (o' & N & _). assert (List.length h < List.length h') by (apply nth_error_Some; congruence). cbn. lia.
  - apply nth_error_None in E. cbn in E. lia.
Qed.
Lemma get_done {A} (x : option A) a : get x = Done a -> x = Some a.
Proof. destruct x; cbn; [now intros [= ->]|discriminate]. Qed.
Ltac ub E v E1 := apply bind_inv in E; destruct E as (v & E1 & E).
Ltac up E v w E1 := apply bind_inv in E; destruct E as ([v w] & E1 & E).

Lemma set_new h h1 o x a h2 : kept h h1 -> List.length h <= o -> set_fun h1 o x a = Done h2 -> kept h h2.
Proof. intros K L E. unfold set_fun in E. ub E ob E1. injection E as <-. now apply kept_new. Qed.
Lemma lookup_in {A} x (m : list (string * A)) a : lookup x m = Some a -> In x (keys m).
Proof. induction m as [|[y b] m IH]; cbn; [discriminate|]. destruct (String.eqb_spec x y); auto. Qed.
Lemma set_old h o ob x b a h' : nth_error h o = Some ob -> lookup x (ffuns ob) = Some b -> set_fun h o x a = Done h' -> kept h h'.
Proof.
  intros N X E. unfold set_fun in E. ub E ob1 E1. apply get_done in E1. rewrite N in E1. injection E1 as <-. injection E as <-.
  intros c oc H. destruct (Nat.eq_dec o c) as [<-|D].
  - rewrite N in H. injection H as <-. eexists. split; [apply nth_store_eq, nth_error_Some; congruence|]. cbn [with_funs fname fnum finputs fctx ftasks fcons ffuns]. repeat split.
    apply set_at_keys_old. eapply lookup_in; eauto.
  - exists oc. split; [now rewrite nth_store_ne|auto 10].
Qed.
Lemma find_in_at h x n : forall cur o v, find_in n ffuns h cur x = Done (Some (o, v)) -> exists ob, nth_error h o = Some ob /\ lookup x (ffuns ob) = Some v.
Proof.
  induction n as [|n IH]; intros [a|] o v; cbn [find_in]; try discriminate. intros E. ub E ob E1. apply get_done in E1. destruct (lookup x (ffuns ob)) as [w|] eqn:L; [|eauto].
  injection E as <- <-. eauto.
Qed.
Lemma copy_older n : forall h a ctx h' c, flat_copy_in n h a ctx = Done (h', c) -> older h h' /\ c = List.length h.
Proof.
  induction n as [|n IH]; intros h a ctx h' c E; [discriminate|]. cbn [flat_copy_in] in E. ub E ob E1. unfold alloc in E.
  up E h2 m E2. ub E t E3. injection E as <- <-. split; auto. apply older_store; [|lia].
  assert (F : forall m0 h0 r m1 k, copy_funs (flat_copy_in n) h0 k m0 = Done (r, m1) -> older h0 r).
  { induction m0 as [|[y v] m0 IHm]; cbn [copy_funs]; intros h0 r m1 k E; [injection E as <- _; apply older_refl|]. up E h3 v' E4. up E h4 m2 E5. injection E as <- _. apply IH in E4. destruct E4 as [E4 _].
    apply IHm in E5. eapply older_trans; eauto. }
  apply F in E2. eapply older_trans; [apply older_app|exact E2].
Qed.
Lemma copied h n a h' c : flat_copy n h a = Done (h', c) -> older h h' /\ c = List.length h.
Proof. unfold flat_copy. intros E. ub E ob E1. eapply copy_older; eauto. Qed.
Lemma load_new h a new : forall names h1 h2 rest, kept h h1 -> List.length h <= a -> load_inputs h1 a names new = Done (h2, rest) -> kept h h2.
Proof.
  induction new as [|v new IH]; intros names h1 h2 rest K L E; [destruct names; injection E as <- _; auto|]. destruct names as [|x names]; [discriminate|]. cbn [load_inputs] in E.
  ub E h3 E1. eapply IH; [|exact L|exact E]. eapply set_new; eauto.
Qed.
Lemma loaded_new h h1 a new h2 b : kept h h1 -> List.length h <= a -> gets_loaded_with h1 a new = Done (h2, b) -> kept h h2.
Proof.
  intros K L E. unfold gets_loaded_with in E. ub E ob E1. destruct (Nat.ltb _ _); [discriminate|]. up E h3 names E2. ub E ob1 E3. injection E as <- _. apply kept_new; auto. eapply load_new; eauto.
Qed.
Lemma function_older q f : forall h h' a, factors_function q h f = Done (h', a) -> older h h'.
Proof.
  induction f as [|x f IH]; intros h h' a E; cbn [factors_function] in E; [injection E as <- _; apply older_app|].
  destruct f as [|y f]; [injection E as <- _; apply older_app|]. unfold alloc at 1 in E. up E h2 b E1. apply IH in E1. unfold combine_functions in E. ub E oa E2. ub E ob E3.
  eapply older_trans; [apply older_app|]. eapply older_trans; [exact E1|]. destruct (fnum oa), (fnum ob); injection E as <- _; apply older_app.
Qed.
Lemma arguments_older q rs : forall h l h', argument_functions q rs h = Done (l, h') -> older h h'.
Proof.
  induction rs as [|r rs IH]; intros h l h' E; cbn [argument_functions] in E; [injection E as _ <-; apply older_refl|]. up E h1 a E1. up E l2 h2 E2. injection E as _ <-. apply IH in E2.
  eapply older_trans; [|exact E2]. destruct (strip (rvals r)); [destruct (rfun r); [injection E1 as <- _; apply older_refl|]|]; eapply function_older; eauto.
Qed.

Section S.
Variable sort : factors -> factors.
Variable hash : string -> Z.
Variable q : Z.
Notation compile := (compile sort hash q).
Definition skept (st st' : state) : Prop := kept (sheap st) (sheap st').
Definition keeps (comp : ctree -> state -> res (ret * state)) : Prop := forall c st r st', comp c st = Done (r, st') -> skept st st'.
Lemma skept_trans a b c : skept a b -> skept b c -> skept a c. Proof. apply kept_trans. Qed.
Lemma skept_refl a : skept a a. Proof. apply kept_refl. Qed.
Lemma submit_heap st g st' : submit st g = Done st' -> sheap st' = sheap st.
Proof. unfold submit. destruct g; cbn; [|discriminate]. now intros [= <-]. Qed.
Lemma aside_kept comp c st r st' : keeps comp -> aside comp c st = Done (r, st') -> skept st st'.
Proof. intros K. unfold aside. intros E. up E r1 st1 E1. apply K in E1. injection E as _ <-. exact E1. Qed.
Lemma index_kept comp ins : keeps comp -> forall st s st', index_names comp ins st = Done (s, st') -> skept st st'.
Proof.
  intros K. induction ins as [|i ins IH]; cbn [index_names]; intros st s st' E; [injection E as _ <-; apply skept_refl|]. up E r st1 E1. apply aside_kept in E1; auto.
  destruct (strip _) as [|f [|]]; try discriminate. destruct (is_number f); [|discriminate]. ub E z E2. up E s2 st2 E3. apply IH in E3. injection E as _ <-. eapply skept_trans; eauto.
Qed.
Lemma resolve_kept comp c st s st' : keeps comp -> resolve_name comp c st = Done (s, st') -> skept st st'.
Proof. intros K. unfold resolve_name. intros E. up E s1 st1 E1. apply index_kept in E1; auto. injection E as _ <-. auto. Qed.
Lemma condition_kept comp c st t st' : keeps comp -> static_condition comp c st = Done (t, st') -> skept st st'.
Proof.
  intros K. unfold static_condition. destruct (inputs c) as [|o [|a [|b l]]]; try discriminate. intros E. up E ra st1 E1. up E rb st2 E2. apply aside_kept in E1; auto. apply aside_kept in E2; auto.
  destruct (strip (rvals ra)) as [|x [|]]; try discriminate. destruct (strip (rvals rb)) as [|y [|]]; try discriminate. destruct (_ && _); [|discriminate]. ub E t1 E3. injection E as _ <-. eapply skept_trans; eauto.
Qed.
Lemma all_kept comp cs : keeps comp -> forall st rs st', comp_all comp cs st = Done (rs, st') -> skept st st'.
Proof. intros K. induction cs as [|c cs IH]; cbn [comp_all]; intros st rs st' E; [injection E as _ <-; apply skept_refl|]. up E r st1 E1. up E rs2 st2 E2. injection E as _ <-. eapply skept_trans; eauto. Qed.
Lemma tasks_kept comp ts : keeps comp -> forall st r st', run_tasks comp ts st = Done (r, st') -> skept st st'.
Proof.
  intros K. induction ts as [|t ts IH]; cbn [run_tasks]; intros st r st' E; [injection E as _ <-; apply skept_refl|]. up E r1 st1 E1.
  destruct (rflag r1); [injection E as _ <-; eauto|]. eapply skept_trans; eauto.
Qed.
Lemma operate_heap st op l r v st' : operate sort hash q st op l r = Done (v, st') -> sheap st' = sheap st.
Proof.
  unfold operate. destruct (String.eqb op "+"); [now intros [= _ <-]|]. destruct (String.eqb op "-"); [destruct (shared r); [discriminate|now intros [= _ <-]]|].
  destruct (String.eqb op "*" && _). { destruct l; [now intros [= _ <-]|]. destruct r; [now intros [= _ <-]|]. intros E. ub E f E1. injection E as _ <-. reflexivity. }
  intros E. up E c f E1. cbv zeta in E. destruct (String.eqb op "*").
  { destruct (extract_constant _ _ _ _) as [[[? ?] ?]|]; [|discriminate]. ub E st2 E2. apply submit_heap in E2. injection E as _ <-. exact E2. }
  destruct (String.eqb op "/" && _); [|injection E as _ <-; reflexivity].
  destruct (factor_signature _ _) as [[? ?]|]; [|discriminate]. destruct (factor_signature _ _) as [[? ?]|]; [|discriminate]. ub E st2 E2. apply submit_heap in E2. injection E as _ <-. exact E2.
Qed.
Lemma binary_kept comp ins b st r st' : keeps comp -> binary sort hash q comp ins b st = Done (r, st') -> skept st st'.
Proof.
  intros K. unfold binary. destruct ins as [|o [|x [|y [|]]]]; try discriminate. destruct (ttyp (output o)); try discriminate. destruct (existsb _ _); [|discriminate]. intros E.
  up E ra st1 E1. up E rb st2 E2. up E v st3 E3. injection E as _ <-. apply operate_heap in E3. apply K in E1. apply K in E2. unfold skept in *. rewrite E3. eapply kept_trans; eauto.
Qed.

Lemma compile_kept n : forall a, keeps (compile n a).
Proof.
  induction n as [|n IH]; intros a c st r st' E; [discriminate|]. cbn [CircuitModel.compile] in E. cbv zeta in E. pose proof (IH a) as K.
  assert (B : forall ins b, binary sort hash q (compile n a) ins b st = Done (r, st') -> skept st st') by (intros ins b; now apply binary_kept).
  destruct (ttyp (output c)); try (exact (B _ _ E)).
  - (* TNumber *) ub E v E1. injection E as _ <-. apply skept_refl.
  - (* TIdent *) ub E w E1. destruct w as [[? f]|]; [|discriminate]. ub E ob E2. destruct (fnum ob); [injection E as _ <-; apply skept_refl|].
    destruct (finputs ob); [|injection E as _ <-; apply skept_refl]. ub E k E3. destruct k as [[? con]|]; [|discriminate]. eapply K; eauto.
  - (* TCall *)
    destruct (String.eqb (ident (output c)) "BREAK"). { up E rs st1 E1. injection E as _ <-. eapply all_kept; eauto. }
    destruct (String.eqb (ident (output c)) "SPLIT").
    { destruct (inputs c) as [|i [|]]; try discriminate. up E r1 st1 E1. destruct (strip (rvals r1)) as [|f [|]]; try discriminate. ub E c' E2. ub E g E3. injection E as _ <-. apply K in E1. exact E1. }
    destruct (String.eqb (ident (output c)) "AND"); [discriminate|].
    destruct (existsb (String.eqb (ident (output c))) ["NAND"; "OR"; "NOT"]); [exact (B _ _ E)|].
    destruct (String.eqb (ident (output c)) "addGateConstraint").
    { destruct (inputs c) as [|x [|y [|]]]; try discriminate. up E ra st1 E1. up E rb st2 E2. up E c' f E3.
      destruct (extract_constant _ _ _ _) as [[[? ?] ?]|]; [|discriminate]. ub E st3 E4. apply submit_heap in E4. injection E as _ <-. apply K in E1. apply K in E2. unfold skept in *. rewrite E4. eapply kept_trans; eauto. }
    destruct (String.eqb (ident (output c)) "scalarBaseMultiply").
    { destruct (inputs c) as [|x [|]]; try discriminate. up E ra st1 E1. up E c' f E3. ub E st2 E4. apply submit_heap in E4. injection E as _ <-. apply K in E1. unfold skept in *. rewrite E4. exact E1. }
    destruct (String.eqb (ident (output c)) "equal").
    { destruct (inputs c) as [|x [|y [|]]]; try discriminate. up E ra st1 E1. up E rb st2 E2. ub E c' E3. ub E st3 E4. apply submit_heap in E4. injection E as _ <-. apply K in E1. apply K in E2. unfold skept in *. rewrite E4. eapply kept_trans; eauto. }
    ub E w E1. destruct w as [[? f]|]; [|discriminate]. up E h1 nxt E2. up E rs st2 E3. up E args h2 E4. up E h3 ready E5. apply all_kept in E3; auto. apply copied in E2. destruct E2 as [O ->]. apply arguments_older in E4.
    assert (H2 : kept (sheap st) h2) by (eapply kept_trans; [apply kept_older, O|]; eapply kept_trans; [exact E3|apply kept_older, E4]).
    assert (H3 : kept (sheap st) h3) by (eapply loaded_new; [exact H2| |exact E5]; lia).
    destruct ready; [|injection E as _ <-; exact H3]. ub E ob E6. ub E ts E7. up E r1 st4 E8. apply tasks_kept in E8; auto. injection E as _ <-. eapply kept_trans; [exact H3|exact E8].
  - (* TIfCall *) ub E w E1. destruct w as [[? f]|]; [|discriminate]. ub E ob E2. ub E ts E3. apply tasks_kept in E; auto.
  - (* TOverload *) destruct (inputs c) as [|lhs [|e [|]]]; try discriminate. up E name st1 E1.
    assert (H1 : skept st st1) by (destruct (ttyp (output lhs)); try (injection E1 as _ <-; apply skept_refl); eapply resolve_kept; eauto).
    up E r2 st2 E2. apply K in E2. assert (H2 : skept st st2) by (eapply skept_trans; eauto). ub E w E3. destruct w as [[o v]|]; [|discriminate]. apply find_in_at in E3. destruct E3 as (ob & N & X).
    eapply skept_trans; [exact H2|]. unfold skept.
    assert (F : forall f h1 a1 h, factors_function q (sheap st2) f = Done (h1, a1) -> set_fun h1 o name a1 = Done h -> kept (sheap st2) h).
    { intros f h1 a1 h F1 F2. apply function_older in F1. eapply kept_trans; [apply kept_older, F1|]. eapply set_old; [eapply older_nth; eauto|exact X|exact F2]. }
    destruct (strip (rvals r2)); [destruct (rfun r2)|]; [ub E h E4; injection E as _ <-; eapply set_old; eauto| |]; up E h1 a1 E4; ub E h E5; injection E as _ <-; eapply F; eauto.
  - (* TArrCall *) up E name st1 E1. apply resolve_kept in E1; auto. ub E k E2. destruct k as [[? con]|]; [|discriminate]. up E r2 st2 E3. injection E as _ <-. apply K in E3. eapply skept_trans; eauto.
  - (* TUnassigned *) destruct (inputs c) as [|i [|j l]]; [|eapply K; eauto|exact (B _ _ E)]. ub E ob E1. destruct (lookup _ _); [|discriminate]. eapply K; eauto.
  - (* TArgument *) injection E as _ <-. apply skept_refl.
  - (* TIf *) up E go st1 E1. assert (H1 : skept st st1) by (destruct (inputs c); [injection E1 as _ <-; apply skept_refl|eapply condition_kept; eauto]).
    destruct go; [apply K in E; eapply skept_trans; eauto|]. injection E as _ <-. exact H1.
  - (* TFor *) destruct (inputs c) as [|cond more]; [discriminate|]. up E go st1 E1. apply condition_kept in E1; auto. destruct go; [|injection E as _ <-; exact E1].
    up E r2 st2 E2. apply K in E2. assert (H2 : skept st st2) by (eapply skept_trans; eauto). destruct (rflag r2); [injection E as _ <-; exact H2|].
    destruct more as [|next more]; [discriminate|]. up E r3 st3 E3. apply K in E3. apply K in E. eapply skept_trans; [exact H2|]. eapply skept_trans; eauto.
  - (* TReturn *) destruct (inputs c) as [|i [|j l]]; [injection E as _ <-; apply skept_refl| |exact (B _ _ E)]. up E r2 st2 E1. injection E as _ <-. eapply K; eauto.
Qed.
Lemma complete_heap st f st' : complete sort hash st f = Done st' -> sheap st' = sheap st.
Proof.
  unfold complete. intros E. ub E c E1. cbv zeta in E.
  destruct f as [|x [|y l]]; [injection E as <-; reflexivity|destruct (_ || _); [injection E as <-; reflexivity|]|]; ub E i E2; apply submit_heap in E; exact E.
Qed.
Lemma execute_kept comp ts : keeps comp -> forall st r st', execute_tasks sort hash comp ts st = Done (r, st') -> skept st st'.
Proof.
  intros K. induction ts as [|t ts IH]; cbn [execute_tasks]; intros st r st' E; [injection E as _ <-; apply skept_refl|]. up E r1 st1 E1. ub E st2 E2. apply complete_heap in E2. apply K in E1.
  assert (H : skept st st2) by (unfold skept in *; now rewrite E2). destruct (rflag r1); [injection E as _ <-; exact H|]. eapply skept_trans; eauto.
Qed.
End S.

(** ** C108.  Compiling a constraint leaves every object as it was, but for the objects its declared names stand for. *)
Theorem C108_kept : forall sort hash q n a c st r st', compile sort hash q n a c st = Done (r, st') -> kept (sheap st) (sheap st').
Proof. intros sort hash q n a. exact (compile_kept sort hash q n a). Qed.
Print Assumptions C108_kept.
(** So does a whole program, started from what Parse built. *)
Theorem C108_program : forall sort hash q n p r st, run_program sort hash q n p = Done (r, st) -> kept (pheap p) (sheap st).
Proof. intros sort hash q n p r st E. unfold run_program in E. ub E m E1. ub E ob E2. ub E ts E3. apply execute_kept in E; [exact E|apply compile_kept]. Qed.
Print Assumptions C108_program.
(** The program of C77 assigns to k: the object of main is not the one it was, and stands for main as before. *)
Example C108_case :
  match build sort_factors toy_hash 101 100 (tree_of 1000 C77_text) with
  | Done p => match run_program sort_factors toy_hash 101 100 p with
              | Done (_, st) => nth_error (sheap st) 1 <> nth_error (pheap p) 1 /\ List.length (pheap p) < List.length (sheap st) /\
                  option_map ftasks (nth_error (sheap st) 1) = option_map ftasks (nth_error (pheap p) 1)
              | _ => False
              end
  | _ => False
  end.
Proof. vm_compute. split; [discriminate|]. split; [|reflexivity]. repeat constructor. Qed.

(** Steps of the interpreter: operations on factors, reading a value, and the meaning of a program over
    factor lists, which the proofs use between the compiler and the field. *)
Require Import ZArith Lia Bool DecimalString DecimalFacts DecimalPos DecimalZ Ascii String List.
Require Import Verif.Cong Verif.FqModel Verif.FactorModel Verif.SplitProofs Verif.ExprModel Verif.ParserModel Verif.CircuitModel Verif.LangSpec Verif.LangHeap.
Import ListNotations.
Local Open Scope string_scope.
Local Open Scope list_scope.
Local Open Scope nat_scope.

Lemma store_same h a o : nth_error h a = Some o -> store h a o = h.
Proof. revert a. induction h as [|x h IH]; intros [|a] H; cbn in *; try discriminate; [now injection H as ->|]. f_equal. auto. Qed.
Lemma with_inputs_nil o : finputs o = [] -> with_inputs o [] = o.
Proof. destruct o; cbn; now intros ->. Qed.
Lemma reserved_not_number x z : set_string10 x = Some z -> ~ In x reserved /\ x <> "".
Proof.
  intros H. split; [|now intros ->].
  intros I. cbn [reserved In] in I.
  repeat (destruct I as [<-|I]; [vm_compute in H; discriminate|]). destruct I.
Qed.
Lemma strip_plain f : strip (plain f) = f.
Proof. unfold strip, plain. rewrite map_map, map_id. reflexivity. Qed.

(** Reading back what big.Int.String writes. *)
Fixpoint uval (d : Decimal.uint) (acc : Z) : Z :=
  match d with
  | Decimal.Nil => acc
  | Decimal.D0 d => uval d (acc * 10 + 0) | Decimal.D1 d => uval d (acc * 10 + 1) | Decimal.D2 d => uval d (acc * 10 + 2)
  | Decimal.D3 d => uval d (acc * 10 + 3) | Decimal.D4 d => uval d (acc * 10 + 4) | Decimal.D5 d => uval d (acc * 10 + 5)
  | Decimal.D6 d => uval d (acc * 10 + 6) | Decimal.D7 d => uval d (acc * 10 + 7) | Decimal.D8 d => uval d (acc * 10 + 8)
  | Decimal.D9 d => uval d (acc * 10 + 9)
  end%Z.
Lemma digits_uval d : forall acc, digits_val (NilEmpty.string_of_uint d) acc = Some (uval d acc).
Proof. induction d; intros acc; cbn [NilEmpty.string_of_uint digits_val uval]; [reflexivity|..]; apply IHd. Qed.
Lemma uval_acc d : forall p, uval d (Zpos p) = Zpos (Pos.of_uint_acc d p).
Proof. induction d; intros p; cbn [uval Pos.of_uint_acc]; [reflexivity|..]; rewrite <- IHd; f_equal; lia. Qed.
Lemma uval_0 d : uval d 0 = Z.of_uint d.
Proof. unfold Z.of_uint. induction d; cbn [uval Pos.of_uint]; [reflexivity|exact IHd|..]; apply (uval_acc d). Qed.
Lemma set_string_dec z : set_string10 (dec z) = Some z.
Proof.
  assert (U : forall d, d <> Decimal.Nil -> nonempty_digits (NilZero.string_of_uint d) = Some (Z.of_uint d)).
  { intros d N. rewrite <- uval_0, <- digits_uval. destruct d; [easy|..]; reflexivity. }
  unfold dec. destruct (to_int_nonnil z) as [A B]. rewrite <- (DecimalZ.of_to z) at 2.
  destruct (Z.to_int z) as [d|d]; cbn [NilZero.string_of_int Z.of_int].
  - rewrite <- U by (intros ->; now apply A). destruct d; [easy|..]; reflexivity.
  - cbn [set_string10]. rewrite U by (intros ->; now apply B). reflexivity.
Qed.

Section P.
Variable sort : factors -> factors.
Variable hash : string -> Z.
Variable q : Z.
Notation compile := (compile sort hash q).
Notation operate := (operate sort hash q).
Notation complete := (complete sort hash).

(** ** One step of compile *)
Definition user_call (n cur : nat) (x : string) (ins : list ctree) (st : state) : res (ret * state) :=
  w <- find_fun (sheap st) cur x ;;
  match w with
  | None => Panic
  | Some (_, a) =>
      '(h1, nxt) <- flat_copy n (sheap st) a ;;
      '(rs, st2) <- comp_all (compile n cur) ins (with_heap st h1) ;;
      '(args, h2) <- argument_functions q rs (sheap st2) ;;
      '(h3, ready) <- gets_loaded_with h2 nxt args ;;
      let st3 := stored (with_heap st2 h3) (map (fun r => strip (rvals r)) rs) in
      if ready then
        ob <- fetch h3 nxt ;; ts <- get (ftasks ob) ;;
        '(r, st4) <- run_tasks (compile n nxt) ts st3 ;; Done (Ret (rvals r) false (rfun r), st4)
      else Done (Ret [] false (Some nxt), st3)
  end.
Lemma step_call n cur x ins st : ~ In x reserved -> compile (S n) cur (Con (Tok TCall x) ins) st = user_call n cur x ins st.
Proof.
  intros N. cbn [CircuitModel.compile output ttyp ident inputs existsb].
  assert (E : forall y, In y reserved -> String.eqb x y = false).
  { intros y I. apply String.eqb_neq. now intros ->. }
  rewrite (E "BREAK"), (E "SPLIT"), (E "AND"), (E "NAND"), (E "OR"), (E "NOT"), (E "addGateConstraint"), (E "scalarBaseMultiply"), (E "equal")
    by (cbn; tauto). reflexivity.
Qed.
Lemma step_number n cur x ins st : compile (S n) cur (Con (Tok TNumber x) ins) st =
  (v <- get (string_to_field q x) ;; Done (Ret [(Fac (Tok TNumber x) (fst v), false)] false None, st)).
Proof. reflexivity. Qed.
Lemma step_argument n cur x ins st : compile (S n) cur (Con (Tok TArgument x) ins) st = Done (Ret (plain (wire x 1)) false None, st).
Proof. reflexivity. Qed.
Lemma step_return n cur s c st : compile (S n) cur (Con (Tok TReturn s) [c]) st =
  ('(r, st1) <- compile n cur c st ;; Done (Ret (rvals r) true (rfun r), st1)).
Proof. reflexivity. Qed.
Lemma step_return3 n cur s o l a b st : In o ["+"; "-"; "*"; "/"] -> compile (S n) cur (Con (Tok TReturn s) [Con (Tok TArith o) l; a; b]) st =
  ('(ra, st1) <- compile n cur a st ;; '(rb, st2) <- compile n cur b st1 ;;
   '(v, st3) <- operate st2 o (rvals ra) (rvals rb) ;; Done (Ret v true None, st3)).
Proof.
  intros I. cbn [CircuitModel.compile output ttyp ident inputs binary].
  assert (E : existsb (String.eqb o) ["*"; "/"; "+"; "-"] = true).
  { apply existsb_exists. exists o. rewrite String.eqb_refl. split; auto. cbn in *. tauto. }
  rewrite E. reflexivity.
Qed.
Lemma step_bin n cur s o l a b st : In o ["+"; "-"; "*"; "/"] -> compile (S n) cur (Con (Tok TUnassigned s) [Con (Tok TArith o) l; a; b]) st =
  ('(ra, st1) <- compile n cur a st ;; '(rb, st2) <- compile n cur b st1 ;;
   '(v, st3) <- operate st2 o (rvals ra) (rvals rb) ;; Done (Ret v false None, st3)).
Proof.
  intros I. cbn [CircuitModel.compile output ttyp ident inputs binary].
  assert (E : existsb (String.eqb o) ["*"; "/"; "+"; "-"] = true).
  { apply existsb_exists. exists o. rewrite String.eqb_refl. split; auto. cbn in *. tauto. }
  rewrite E. reflexivity.
Qed.
Lemma step_wrap n cur s c st : compile (S n) cur (Con (Tok TUnassigned s) [c]) st = compile n cur c st.
Proof. reflexivity. Qed.
Lemma step_base n cur a st : compile (S n) cur (Con (Tok TCall "scalarBaseMultiply") [a]) st =
  ('(ra, st1) <- compile n cur a st ;;
   '(c', f) <- get (compile_base sort hash (scoll st1) (strip (rvals ra))) ;;
   st2 <- submit (with_coll st1 c') (with_id sort hash (Gate GBase "" [] [] (strip (rvals ra)) [] false no_token)) ;;
   Done (Ret (map (fun y => (y, true)) f) false None, st2)).
Proof. reflexivity. Qed.
Lemma step_equal n cur a b st : compile (S n) cur (Con (Tok TCall "equal") [a; b]) st =
  ('(ra, st1) <- compile n cur a st ;; '(rb, st2) <- compile n cur b st1 ;;
   c' <- get (compile_equal sort hash (scoll st2) (strip (rvals ra)) (strip (rvals rb))) ;;
   st3 <- submit (with_coll st2 c') (with_id sort hash (Gate GEqual "" (strip (rvals ra)) (strip (rvals rb)) [] [] true no_token)) ;;
   Done (nothing, st3)).
Proof. reflexivity. Qed.

Lemma step_index n cur a cs st : compile (S n) cur (Con (Tok TArrCall a) cs) st =
  ('(name, st1) <- resolve_name (compile n cur) (Con (Tok TArrCall a) cs) st ;;
   k <- find_con (sheap st1) cur name ;;
   match k with
   | Some (_, con) => '(r, st2) <- compile n cur con st1 ;; Done (Ret (rvals r) false (rfun r), st2)
   | None => Panic
   end).
Proof. reflexivity. Qed.

(** ** Values the compiler handles *)
Definition fac_ok (x : factor) : Prop :=
  (ttyp (ftok x) = TNumber /\ exists z, set_string10 (ident (ftok x)) = Some z /\ z mod q = mult x mod q)%Z \/
  (ttyp (ftok x) = TArgument /\ ident (ftok x) <> "" /\ ~ In (ident (ftok x)) reserved).
Definition good (f : factors) : Prop := f <> [] /\ Forall fac_ok f /\ (List.length (filter is_number f) <= 1)%nat.
Lemma fac_ok_name x : fac_ok x -> ident (ftok x) <> "" /\ ~ In (ident (ftok x)) reserved.
Proof. intros [[_ (z & H & _)]|[_ H]]; auto. apply reserved_not_number in H. tauto. Qed.

(** What reading a stored value gives. *)
Definition reread (x : factor) : option factors :=
  if is_number x then match string_to_field q (ident (ftok x)) with
                      | Some (z, _) => Some [Fac (Tok TNumber (ident (ftok x))) z]
                      | None => None
                      end
  else if (mult x =? 1)%Z then Some (wire (ident (ftok x)) 1)
  else Some [Fac (Tok TArgument (ident (ftok x))) (fmul q 1 (mult x mod q))].
Fixpoint reload (f : factors) : option factors :=
  match f with
  | [] => None
  | [x] => reread x
  | x :: f' => match reread x, reload f' with Some a, Some b => Some (add_factors q a b) | _, _ => None end
  end.
Definition read_as (u v : factors) : Prop :=
  if is_single_number u then match u with x :: _ => v = [Fac (Tok TNumber (ident (ftok x))) (mult x)] | [] => False end
  else reload u = Some v.

Lemma add_loop_m_plain l r : add_loop_m q (plain l) (plain r) = (plain (fst (add_loop q l r)), plain (snd (add_loop q l r))).
Proof.
  assert (I : forall x r, add_into_m q x (plain r) = option_map plain (add_into q x r)).
  { intros x. induction r0 as [|y r0 IH]; cbn; auto. destruct (add_factor q x y); cbn; auto. fold (plain r0). rewrite IH. destruct (add_into q x r0); auto. }
  revert r. induction l as [|x l IH]; intros r; cbn; auto. fold (plain l). rewrite I. destruct (add_into q x r) as [r'|]; cbn; auto.
  rewrite IH. destruct (add_loop q l r); auto.
Qed.
Lemma add_factors_plain l r : add_factors_m q (plain l) (plain r) = plain (add_factors q l r).
Proof.
  unfold add_factors_m, add_factors. rewrite add_loop_m_plain. destruct (add_loop q l r) as [a b]. cbn [fst snd].
  assert (F : forall b, filter (fun f => negb (mult (fst f) =? 0)%Z) (plain b) = plain (filter (fun f => negb (mult f =? 0)%Z) b)).
  { induction b0 as [|x b0 IH]; cbn; auto. fold (plain b0). rewrite IH. destruct (negb _); reflexivity. }
  rewrite F. unfold plain. rewrite <- map_app. destruct (a ++ _); reflexivity.
Qed.
Lemma strip_add l r : strip (add_factors_m q l r) = add_factors q (strip l) (strip r).
Proof.
  assert (I : forall x r, option_map strip (add_into_m q x r) = add_into q x (strip r)).
  { intros x. induction r0 as [|[y m] r0 IH]; cbn; auto. destruct (add_factor q x y); cbn; auto. fold (strip r0). rewrite <- IH. destruct (add_into_m q x r0); auto. }
  assert (A : forall l r, let '(a, b) := add_loop_m q l r in add_loop q (strip l) (strip r) = (strip a, strip b)).
  { induction l0 as [|[x m] l0 IH]; intros r0; cbn; auto. fold (strip l0). rewrite <- I. destruct (add_into_m q x r0) as [r'|]; cbn; [apply IH|].
    specialize (IH r0). destruct (add_loop_m q l0 r0) as [a b]. rewrite IH. reflexivity. }
  unfold add_factors_m, add_factors. specialize (A l r). destruct (add_loop_m q l r) as [a b]. rewrite A.
  assert (F : forall b, strip (filter (fun f => negb (mult (fst f) =? 0)%Z) b) = filter (fun f => negb (mult f =? 0)%Z) (strip b)).
  { induction b0 as [|[x m] b0 IH]; cbn; auto. fold (strip b0). rewrite <- IH. destruct (negb _); reflexivity. }
  rewrite <- F. assert (M : forall u v : vals, strip u ++ strip v = strip (u ++ v)) by (intros; unfold strip; now rewrite map_app).
  rewrite M. destruct (a ++ _); reflexivity.
Qed.

(** ** Running a value object *)
Definition same_record (st st' : state) : Prop := scoll st' = scoll st /\ strace st' = strace st /\ sstored st' = sstored st.
Lemma find_fun_here h a o x b w : nth_error h a = Some o -> lookup x (ffuns o) = Some b -> find_fun h a x = Done w -> w = Some (a, b).
Proof. intros N L. unfold find_fun. cbn [find_in]. unfold fetch. rewrite N. cbn. rewrite L. intros [= <-]. reflexivity. Qed.

Definition runs (f : factors) : Prop := forall n h a o ts st r st', vobj 0 h a f -> sheap st = h -> nth_error h a = Some o ->
  ftasks o = Some ts -> run_tasks (compile n a) ts st = Done (r, st') ->
  exists f', reload f = Some f' /\ rvals r = plain f' /\ older h (sheap st') /\ same_record st st'.
Lemma call_vobj f : runs f -> forall n cur x a b st r st', ~ In x reserved -> find_fun (sheap st) cur x = Done (Some (b, a)) ->
  vobj 0 (sheap st) a f -> compile n cur (call_of x) st = Done (r, st') ->
  exists f', reload f = Some f' /\ rvals r = plain f' /\ rflag r = false /\ older (sheap st) (sheap st') /\ same_record st st'.
Proof.
  intros R [|n] cur x a b st r st' N F V E; [discriminate|]. unfold call_of, leaf in E. rewrite step_call in E by auto.
  unfold user_call in E. rewrite F in E. cbn [bind] in E. apply bind_inv in E. destruct E as ([h1 c] & Ec & E).
  unfold flat_copy in Ec. apply bind_inv in Ec. destruct Ec as (ob & Eo & Ec).
  destruct (flat_copy_vobj _ _ _ _ V _ _ _ _ _ (older_refl _) Ec) as (O & -> & V1 & o & No & _).
  cbn [comp_all bind argument_functions with_heap sheap] in E.
  destruct (vobj_name _ _ _ _ _ V1 No) as (_ & Fi & _).
  apply bind_inv in E. destruct E as ([h3 ready] & Eg & E). unfold gets_loaded_with in Eg.
  unfold fetch in Eg. rewrite No in Eg. cbn [get bind List.length Nat.ltb Nat.leb load_inputs] in Eg. rewrite Fi in Eg.
  cbn [get bind List.length Nat.eqb load_inputs] in Eg. rewrite No in Eg. cbn [get bind] in Eg. rewrite with_inputs_nil in Eg by auto. rewrite store_same in Eg by auto.
  injection Eg as <- <-. apply bind_inv in E. destruct E as (ob' & Eo' & E). apply fetch_inv in Eo'. rewrite No in Eo'. injection Eo' as <-.
  apply bind_inv in E. destruct E as (ts & Et & E). apply get_inv in Et. apply bind_inv in E. destruct E as ([r1 st1] & Er & E).
  injection E as <- <-.
  destruct (R n h1 (List.length (sheap st)) o ts (stored (with_heap (with_heap st h1) h1) []) r1 st1) as (f' & Rf & Rv & O2 & S1); auto.
  { eapply vobj_le; [|exact V1]. lia. }
  exists f'. cbn [rvals rflag]. repeat split; auto; try (eapply older_trans; eauto); destruct S1 as (S1 & S2 & S3); auto.
  rewrite S3. cbn. now rewrite app_nil_r.
Qed.
Lemma runs_one x : fac_ok x -> runs [x].
Proof.
  intros Gx n h a o ts st r st' V Eh N Et E.
  inversion V as [? ? o' _ No _ _ _ _ T|]; subst a0 x0. rewrite N in No. injection No as <-. rewrite Et in T.
  revert T E. unfold factor_function. unfold reload, reread.
  destruct Gx as [[Tn (z & Sz & _)]|[Ta [Ne Nr]]].
  + assert (In1 : is_number x = true) by (unfold is_number; now rewrite Tn). rewrite In1. cbn [ftasks token_function with_tasks].
    destruct x as [[tt i] m]; cbn [ftok ttyp ident] in *. subst tt. intros [= ->] E. cbn [run_tasks] in E.
    apply bind_inv in E. destruct E as ([r1 st1] & E1 & E). destruct n as [|n]; [discriminate|]. unfold ret_of in E1. rewrite step_return in E1.
    apply bind_inv in E1. destruct E1 as ([r2 st2] & E2 & E1). destruct n as [|n]; [discriminate|]. unfold leaf in E2. rewrite step_number in E2.
    unfold string_to_field in E2 |- *. rewrite Sz in E2 |- *. cbn in E2. injection E2 as <- <-. injection E1 as <- <-. cbn in E. injection E as <- <-.
    eexists. split; [reflexivity|]. cbn. split; auto. split; [subst h; apply older_refl|]. now repeat split.
  + assert (In0 : is_number x = false) by (unfold is_number; now rewrite Ta). rewrite In0.
    destruct x as [[tt i] m]; cbn [ftok ttyp ident mult] in *. subst tt. destruct (m =? 1)%Z eqn:Em; cbn [ftasks token_function with_tasks]; intros [= ->] E; cbn [run_tasks] in E.
    * apply bind_inv in E. destruct E as ([r1 st1] & E1 & E). destruct n as [|n]; [discriminate|]. unfold ret_of in E1. rewrite step_return in E1.
      apply bind_inv in E1. destruct E1 as ([r2 st2] & E2 & E1). destruct n as [|n]; [discriminate|]. unfold leaf in E2. rewrite step_argument in E2.
      injection E2 as <- <-. injection E1 as <- <-. cbn in E. injection E as <- <-.
      eexists. split; [reflexivity|]. cbn. split; auto. split; [subst h; apply older_refl|]. now repeat split.
    * apply bind_inv in E. destruct E as ([r1 st1] & E1 & E). destruct n as [|n]; [discriminate|]. unfold ret_of, leaf in E1. rewrite step_return3 in E1 by (cbn; tauto).
      destruct n as [|n]; [discriminate|]. rewrite step_number in E1. 
      apply bind_inv in E1. destruct E1 as ([r2 st2] & E2 & E1). rewrite step_argument in E1. cbn [bind] in E1.
      apply bind_inv in E2. destruct E2 as ([z b] & Ez & E2). apply get_inv in Ez. injection E2 as <- <-.
      cbn [rvals fst] in E1. 
      assert (Zz : z = (m mod q)%Z).
      { unfold string_to_field in Ez. rewrite set_string_dec in Ez. now injection Ez as <- <-. }
      subst z. cbn in E1. injection E1 as <- <-. cbn in E. injection E as <- <-.
      eexists. split; [reflexivity|]. cbn. split; auto. split; [subst h; apply older_refl|]. now repeat split.
Qed.
Lemma runs_all f : Forall fac_ok f -> runs f.
Proof.
  induction f as [|x f IH]; intros G n h a o ts st r st' V Eh N Et E; [apply vobj_nonempty in V; easy|].
  inversion G as [|? ? Gx Gf]; subst x0 l. destruct f as [|y f].
  - eapply runs_one; eauto.
  - inversion V as [|? ? ? ? o' a1 a2 _ No _ _ _ Fu Ne T V1 V2]; subst a0 x0 y0 f0. rewrite N in No. injection No as <-. rewrite Et in T. injection T as ->.
    cbn [run_tasks] in E. apply bind_inv in E. destruct E as ([r1 st1] & E1 & E). destruct n as [|n]; [discriminate|].
    unfold ret_of, leaf in E1. rewrite step_return3 in E1 by (cbn; tauto).
    apply bind_inv in E1. destruct E1 as ([ra sta] & Ea & E1). apply bind_inv in E1. destruct E1 as ([rb stb] & Eb & E1).
    assert (R1 : runs [x]) by (apply runs_one; auto).
    destruct (fac_ok_name x Gx) as [Nx1 Nx2].
    assert (Fa : forall h' cur w, nth_error h' cur = Some o -> find_fun h' cur (ident (ftok x)) = Done w -> w = Some (cur, a1)).
    { intros h' cur w Nh. apply find_fun_here with (o := o); auto. rewrite Fu. cbn. now rewrite String.eqb_refl. }
    assert (Fb : forall h' cur w, nth_error h' cur = Some o -> find_fun h' cur (rest_name (y :: f)) = Done w -> w = Some (cur, a2)).
    { intros h' cur w Nh. apply find_fun_here with (o := o); auto. rewrite Fu. cbn [lookup]. 
      destruct (String.eqb_spec (rest_name (y :: f)) (ident (ftok x))) as [Q|_]; [now symmetry in Q|]. now rewrite String.eqb_refl. }
    assert (Nr : ~ In (rest_name (y :: f)) reserved).
    { unfold rest_name. destruct f; [|cbn; intuition discriminate]. inversion Gf; subst. now apply fac_ok_name. }
    subst h.
    assert (Qa : exists w, find_fun (sheap st) a (ident (ftok x)) = Done w).
    { destruct n as [|n]; [discriminate|]. unfold call_of, leaf in Ea. rewrite step_call in Ea by auto. unfold user_call in Ea.
      apply bind_inv in Ea. destruct Ea as (w & Ew & _). eauto. }
    destruct Qa as [w Qa]. assert (Qa' := Fa _ _ _ N Qa). subst w.
    destruct (call_vobj [x] R1 _ _ _ _ _ _ _ _ Nx2 Qa V1 Ea) as (fa & La & Va & _ & Oa & Sa).
    assert (Qb : exists w, find_fun (sheap sta) a (rest_name (y :: f)) = Done w).
    { destruct n as [|n]; [discriminate|]. unfold call_of, leaf in Eb. rewrite step_call in Eb by auto. unfold user_call in Eb.
      apply bind_inv in Eb. destruct Eb as (w & Ew & _). eauto. }
    destruct Qb as [w Qb]. assert (Qb' := Fb _ _ _ (older_nth _ _ _ _ Oa N) Qb). subst w.
    destruct (call_vobj (y :: f) (IH Gf) _ _ _ _ _ _ _ _ Nr Qb (vobj_older _ _ _ _ _ Oa V2) Eb) as (fb & Lb & Vb & _ & Ob & Sb).
    apply bind_inv in E1. destruct E1 as ([v st3] & E3 & E1). injection E1 as <- <-. unfold operate in E3. cbn [String.eqb Ascii.eqb Bool.eqb] in E3.
    injection E3 as <- <-. cbn [rflag] in E. injection E as <- <-. cbn [rvals].
    exists (add_factors q fa fb). rewrite Va, Vb, add_factors_plain. cbn [reload] in Lb |- *. cbn [reload] in La. rewrite La, Lb.
    split; auto. split; auto. split; [eapply older_trans; eauto|]. destruct Sa as (A1 & A2 & A3), Sb as (B1 & B2 & B3). repeat split; congruence.
Qed.

(** ** Operations keep values good *)
Lemma digits_first c s z : set_string10 (String c s) = Some z -> c = "-"%char \/ c = "+"%char \/ digit_of c <> None.
Proof.
  intros H. destruct (Ascii.eqb_spec c "-") as [->|N1]; auto. destruct (Ascii.eqb_spec c "+") as [->|N2]; auto. right. right.
  assert (E : set_string10 (String c s) = nonempty_digits (String c s)).
  { destruct c as [[] [] [] [] [] [] [] []]; try reflexivity; exfalso; [now apply N2|now apply N1]. }
  rewrite E in H. cbn in H. destruct (digit_of c); [discriminate|discriminate H].
Qed.
Lemma prefix_not_reserved z i : prefix16 (dec z) = Some i -> i <> "" /\ ~ In i reserved.
Proof.
  unfold prefix16. assert (D := set_string_dec z). destruct (dec z) as [|c s]; [discriminate D|].
  destruct (Nat.ltb _ _); [discriminate|]. cbn [substring]. intros [= <-]. split; [discriminate|].
  apply digits_first in D. intros I. cbn [reserved In] in I.
  repeat (destruct I as [I|I]; [injection I as I _; subst c; destruct D as [D|[D|D]]; [discriminate D|discriminate D|now apply D]|]). destruct I.
Qed.
Lemma fac_ok_dec z : fac_ok (Fac (Tok TNumber (dec z)) z).
Proof. left. split; auto. exists z. split; auto. apply set_string_dec. Qed.
Lemma fac_ok_mult t m m' : fac_ok (Fac t m) -> ttyp t <> TNumber -> fac_ok (Fac t m').
Proof. intros [[E _]|H] N; [easy|]. now right. Qed.
Definition count (f : factors) : nat := List.length (filter is_number f).
Arguments count : simpl never.
Lemma count_cons x f : count (x :: f) = (if is_number x then 1 else 0) + count f.
Proof. unfold count. cbn [filter]. destruct (is_number x); reflexivity. Qed.
Lemma count_app f g : count (f ++ g) = count f + count g.
Proof. unfold count. rewrite filter_app, app_length. reflexivity. Qed.

Lemma add_factor_ok l r s : fac_ok l -> fac_ok r -> add_factor q l r = Some s -> fac_ok s /\ is_number s = is_number r /\ is_number l = is_number r.
Proof.
  intros Hl Hr. unfold add_factor, both_number, is_number. destruct l as [[tl il] ml], r as [[tr ir] mr]. cbn [ftok ttyp ident mult].
  destruct (ttype_eqb tl TNumber) eqn:El, (ttype_eqb tr TNumber) eqn:Er; cbn [andb].
  - intros [= <-]. split; [apply fac_ok_dec|auto].
  - destruct tl, tr; try discriminate.
  - destruct tl, tr; try discriminate.
  - destruct (ttype_eqb tl tr && String.eqb il ir); [|discriminate]. intros [= <-]. split; [|cbn; auto].
    eapply fac_ok_mult; [exact Hr|]. cbn. now intros ->.
Qed.
Lemma add_into_ok l : forall r r', fac_ok l -> Forall fac_ok r -> add_into q l r = Some r' ->
  Forall fac_ok r' /\ count r' = count r /\ (is_number l = true -> 1 <= count r).
Proof.
  induction r as [|x r IH]; intros r' Hl Hr; cbn; [discriminate|]. inversion Hr as [|? ? Hx Hr']; subst.
  destruct (add_factor q l x) as [s|] eqn:Es.
  - intros [= <-]. destruct (add_factor_ok _ _ _ Hl Hx Es) as (A & B & C). split; [constructor; auto|]. rewrite !count_cons, B. split; auto.
    intros D. rewrite C in D. rewrite D. lia.
  - destruct (add_into q l r) as [r1|]; [|discriminate]. intros [= <-]. destruct (IH r1 Hl Hr' eq_refl) as (A & B & C).
    split; [constructor; auto|]. rewrite !count_cons, B. split; auto. intros D. specialize (C D). lia.
Qed.
Lemma add_into_none l : forall r, add_into q l r = None -> is_number l = true -> count r = 0.
Proof.
  induction r as [|x r IH]; cbn; auto. destruct (add_factor q l x) as [s|] eqn:Es; [discriminate|]. destruct (add_into q l r); [discriminate|].
  intros _ Hl. rewrite count_cons, IH by auto. unfold add_factor, both_number in Es. unfold is_number in *. rewrite Hl in Es. cbn [andb] in Es.
  destruct (ttype_eqb (ttyp (ftok x)) TNumber); [discriminate|reflexivity].
Qed.
Lemma add_loop_ok : forall l r a b, Forall fac_ok l -> Forall fac_ok r -> add_loop q l r = (a, b) -> count l <= 1 -> count r <= 1 ->
  Forall fac_ok a /\ Forall fac_ok b /\ count b <= 1 /\ count a + count b <= 1 /\ (count l = 0 -> count a = 0).
Proof.
  induction l as [|x l IH]; intros r a b Hl Hr; cbn.
  - intros [= <- <-] _ Cr. repeat split; auto.
  - inversion Hl as [|? ? Hx Hl']; subst. rewrite count_cons. destruct (add_into q x r) as [r'|] eqn:Ei.
    + destruct (add_into_ok _ _ _ Hx Hr Ei) as (A & B & C). intros E Cl Cr. destruct (IH r' a b Hl' A E) as (A1 & A2 & A3 & A4 & A5); try lia.
      repeat split; auto. intros Z0. apply A5. lia.
    + destruct (add_loop q l r) as [a1 b1] eqn:El. intros [= <- <-] Cl Cr. destruct (IH r a1 b1 Hl' Hr El) as (A1 & A2 & A3 & A4 & A5); try lia.
      repeat split; auto; rewrite count_cons; destruct (is_number x) eqn:Ex; auto; try lia.
      assert (count r = 0) by (eapply add_into_none; eauto).
      assert (count b1 = 0).
      { revert El. clear - H. revert r a1 b1 H. induction l as [|y l IH]; intros r a1 b1 H; cbn; [intros [= <- <-]; auto|].
        destruct (add_into q y r) as [r'|] eqn:Ey.
        - intros E. apply (IH r' a1 b1); auto. clear E IH. revert r' Ey H. clear. induction r as [|z r IHr]; intros r' Ey H; cbn in Ey; [discriminate|].
          rewrite count_cons in H. unfold add_factor in Ey. destruct (both_number _ _) eqn:Eb; [unfold both_number, is_number in *; destruct (ttype_eqb (ttyp (ftok z)) TNumber); [lia|rewrite andb_false_r in Eb; discriminate]|].
          destruct (_ && _) eqn:Ea.
          + injection Ey as <-. rewrite count_cons. unfold is_number in *. cbn. lia.
          + destruct (add_into q y r) as [r1|]; [|discriminate]. injection Ey as <-. rewrite count_cons. rewrite (IHr r1 eq_refl) by lia. lia.
        - destruct (add_loop q l r) as [a2 b2] eqn:E2. intros [= <- <-]. eauto. }
      rewrite A5 by lia. lia.
Qed.
Lemma filter_count (p : factor -> bool) f : count (filter p f) <= count f.
Proof. induction f as [|x f IH]; cbn; auto. destruct (p x); rewrite ?count_cons; lia. Qed.
Lemma good_add l r : good l -> good r -> good (add_factors q l r).
Proof.
  intros (_ & Hl & Cl) (_ & Hr & Cr). unfold add_factors. destruct (add_loop q l r) as [a b] eqn:E.
  destruct (add_loop_ok l r a b Hl Hr E Cl Cr) as (A1 & A2 & _ & A4 & _).
  assert (F : Forall fac_ok (filter (fun f => negb (mult f =? 0)%Z) b)) by (apply Forall_forall; intros x I; apply filter_In in I; destruct I; rewrite Forall_forall in A2; auto).
  assert (C : count (a ++ filter (fun f => negb (mult f =? 0)%Z) b) <= 1).
  { rewrite count_app. assert (X := filter_count (fun f => negb (mult f =? 0)%Z) b). lia. }
  assert (G : Forall fac_ok (a ++ filter (fun f => negb (mult f =? 0)%Z) b)) by (apply Forall_app; auto).
  destruct (a ++ _) as [|y m]; [|split; [discriminate|split; auto]].
  split; [discriminate|]. split; [|cbn; lia]. constructor; auto. left. split; auto. exists 0%Z. split; auto.
Qed.
Lemma good_negate f : good f -> good (negate_factors f).
Proof.
  intros (N & H & C). split; [|split].
  - unfold negate_factors. destruct f; [easy|discriminate].
  - unfold negate_factors. clear N C. induction H as [|x f Hx Hf IH]; cbn; constructor; auto.
    unfold is_number. destruct x as [[t i] m]. cbn [ftok ttyp mult]. destruct (ttype_eqb t TNumber) eqn:Et; [apply fac_ok_dec|].
    eapply fac_ok_mult; [exact Hx|]. cbn. now intros ->.
  - fold (count (negate_factors f)). fold (count f) in C. enough (count (negate_factors f) = count f) by lia.
    clear. induction f as [|x f IH]; auto. cbn [negate_factors map]. fold (negate_factors f). rewrite !count_cons, IH. f_equal.
    unfold is_number. destruct x as [[t i] m]. cbn [ftok ttyp mult]. destruct (ttype_eqb t TNumber) eqn:Et; cbn; now rewrite ?Et.
Qed.
Lemma mul_factor_ok l r f : fac_ok l -> fac_ok r -> mul_factor q l r = Some f -> fac_ok f /\ (is_number f = true -> is_number l = true).
Proof.
  intros Hl Hr. unfold mul_factor, both_number, is_number. destruct l as [[tl il] ml], r as [[tr ir] mr]. cbn [ftok ttyp ident mult].
  destruct (ttype_eqb tl TNumber && is_in tr) eqn:E1.
  - intros [= <-]. split; [eapply fac_ok_mult; [exact Hr|]; cbn; intros ->; now rewrite andb_false_r in E1|cbn].
    apply andb_true_iff in E1. tauto.
  - destruct (is_in tl && ttype_eqb tr TNumber) eqn:E2.
    + intros [= <-]. split; [eapply fac_ok_mult; [exact Hl|]; cbn; now intros ->|cbn; auto].
    + destruct (ttype_eqb tr TNumber && ttype_eqb tl TNumber) eqn:E3; [|discriminate]. intros [= <-]. split; [apply fac_ok_dec|]. intros _. apply andb_true_iff in E3. tauto.
Qed.
Lemma mul_row_ok : forall rs acc l f, fac_ok acc -> fac_ok l -> Forall fac_ok rs -> (is_number acc = true -> is_number l = true) ->
  mul_row q acc l rs = Some f -> fac_ok f /\ (is_number f = true -> is_number l = true).
Proof.
  induction rs as [|r rs IH]; intros acc l f Ha Hl Hr Hi; cbn; [intros [= <-]; auto|]. inversion Hr as [|? ? Hx Hr']; subst.
  destruct (mul_factor q l r) as [g|] eqn:E; [|discriminate]. destruct (mul_factor_ok _ _ _ Hl Hx E) as [A B]. intros H. now apply (IH g l f).
Qed.
Lemma mul_rows_ok : forall ls rs f, Forall fac_ok ls -> Forall fac_ok rs -> mul_rows q ls rs = Some f ->
  Forall fac_ok f /\ List.length f = List.length ls /\ count f <= count ls.
Proof.
  induction ls as [|l ls IH]; intros rs f Hl Hr; cbn; [intros [= <-]; auto|]. inversion Hl as [|? ? Hx Hl']; subst.
  destruct (mul_row q l l rs) as [g|] eqn:E; [|discriminate]. destruct (mul_rows q ls rs) as [gs|] eqn:E2; [|discriminate]. intros [= <-].
  destruct (mul_row_ok rs l l g Hx Hx Hr (fun x => x) E) as [A B]. destruct (IH rs gs Hl' Hr E2) as (A1 & A2 & A3).
  split; [constructor; auto|]. cbn. split; [now rewrite A2|]. rewrite !count_cons. destruct (is_number g); [rewrite B by auto; lia|lia].
Qed.
Lemma good_mul l r f : good l -> good r -> mul_factors q l r = Some f -> good f.
Proof.
  intros (Nl & Hl & Cl) (Nr & Hr & Cr). unfold mul_factors.
  destruct (Nat.ltb _ _); intros E; [destruct (mul_rows_ok r l f Hr Hl E) as (A & B & C)|destruct (mul_rows_ok l r f Hl Hr E) as (A & B & C)];
    (split; [|split; auto; unfold count in C; lia]); intros ->; destruct l, r; try easy.
Qed.
Lemma good_wire i k : i <> "" -> ~ In i reserved -> good (wire i k).
Proof. intros A B. split; [discriminate|]. split; [|cbn; lia]. constructor; auto. right. auto. Qed.
Lemma collect_id c g fin c' i : collect sort hash c g fin = Some (c', i) -> gid g = "" -> i <> "" /\ ~ In i reserved.
Proof.
  unfold collect, with_id. intros E Eg. rewrite Eg in E. unfold set_id in E. destruct (prefix16 _) as [j|] eqn:Ej; [|discriminate].
  cbn [gid] in E. destruct (contains c j); injection E as _ <-; now apply prefix_not_reserved in Ej.
Qed.
Lemma good_op c o l r tr c' f tr' : good l -> good r -> compile_op_tr sort hash q c o l r tr = Some (c', f, tr') -> good f.
Proof.
  intros Hl Hr. unfold compile_op_tr. destruct (compile_op sort hash q c o l r) as [[c1 f1]|] eqn:E; [|discriminate]. intros H.
  assert (f1 = f) as ->.
  { revert H. destruct (_ && _); [destruct (extract_constant sort q l r) as [[[? ?] ?]|]; [|discriminate]; unfold traced; destruct (with_id _ _ _); [|discriminate]; now intros [= _ <- _]|].
    destruct (_ && _); [|now intros [= _ <- _]]. destruct (factor_signature sort l) as [[? ?]|]; [|discriminate]. destruct (factor_signature sort r) as [[? ?]|]; [|discriminate].
    unfold traced; destruct (with_id _ _ _); [|discriminate]; now intros [= _ <- _]. }
  clear H. revert E. unfold compile_op.
  destruct (String.eqb o "*").
  - destruct (_ || _).
    + destruct (mul_factors q l r) as [g|] eqn:Em; [|discriminate]. intros [= _ <-]. exact (good_mul l r g Hl Hr Em).
    + unfold compile_mul. destruct (extract_constant sort q l r) as [[[k l'] r']|]; [|discriminate].
      destruct (collect _ _ _ _ _) as [[c2 i]|] eqn:Ec; [|discriminate]. intros [= _ <-]. apply collect_id in Ec; [|reflexivity]. apply good_wire; tauto.
  - destruct (String.eqb o "/").
    + destruct (is_single_number r) eqn:Es.
      * destruct (invert_factors q r) as [i|] eqn:Ei; [|discriminate]. destruct (mul_factors q l i) as [g|] eqn:Em; [|discriminate]. intros [= _ <-].
        eapply good_mul; [exact Hl| |exact Em]. destruct r as [|x [|y r]]; try discriminate. cbn in Es, Ei. destruct (finv q (mult x)) as [j|]; [|discriminate].
        unfold is_number in Ei. rewrite Es in Ei. injection Ei as <-. split; [discriminate|]. split; [constructor; auto; apply fac_ok_dec|cbn; lia].
      * unfold compile_div. destruct (factor_signature sort l) as [[gl l']|]; [|discriminate]. destruct (factor_signature sort r) as [[gr r']|]; [|discriminate].
        destruct (fdiv q gl gr) as [k|]; [|discriminate].
        destruct (collect _ _ _ _ _) as [[c2 i]|] eqn:Ec; [|discriminate]. intros [= _ <-]. apply collect_id in Ec; [|reflexivity]. apply good_wire; tauto.
    + destruct (String.eqb o "+"); [intros [= _ <-]; now apply good_add|]. destruct (String.eqb o "-"); [intros [= _ <-]; apply good_add; auto; now apply good_negate|discriminate].
Qed.
Lemma good_base c e c' f : compile_base sort hash c e = Some (c', f) -> good f.
Proof.
  unfold compile_base. destruct (collect _ _ _ _ _) as [[c2 i]|] eqn:Ec; [|discriminate]. intros [= _ <-]. apply collect_id in Ec; [|reflexivity]. apply good_wire; tauto.
Qed.
Lemma good_reread x f : fac_ok x -> reread x = Some f -> good f.
Proof.
  intros H. unfold reread. destruct (is_number x) eqn:En.
  - destruct (string_to_field q (ident (ftok x))) as [[z b]|] eqn:E; [|discriminate]. intros [= <-]. unfold string_to_field in E.
    destruct (set_string10 (ident (ftok x))) as [y|] eqn:Ey; [|discriminate]. injection E as <- _.
    split; [discriminate|]. split; [|cbn; lia]. constructor; auto. left. split; auto. exists y. split; auto. cbn. now rewrite Zmod_mod.
  - apply fac_ok_name in H. destruct H as [A B]. destruct (mult x =? 1)%Z; intros [= <-]; apply good_wire; auto.
Qed.
Lemma good_reload : forall f g, Forall fac_ok f -> reload f = Some g -> good g.
Proof.
  induction f as [|x f IH]; intros g H; [discriminate|]. inversion H as [|? ? Hx Hf]; subst. destruct f as [|y f].
  - now apply good_reread.
  - remember (y :: f) as t. cbn [reload]. rewrite Heqt. rewrite <- Heqt. destruct (reread x) as [a|] eqn:Ea; [|discriminate].
    destruct (reload t) as [b|] eqn:Eb; [|discriminate]. intros [= <-]. apply good_add; [eapply good_reread; eauto|]. apply IH; auto.
Qed.
Lemma good_read u v : good u -> read_as u v -> good v.
Proof.
  intros (N & H & C). unfold read_as. destruct (is_single_number u) eqn:E.
  - destruct u as [|x [|y u]]; try discriminate. intros ->. split; [discriminate|]. split; [|cbn; lia]. constructor; auto.
    inversion H as [|? ? Hx _]; subst. cbn in E. destruct Hx as [[T (z & Z1 & Z2)]|[T _]]; [|rewrite T in E; discriminate].
    left. split; auto. exists z. auto.
  - intros R. eapply good_reload; eauto.
Qed.

(** ** The meaning over factor lists *)
Definition sym : domain := {|
  dval := factors; drec := collector * list gate;
  dnum := fun s f => exists z b, string_to_field q s = Some (z, b) /\ f = [Fac (Tok TNumber s) z];
  dread := read_as;
  delem := fun u v => reload u = Some v;
  dindex := fun u i => exists x, u = [x] /\ is_number x = true /\ parse_index (ident (ftok x)) = Some i;
  dop := fun o s a b v s' => compile_op_tr sort hash q (fst s) o a b (snd s) = Some (fst s', v, snd s');
  dbase := fun s a v s' => compile_base sort hash (fst s) a = Some (fst s', v) /\
                           exists g, with_id sort hash (Gate GBase "" [] [] a [] false no_token) = Some g /\ snd s' = snd s ++ [g];
  dequal := fun s a b s' => compile_equal sort hash (fst s) a b = Some (fst s') /\
                            exists g, with_id sort hash (Gate GEqual "" a b [] [] true no_token) = Some g /\ snd s' = snd s ++ [g];
  dcmp := fun o a b t => exists x y, a = [x] /\ b = [y] /\ is_number x = true /\ is_number y = true /\ compare_as o (mult x) (mult y) = Done t;
  dnew := (Coll [] [], []);
  ddone := fun s v s' => let f := match v with Some f => f | None => [] end in
                         complete (St [] (fst s) (snd s) []) f = Done (St [] (fst s') (snd s') []) |}.
Definition record_of (st : state) : collector * list gate := (scoll st, strace st).

Lemma operate_op st o l r v st' : good (strip l) -> good (strip r) -> In o ["+"; "-"; "*"; "/"] -> operate st o l r = Done (v, st') ->
  sheap st' = sheap st /\ sstored st' = sstored st /\ dop sym o (record_of st) (strip l) (strip r) (strip v) (record_of st').
Proof.
  intros Gl Gr I. unfold operate. cbn [dop sym]. unfold record_of, compile_op_tr. cbn [fst snd].
  destruct I as [<-|[<-|[<-|[<-|[]]]]]; cbn [String.eqb Ascii.eqb Bool.eqb andb].
  - intros [= <- <-]. unfold compile_op. cbn [String.eqb Ascii.eqb Bool.eqb]. now rewrite strip_add.
  - destruct (shared r); [discriminate|]. intros [= <- <-]. unfold compile_op. cbn [String.eqb Ascii.eqb Bool.eqb]. now rewrite strip_add, strip_plain.
  - assert (Cl : compile_op sort hash q (scoll st) "*" (strip l) (strip r) = if is_single_number (strip l) || is_single_number (strip r)
       then match mul_factors q (strip l) (strip r) with Some f => Some (scoll st, f) | None => None end else compile_mul sort hash q (scoll st) (strip l) (strip r)) by reflexivity.
    rewrite Cl. clear Cl. destruct (is_single_number (strip l) || is_single_number (strip r)) eqn:Es; cbn [negb].
    + destruct l as [|lx l]; [destruct Gl as [Gl _]; now destruct Gl|]. destruct r as [|rx r]; [destruct Gr as [Gr _]; now destruct Gr|].
      destruct (mul_factors q (strip (lx :: l)) (strip (rx :: r))) as [f|]; [|discriminate]. cbn. intros [= <- <-]. rewrite strip_plain. auto.
    + destruct (compile_mul sort hash q (scoll st) (strip l) (strip r)) as [[c f]|]; [|discriminate]. cbn [get bind].
      destruct (extract_constant sort q (strip l) (strip r)) as [[[k l'] r']|]; [|discriminate].
      unfold submit. destruct (with_id sort hash _) as [g|]; [|discriminate]. cbn [get bind with_coll sheap scoll strace sstored traced].
      intros [= <- <-]. rewrite strip_plain. auto.
  - assert (Cl : compile_op sort hash q (scoll st) "/" (strip l) (strip r) = if is_single_number (strip r)
       then match invert_factors q (strip r) with
         | Some i => match mul_factors q (strip l) i with Some f => Some (scoll st, f) | None => None end
         | None => None
         end else compile_div sort hash q (scoll st) (strip l) (strip r)) by reflexivity.
    rewrite Cl. clear Cl. destruct (is_single_number (strip r)) eqn:Es; cbn [negb].
    + destruct (invert_factors q (strip r)) as [i|]; [|discriminate]. destruct (mul_factors q (strip l) i) as [f|]; [|discriminate]. cbn.
      intros [= <- <-]. rewrite strip_plain. auto.
    + destruct (compile_div sort hash q (scoll st) (strip l) (strip r)) as [[c f]|]; [|discriminate]. cbn [get bind].
      destruct (factor_signature sort (strip l)) as [[gl l']|]; [|discriminate]. destruct (factor_signature sort (strip r)) as [[gr r']|]; [|discriminate].
      unfold submit. destruct (with_id sort hash _) as [g|]; [|discriminate]. cbn [get bind with_coll sheap scoll strace sstored traced].
      intros [= <- <-]. rewrite strip_plain. auto.
Qed.
End P.

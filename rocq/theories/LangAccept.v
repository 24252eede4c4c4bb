(** preCompile accepts every well-formed program. *)
Require Import ZArith Lia Bool Ascii String List Wf_nat.
Require Import Verif.FqModel Verif.FactorModel Verif.ParserModel Verif.CircuitModel Verif.LangSpec Verif.LangHeap Verif.LangSym Verif.LangTree Verif.LangScope Verif.LangRun Verif.LangBuild.
Import ListNotations.
Local Open Scope string_scope.
Local Open Scope list_scope.
Local Open Scope nat_scope.

(** ** Names that can be seen from an object *)
Definition seen (o : fobj) (x : string) : Prop := In x (keys (fcons o)) /\ In x (keys (ffuns o)).
Inductive vis (h : heap) (x : string) : nat -> Prop :=
| vis_here : forall a o, nth_error h a = Some o -> seen o x -> vis h x a
| vis_up : forall a o b, nth_error h a = Some o -> fctx o = Some b -> b < a -> vis h x b -> vis h x a.
Definition keep (h h' : heap) : Prop := forall b o, nth_error h b = Some o ->
  exists o', nth_error h' b = Some o' /\ fctx o' = fctx o /\ forall x, seen o x -> seen o' x.
Lemma keep_refl h : keep h h.
Proof. intros b o N. exists o. auto. Qed.
Lemma keep_trans h h1 h2 : keep h h1 -> keep h1 h2 -> keep h h2.
Proof. intros A B b o N. destruct (A b o N) as (o1 & N1 & C1 & K1). destruct (B b o1 N1) as (o2 & N2 & C2 & K2). exists o2. split; auto. split; [congruence|auto]. Qed.
Lemma keep_app h e : keep h (h ++ e).
Proof. intros b o N. exists o. split; [now apply nth_app_old|auto]. Qed.
Lemma keep_store h a o o' : nth_error h a = Some o -> fctx o' = fctx o -> (forall x, seen o x -> seen o' x) -> keep h (store h a o').
Proof.
  intros N C K b ob Nb. destruct (Nat.eq_dec a b) as [<-|Ne].
  - rewrite N in Nb. injection Nb as <-. exists o'. split; [apply nth_store_eq; eapply nth_lt; eauto|auto].
  - exists ob. rewrite nth_store_ne by auto. auto.
Qed.
Lemma keep_touch h h' a o o' : touch a h h' -> nth_error h a = Some o -> nth_error h' a = Some o' -> fctx o' = fctx o -> (forall x, seen o x -> seen o' x) -> keep h h'.
Proof.
  intros [_ T] N N' C K b ob Nb. destruct (Nat.eq_dec b a) as [->|Ne].
  - rewrite N in Nb. injection Nb as <-. exists o'. auto.
  - exists ob. rewrite T; [auto|eapply nth_lt; eauto|auto].
Qed.
Lemma vis_keep h h' x a : keep h h' -> vis h x a -> vis h' x a.
Proof.
  intros K. induction 1 as [a o N I|a o b N C L _ IH]; destruct (K a o N) as (o' & N' & C' & I'); [eapply vis_here; eauto|eapply vis_up; eauto; congruence].
Qed.
Lemma vis_find h x a : vis h x a -> forall n, a < n -> exists v, find_in n fcons h (Some a) x = Done (Some v).
Proof.
  induction 1 as [a o N I|a o b N C L _ IH]; intros [|n] Ln; try lia; cbn [find_in]; unfold fetch; rewrite N; cbn [get bind].
  - destruct (lookup x (fcons o)) eqn:E; [eauto|]. apply lookup_none_keys in E. now destruct I.
  - destruct (lookup x (fcons o)) eqn:E; [eauto|]. rewrite C. apply IH. lia.
Qed.
Lemma vis_con h x a : vis h x a -> exists v, find_con h a x = Done (Some v).
Proof. intros V. unfold find_con. apply vis_find; auto. inversion V; subst; match goal with N : nth_error _ _ = Some _ |- _ => apply nth_lt in N end; lia. Qed.

Lemma seen_fun o x b k ts : seen o x -> seen (with_tasks (with_funs o (set_at k b (ffuns o))) ts) x.
Proof. intros [A B]. split; [exact A|]. cbn [ffuns with_tasks with_funs]. apply set_at_keys. now right. Qed.
(** ** contextCheck *)
Scheme enc_cmut := Minimality for enc Sort Prop with encs_cmut := Minimality for encs Sort Prop.
Combined Scheme enc_cind from enc_cmut, encs_cmut.
Lemma check_fold h a l : (fix all (l : list ctree) : res unit := match l with [] => Done tt | i :: l' => _ <- context_check h a i ;; all l' end) l = check_all h a l.
Proof. induction l as [|c l IH]; [reflexivity|]. cbn [check_all]. now rewrite <- IH. Qed.
Lemma check_con h a o ins : context_check h a (Con o ins) = (_ <- check_all h a ins ;;
  if ttype_eqb (ttyp o) TNumber || is_operator o then Done tt
      else match ttyp o with
           | TArgument => ob <- fetch h a ;; match lookup (ident o) (fcons ob) with Some _ => Done tt | None => Panic end
           | TOverload | TVarDecl | TArrDecl => Panic
           | TIdent =>
               k <- find_con h a (ident o) ;;
               match k with
               | Some _ => Done tt
               | None => f <- find_fun h a (ident o) ;; match f with Some _ => Done tt | None => Panic end
               end
           | _ => Done tt
           end).
Proof. cbn [context_check]. now rewrite check_fold. Qed.
Lemma checked fs ns h a vs : (forall x, In x vs -> vis h x a) ->
  (forall e c, enc e c -> exp_ok fs ns vs e -> context_check h a c = Done tt) /\
  (forall es cs, encs es cs -> Forall (exp_ok fs ns vs) es -> check_all h a cs = Done tt).
Proof.
  intros V. apply enc_cind.
  - intros s _. reflexivity.
  - intros x Ix. cbn [exp_ok] in Ix. rewrite check_con. cbn [check_all bind ttyp ident ttype_eqb is_operator orb]. destruct (vis_con _ _ _ (V x Ix)) as (v & ->). reflexivity.
  - intros s o e1 e2 c1 c2 _ IH1 _ IH2 (Io & O1 & O2). rewrite check_con. cbn [check_all bind]. rewrite check_con. cbn [check_all bind ttyp ttype_eqb orb].
    rewrite IH1, IH2 by auto. reflexivity.
  - intros s e c _ IH O. rewrite check_con. cbn [check_all bind]. rewrite IH by auto. reflexivity.
  - intros e c _ IH O. rewrite check_con. cbn [check_all bind]. rewrite IH by exact O. reflexivity.
  - intros f es cs _ IH (_ & _ & O). rewrite check_con. rewrite IH; [reflexivity|]. clear -O. induction es; constructor; try apply O; apply IHes, O.
  - intros x es cs _ IH (_ & _ & O). rewrite check_con. rewrite IH; [reflexivity|]. clear -O. induction es; constructor; try apply O; apply IHes, O.
  - intros _. reflexivity.
  - intros e c es cs _ IH1 _ IH2 O. inversion O; subst. cbn [check_all]. rewrite IH1 by auto. cbn [bind]. auto.
Qed.

(** ** The steps of preCompile *)
Lemma set_fun_ok h a x b o : nth_error h a = Some o -> set_fun h a x b = Done (store h a (with_funs o (set_at x b (ffuns o)))).
Proof. intros N. unfold set_fun, fetch. now rewrite N. Qed.
Lemma set_con_ok h a x c o : nth_error h a = Some o -> set_con h a x c = Done (store h a (with_cons o (set_at x c (fcons o)))).
Proof. intros N. unfold set_con, fetch. now rewrite N. Qed.
Lemma add_task_ok h a o ts c : nth_error h a = Some o -> ftasks o = Some ts -> add_task h a c = Done (store h a (with_tasks o (ts ++ [c]))).
Proof. intros N T. unfold add_task, fetch. rewrite N. cbn [get bind]. rewrite T. reflexivity. Qed.
Lemma block_name_ok h a o ts s : nth_error h a = Some o -> ftasks o = Some ts -> block_name h a s = Done (blk (List.length ts) s).
Proof. intros N T. unfold block_name, fetch. rewrite N. cbn [get bind]. rewrite T. reflexivity. Qed.
Definition accepts (h : heap) (a : nat) (cs : list ctree) : Prop := exists n0 h', forall n, n0 <= n -> precompile n h a cs = Done h'.
Lemma accepts_step h a cs h1 cs1 : (forall n, precompile (S n) h a cs = precompile n h1 a cs1) -> accepts h1 a cs1 -> accepts h a cs.
Proof. intros E (n0 & h' & H). exists (S n0), h'. intros [|n] L; [lia|]. rewrite E. apply H. lia. Qed.

Lemma own_seen o ts X Y x : own o ts X Y -> Forall name_ok (X ++ Y) -> seen o x -> In x X.
Proof.
  intros (_ & B & _ & D) Fn [I J]. destruct (D x J) as [K|(k & s & -> & _)]; [exact K|]. exfalso. apply (blk_name k s). rewrite Forall_forall in Fn. apply Fn, B, I.
Qed.
Section P.
Variables (fs : defs) (ns : list string).
Record ready (h : heap) (a : nat) (o : fobj) (ts : list ctree) (X Y vs : list string) : Prop := Ready {
  r_at : nth_error h a = Some o; r_own : own o ts X Y; r_names : Forall name_ok (X ++ Y); r_in : forall x, In x X -> In x vs;
  r_vis : forall x, In x vs -> vis h x a }.
Definition placed (o : fobj) (B : list stmt) : Prop := Forall (fun t => publics_in t = [] \/ fname o = "main" /\ exists x, t = Public x) B.
Definition named (Y vs : list string) : Prop := forall y, In y Y -> In (element y [0%Z]) vs.
Definition PB (B : list stmt) (cs : list ctree) : Prop := forall h a o ts X Y vs inl ini,
  ready h a o ts X Y vs -> named Y vs -> block_ok fs ns inl ini vs B -> placed o B -> accepts h a cs.
Definition PS (t : stmt) (c : list ctree) : Prop := forall B cs, PB B cs -> enc_block B cs -> forall h a o ts X Y vs inl ini,
  ready h a o ts X Y vs -> named Y vs -> block_ok fs ns inl ini vs (t :: B) -> placed o (t :: B) -> accepts h a (c ++ cs).

Lemma ready_task h a o ts X Y vs c : ready h a o ts X Y vs -> ready (store h a (with_tasks o (ts ++ [c]))) a (with_tasks o (ts ++ [c])) (ts ++ [c]) X Y vs.
Proof.
  intros [N Ow Fn I V]. constructor; auto.
  - apply nth_store_eq. eapply nth_lt; eauto.
  - now apply own_task.
  - intros x Ix. eapply vis_keep; [|exact (V x Ix)]. eapply keep_store; [exact N|reflexivity|auto].
Qed.
Lemma declare_total h a o ts X Y vs x c : ready h a o ts X Y vs -> name_ok x -> ~ In x vs ->
  exists h1 o1, declare h a (Con (Tok TVarDecl x) [c]) = Done h1 /\ ready h1 a o1 (ts ++ [Con (Tok TOverload "") [leaf (Tok TVarDecl x); c]]) (X ++ [x]) Y (vs ++ [x]) /\ fname o1 = fname o.
Proof.
  intros R Nx Nv. destruct R as [N Ow Fn I V]. assert (La := nth_lt _ _ _ N). assert (T : ftasks o = Some ts) by apply Ow.
  assert (Lk : lookup x (ffuns o) = None).
  { apply lookup_none_keys. intros J0. destruct Ow as (_ & _ & _ & D). destruct (D x J0) as [J1|(k & s & -> & _)]; [auto|exact (blk_name _ _ Nx)]. }
  set (r := with_tasks (new_circuit x (Some a)) [ret_of [c]]). set (task := Con (Tok TOverload "") [leaf (Tok TVarDecl x); c]).
  set (o1 := with_tasks (with_cons (with_funs o (set_at x (List.length h) (ffuns o))) (set_at x (call_of x) (fcons o))) (ts ++ [task])).
  assert (K : keep h (store (h ++ [r]) a o1)).
  { eapply keep_trans; [apply (keep_app h [r])|]. eapply (keep_store _ a o o1); [now apply nth_app_old|reflexivity|]. intros y [Iy Iz]. unfold seen. cbn [o1 fcons ffuns with_tasks with_cons with_funs]. rewrite !set_at_keys. auto. }
  exists (store (h ++ [r]) a o1), o1. split; [|split; [|reflexivity]].
  - unfold declare. cbn [output ident inputs]. unfold fetch at 1. rewrite N. cbn [get bind]. rewrite Lk. cbn [alloc].
    rewrite (set_fun_ok _ _ _ _ o) by now apply nth_app_old. cbn [bind]. erewrite set_con_ok by (apply nth_store_eq; rewrite app_length; lia). cbn [bind]. rewrite store_store.
    erewrite add_task_ok by (first [apply nth_store_eq; rewrite app_length; lia|exact T]). rewrite store_store. reflexivity.
  - assert (N1 : nth_error (store (h ++ [r]) a o1) a = Some o1) by (apply nth_store_eq; rewrite app_length; lia). constructor; auto.
    + now apply own_declare.
    + apply Forall_app in Fn. destruct Fn as [F1 F2]. repeat (apply Forall_app; split); auto.
    + intros y Iy. apply in_app_iff in Iy. apply in_app_iff. destruct Iy; auto.
    + intros y Iy. apply in_app_iff in Iy. destruct Iy as [Iy|[<-|[]]]; [eapply vis_keep; eauto|]. eapply vis_here; [exact N1|]. unfold seen. cbn [o1 fcons ffuns with_tasks with_cons with_funs]. rewrite !set_at_keys. auto.
Qed.
Lemma placed_all_of o B : forall A, placed o (A ++ B) -> placed o B.
Proof. intros A H. apply Forall_app in H. apply H. Qed.
Lemma elements_total a x B inl ini : forall es cs, encs es cs -> forall i h o ts X Y vs, ready h a o ts X Y vs -> block_ok fs ns inl ini vs (elements x i es ++ B) ->
  exists h1 o1 ts1, declare_elements h a x i cs = Done h1 /\ ready h1 a o1 ts1 (X ++ decls (elements x i es)) Y (vs ++ decls (elements x i es)) /\ fname o1 = fname o /\
    check_all h1 a cs = Done tt /\ block_ok fs ns inl ini (vs ++ decls (elements x i es)) B.
Proof.
  induction es as [|e es IH]; intros cs En; inversion En as [|? c ? cs' En1 En2]; subst; intros i h o ts X Y vs R Ok; cbn [declare_elements elements app] in *.
  - exists h, o, ts. cbn [decls flat_map]. rewrite !app_nil_r. auto.
  - destruct Ok as [[Oe [Nx [Nv _]]] Ok]. destruct (declare_total h a o ts X Y vs _ c R Nx Nv) as (h1 & o1 & E1 & R1 & F1).
    match goal with |- context [declare h a ?z] => change (declare h a z) with (declare h a (Con (Tok TVarDecl (element x [Z.of_nat i])) [c])) end. rewrite E1. cbn [bind check_all].
    assert (Ck : forall h' X' Y' o' ts' vs', ready h' a o' ts' X' Y' vs' -> (forall y, In y vs -> In y vs') -> context_check h' a c = Done tt).
    { intros h' X' Y' o' ts' vs' R' S'. apply (proj1 (checked fs ns h' a vs (fun y Iy => r_vis _ _ _ _ _ _ _ R' y (S' y Iy))) e c En1 Oe). }
    rewrite (Ck _ _ _ _ _ _ R1) by (intros; apply in_app_iff; auto). cbn [bind].
    destruct (IH cs' En2 (S i) h1 o1 _ _ _ _ R1 Ok) as (h2 & o2 & ts2 & E2 & R2 & F2 & C2 & Ok2). rewrite decls_cons. cbn [decls flat_map app]. rewrite <- !app_assoc in *. cbn [app] in *.
    exists h2, o2, ts2. split; [exact E2|]. split; [exact R2|]. split; [congruence|]. split; [|exact Ok2].
    rewrite (Ck _ _ _ _ _ _ R2) by (intros; apply in_app_iff; auto). cbn [bind]. exact C2.
Qed.
Lemma task_total t c B cs h a o ts X Y vs inl ini : PB B cs -> (match t with Decl _ _ => False | _ => True end) -> In (ttyp (output c)) [TOverload; TCall; TReturn] ->
  ready h a o ts X Y vs -> named Y vs -> block_ok fs ns inl ini vs (t :: B) -> placed o (t :: B) ->
  (forall h', (forall x, In x vs -> vis h' x a) -> check_all h' a (inputs c) = Done tt) -> accepts h a ([c] ++ cs).
Proof.
  intros HB Nt It R J [_ Ok] Pl Ck. assert (R' := ready_task _ _ _ _ _ _ _ c R). eapply accepts_step.
  - intros n. cbn [app precompile]. assert (N := r_at _ _ _ _ _ _ _ R). assert (T : ftasks o = Some ts) by apply (r_own _ _ _ _ _ _ _ R).
    assert (E : (h1 <- add_task h a c ;; _ <- check_all h1 a (inputs c) ;; precompile n h1 a cs) = precompile n (store h a (with_tasks o (ts ++ [c]))) a cs).
    { rewrite (add_task_ok _ _ _ _ _ N T). cbn [bind]. rewrite Ck; [reflexivity|exact (r_vis _ _ _ _ _ _ _ R')]. }
    destruct It as [It|[It|[It|[]]]]; rewrite <- It; exact E.
  - eapply HB; [exact R'|exact J| |].
    + destruct t; try easy; exact Ok.
    + inversion Pl; subst. assumption.
Qed.
Lemma pre_total : (forall t c, enc_stmt t c -> PS t c) /\ (forall B cs, enc_block B cs -> PB B cs).
Proof.
  apply enc_blocks_ind.
  - (* declaration *)
    intros x e c En B cs HB _ h a o ts X Y vs inl ini R J [[Oe [Nx [Nv Nf]]] Ok] Pl. destruct (declare_total h a o ts X Y vs x c R Nx Nv) as (h1 & o1 & E1 & R1 & F1).
    eapply accepts_step.
    + intros n. cbn [app precompile output ttyp ident inputs]. rewrite E1. cbn [bind check_all].
      rewrite (proj1 (checked fs ns _ a vs (fun y Iy => r_vis _ _ _ _ _ _ _ R1 y (in_or_app _ _ _ (or_introl Iy)))) e c En Oe). reflexivity.
    + eapply HB; [exact R1|intros y Iy; apply in_app_iff; left; now apply J|exact Ok|]. inversion Pl; subst. unfold placed. rewrite F1. assumption.
  - (* assignment *)
    intros s x e c En B cs HB _ h a o ts X Y vs inl ini R J Ok Pl. eapply (task_total (Assign x e)); eauto; [now left|].
    intros h' V. cbn [inputs]. destruct Ok as [(Oe & Ix) _]. destruct (checked fs ns h' a vs V) as [Ck _]. cbn [check_all]. rewrite (Ck (Var x) _ (enc_var x) Ix). cbn [bind]. rewrite (Ck _ _ En Oe). reflexivity.
  - intros e1 e2 c1 c2 E1 E2 B cs HB _ h a o ts X Y vs inl ini R J Ok Pl. eapply (task_total (Equal e1 e2)); eauto; [right; now left|].
    intros h' V. cbn [inputs]. destruct Ok as [(O1 & O2) _]. destruct (checked fs ns h' a vs V) as [Ck _]. cbn [check_all]. rewrite (Ck _ _ E1 O1). cbn [bind]. rewrite (Ck _ _ E2 O2). reflexivity.
  - intros f es ces Es B cs HB _ h a o ts X Y vs inl ini R J Ok Pl. eapply (task_total (Do f es)); eauto; [right; now left|].
    intros h' V. cbn [inputs]. destruct Ok as [(_ & O2) _]. destruct (checked fs ns h' a vs V) as [_ Ck]. now apply Ck with es.
  - intros s e c En B cs HB _ h a o ts X Y vs inl ini R J Ok Pl. eapply (task_total (Return e)); eauto; [right; right; now left|].
    intros h' V. cbn [inputs]. destruct Ok as [(O1 & O2) _]. destruct (checked fs ns h' a vs V) as [Ck _]. cbn [check_all]. rewrite (Ck _ _ En O1). reflexivity.
  - (* for *)
    intros s c cc s1 x e ce body cb fin Ec Ee Eb IHb Ef B cs HB EB h a o ts X Y vs inl ini R J [Ok1 Ok2] Pl. destruct R as [N Ow Fn I V]. assert (La := nth_lt _ _ _ N). assert (T : ftasks o = Some ts) by apply Ow.
    set (con := Con (Tok TFor s) _). cbn [app]. rewrite <- app_assoc. cbn [app].
    cbn [stmt_ok] in Ok1. destruct Ok1 as (Okc & Iv & Oke & Okb). apply stmt_block in Okb.
    set (name := blk (List.length ts) "for"). set (task := Con (Tok TFor name) (inputs con)). set (nw := new_circuit "for" (Some a)). set (hh := h ++ [nw]).
    set (o1 := with_tasks (with_funs o (set_at name (List.length h) (ffuns o))) (ts ++ [task])).
    assert (Lh : List.length hh = S (List.length h)) by (unfold hh; rewrite app_length; cbn; lia).
    assert (K : keep h (store hh a o1)) by (eapply keep_trans; [apply (keep_app h [nw])|]; eapply (keep_store _ a o o1); [now apply nth_app_old|reflexivity|intros ? Sx; now apply seen_fun]).
    assert (R1 : ready (store hh a o1) a o1 (ts ++ [task]) X Y vs).
    { constructor; auto; [apply nth_store_eq; lia|apply own_block; [exact Ow|exact Fn|now left]|]. intros y Iy. eapply vis_keep; eauto. }
    inversion Pl as [|? ? P1 P2]; subst.
    destruct (HB _ _ _ _ _ _ _ _ _ R1 J Ok2 P2) as (n0 & h4 & H4).
    destruct (pre_all fs ns n0 B cs (store hh a o1) a o1 (ts ++ [task]) X Y vs inl ini h4 EB (H4 n0 (le_n _)) (r_at _ _ _ _ _ _ _ R1) (r_own _ _ _ _ _ _ _ R1) Fn Ok2) as (o4 & ts4 & N4 & Ow4 & Gr4 & To4 & _).
    assert (K4 : keep (store hh a o1) h4).
    { eapply keep_touch; [exact To4|exact (r_at _ _ _ _ _ _ _ R1)|exact N4|apply Gr4|]. intros y Iy. apply Ow4. apply in_app_iff. left. eapply own_seen; [exact (r_own _ _ _ _ _ _ _ R1)|exact Fn|exact Iy]. }
    assert (Nb : nth_error h4 (List.length h) = Some nw).
    { destruct To4 as [_ To4]. rewrite To4; [|rewrite store_length, Lh; lia|lia]. rewrite nth_store_ne by lia. apply nth_last. }
    assert (R4 : ready h4 (List.length h) nw [] [] [] vs).
    { constructor; [exact Nb|apply own_nil|constructor|intros ? []|]. intros y Iy. eapply vis_up; [exact Nb|reflexivity|lia|]. eapply vis_keep; [exact K4|]. eapply vis_keep; [exact K|auto]. }
    destruct (IHb h4 (List.length h) nw [] [] [] vs true ini R4 (fun _ F => match F with end) Okb) as (n1 & h5 & H5).
    { destruct P1 as [P1|(_ & y & P1)]; [|discriminate]. cbn [publics_in] in P1. clear -P1. unfold placed. induction body as [|t b IH]; constructor; cbn [flat_map] in P1; apply app_eq_nil in P1; destruct P1; auto. }
    exists (S (Nat.max n0 n1)), h5. intros [|n] Ln; [lia|]. cbn [precompile]. unfold con at 1. cbn [output ttyp].
    rewrite (split_nested con body cb fin cs) by (auto; now left). cbn [get bind tl]. rewrite (block_name_ok _ _ _ _ "for" N T). cbn [bind alloc].
    rewrite (set_fun_ok _ _ _ _ o) by now apply nth_app_old. cbn [bind]. erewrite add_task_ok by (first [apply nth_store_eq; rewrite app_length; lia|exact T]). cbn [bind]. rewrite store_store.
    change (store (h ++ [_]) a _) with (store hh a o1). rewrite H4 by lia. cbn [bind]. apply H5. lia.
  - (* if *)
    intros s c cc body cb fin1 fin2 Ec Eb IHb E1 E2 B cs HB EB h a o ts X Y vs inl ini R J [Ok1 Ok2] Pl. destruct R as [N Ow Fn I V]. assert (La := nth_lt _ _ _ N). assert (T : ftasks o = Some ts) by apply Ow.
    cbn [stmt_ok] in Ok1. destruct Ok1 as (-> & Okc & Okb). apply stmt_block in Okb.
    set (con := Con (Tok TIf s) [cc]). cbn [app]. rewrite <- app_assoc. cbn [app].
    assert (Si : split_at_if_end (con :: cb ++ fin1 :: fin2 :: cs) = Done (con :: cb ++ [fin1], fin2 :: cs)).
    { assert (Sf : split_at_if_end (fin1 :: fin2 :: cs) = Done ([fin1], fin2 :: cs)).
      { destruct E1 as [F1 _], E2 as [F2 _]. cbn [split_at_if_end]. rewrite F1, F2. reflexivity. }
      unfold con. cbn [split_at_if_end output ttyp ttype_eqb]. rewrite (proj2 (split_if fs ns) _ _ Eb _ _ _ _ _ Okb Sf). reflexivity. }
    set (name := blk (List.length ts) "if"). set (f := List.length h). set (nf := new_circuit name (Some a)). set (task := leaf (Tok TIfCall name)). set (hh := h ++ [nf]).
    set (o1 := with_tasks (with_funs o (set_at name f (ffuns o))) (ts ++ [task])). set (nb := new_circuit "if" (Some a)). set (name2 := blk 0 "if").
    set (fo := with_tasks (with_funs nf (set_at name2 (S f) (ffuns nf))) ([] ++ [Con (Tok TIf name2) [cc]])).
    set (h6 := store (store hh a o1 ++ [nb]) f fo).
    assert (Lh : List.length hh = S f) by (unfold hh, f; rewrite app_length; cbn; lia).
    assert (N1 : nth_error (store hh a o1) a = Some o1) by (apply nth_store_eq; rewrite Lh; unfold f; lia).
    assert (Nf : nth_error (store hh a o1) f = Some nf) by (rewrite nth_store_ne by (unfold f; lia); apply nth_last).
    assert (Lg : List.length (store hh a o1 ++ [nb]) = S (S f)) by (rewrite app_length, store_length, Lh; cbn; lia).
    assert (Na6 : nth_error h6 a = Some o1) by (unfold h6; rewrite nth_store_ne by (unfold f; lia); now apply nth_app_old).
    assert (K : keep h h6).
    { eapply keep_trans; [apply (keep_app h [nf])|]. eapply keep_trans; [eapply (keep_store _ a o o1); [now apply nth_app_old|reflexivity|intros ? Sx; now apply seen_fun]|].
      eapply keep_trans; [apply (keep_app _ [nb])|]. eapply keep_store; [apply nth_app_old; exact Nf|reflexivity|intros ? Sx; now apply seen_fun]. }
    assert (R1 : ready h6 a o1 (ts ++ [task]) X Y vs).
    { constructor; auto; [apply own_block; [exact Ow|exact Fn|right; now left]|]. intros y Iy. eapply vis_keep; eauto. }
    inversion Pl as [|? ? P1 P2]; subst.
    destruct (HB _ _ _ _ _ _ _ _ _ R1 J Ok2 P2) as (n0 & h7 & H7).
    destruct (pre_all fs ns n0 B cs h6 a o1 (ts ++ [task]) X Y vs inl false h7 EB (H7 n0 (le_n _)) Na6 (r_own _ _ _ _ _ _ _ R1) Fn Ok2) as (o4 & ts4 & N4 & Ow4 & Gr4 & To4 & _).
    assert (K7 : keep h6 h7).
    { eapply keep_touch; [exact To4|exact Na6|exact N4|apply Gr4|]. intros y Iy. apply Ow4. apply in_app_iff. left. eapply own_seen; [exact (r_own _ _ _ _ _ _ _ R1)|exact Fn|exact Iy]. }
    assert (Nb : nth_error h7 (S f) = Some nb).
    { destruct To4 as [_ To4]. rewrite To4; [|unfold h6; rewrite store_length, Lg; lia|unfold f; lia]. unfold h6. rewrite nth_store_ne by lia. rewrite <- Lh, <- (store_length hh a o1). apply nth_last. }
    assert (R7 : ready h7 (S f) nb [] [] [] vs).
    { constructor; [exact Nb|apply own_nil|constructor|intros ? []|]. intros y Iy. eapply vis_up; [exact Nb|reflexivity|unfold f; lia|]. eapply vis_keep; [exact K7|]. eapply vis_keep; [exact K|auto]. }
    destruct (IHb h7 (S f) nb [] [] [] vs inl true R7 (fun _ F => match F with end) Okb) as (n1 & h8 & H8).
    { destruct P1 as [P1|(_ & y & P1)]; [|discriminate]. cbn [publics_in] in P1. clear -P1. unfold placed. induction body as [|t b IH]; constructor; cbn [flat_map] in P1; apply app_eq_nil in P1; destruct P1; auto. }
    exists (S (S (Nat.max n0 n1))), h8. intros [|n] Ln; [lia|]. cbn [precompile]. unfold con at 1. cbn [output ttyp].
    rewrite Si. cbn [bind]. rewrite (block_name_ok _ _ _ _ "if" N T). cbn [bind alloc].
    rewrite (set_fun_ok _ _ _ _ o) by now apply nth_app_old. cbn [bind]. erewrite add_task_ok by (first [apply nth_store_eq; rewrite app_length; lia|exact T]). cbn [bind]. rewrite store_store.
    change (store (h ++ [_]) a _) with (store hh a o1).
    rewrite (split_nested con body cb fin1 []) by (auto; right; now left). cbn [get bind tl]. fold f. rewrite (block_name_ok _ _ _ [] "if" Nf eq_refl). cbn [bind List.length].
    rewrite (set_fun_ok _ _ _ _ nf) by (apply nth_app_old; exact Nf). cbn [bind]. rewrite store_length, Lh.
    fold nb. erewrite add_task_ok by (first [apply nth_store_eq; rewrite Lg; lia|reflexivity]). cbn [bind]. rewrite store_store.
    change (store (store hh a o1 ++ [_]) f _) with h6. destruct n as [|n]; [lia|].
    assert (Eo : precompile (S n) h6 a (fin2 :: cs) = Done h7).
    { destruct E2 as [F2 I2]. cbn [precompile]. rewrite F2, I2. cbn [check_all bind]. apply H7. lia. }
    rewrite Eo. cbn [bind]. rewrite H8 by lia. reflexivity.
  - (* public *)
    intros x B cs HB _ h a o ts X Y vs inl ini R J [_ Ok] Pl. inversion Pl as [|? ? P1 P2]; subst. destruct P1 as [P1|[P1 _]]; [discriminate|]. eapply accepts_step.
    + intros n. cbn [app precompile output ttyp inputs]. unfold fetch. rewrite (r_at _ _ _ _ _ _ _ R). cbn [get bind]. rewrite P1. cbn [check_all bind]. change (String.eqb "main" "main") with true. cbn iota. reflexivity.
    + eapply HB; [exact R|exact J|exact Ok|exact P2].
  - (* an element of an array *)
    intros s x es ces e c Ees En B cs HB _ h a o ts X Y vs inl ini R J Ok Pl. eapply (task_total (Put x es e)); eauto; [now left|].
    intros h' V. cbn [inputs]. destruct Ok as [(_ & _ & Os & Oe) _]. destruct (checked fs ns h' a vs V) as [Ck Cs]. cbn [check_all]. rewrite check_con, (Cs _ _ Ees Os). cbn [bind ttyp ttype_eqb is_operator orb].
    rewrite (Ck _ _ En Oe). reflexivity.
  - intros h a o ts X Y vs inl ini _ _ _ _. exists 1, h. intros [|n] L; [lia|reflexivity].
  - intros t B c cs Et Ht EB HB h a o ts X Y vs inl ini R J Ok Pl. eapply Ht; eauto.
  - (* an array *)
    intros x es ces B cs Nes Ees _ HB h a o ts X Y vs inl ini R J Ok Pl. unfold array in Ok, Pl. cbn [app] in Ok, Pl. destruct Ok as [[Nx [Nv Nf]] Ok].
    destruct R as [N Ow Fn I V]. assert (La := nth_lt _ _ _ N).
    assert (Lx : lookup x (fcons o) = None).
    { apply lookup_none_keys. intros J0. apply Ow in J0. destruct J0 as [J0 _]. apply in_app_iff in J0. destruct J0 as [J0|J0]; [auto|]. destruct es as [|e es]; [easy|]. cbn [elements app] in Ok. destruct Ok as [[_ [_ [Ne _]]] _]. apply Ne, J, J0. }
    set (con := Con (Tok TArrDecl x) ces). set (o0 := with_cons o (set_at x con (fcons o))).
    assert (K : keep h (store h a o0)).
    { eapply (keep_store _ a o o0); [exact N|reflexivity|]. intros y [Iy Iz]. unfold seen. cbn [o0 fcons ffuns with_cons]. rewrite set_at_keys. auto. }
    destruct (elements_total a x B inl ini es ces Ees 0 (store h a o0) o0 ts X (Y ++ [x]) vs) as (h1 & o1 & ts1 & E1 & R1 & F1 & C1 & Ok1); [|exact Ok|].
    { constructor; auto.
      - now apply nth_store_eq.
      - now apply own_array.
      - rewrite app_assoc. apply Forall_app. split; auto.
      - intros y Iy. eapply vis_keep; eauto. }
    eapply accepts_step.
    + intros n. unfold con. cbn [app precompile output ttyp ident inputs]. unfold fetch at 1. rewrite N. cbn [get bind]. rewrite Lx, (set_con_ok _ _ _ _ o N). cbn [bind]. change (store h a _) with (store h a o0). rewrite E1. cbn [bind]. rewrite C1. reflexivity.
    + eapply HB; [exact R1| |exact Ok1|].
      * intros y Iy. apply in_app_iff in Iy. apply in_app_iff. destruct Iy as [Iy|[<-|[]]]; [left; now apply J|]. right. destruct es as [|e es]; [easy|]. cbn [elements]. rewrite decls_cons. now left.
      * unfold placed. rewrite F1. inversion Pl; subst. eapply placed_all_of; eauto.
Qed.

(** ** What is accepted declares signals public in main only *)
Definition PLC (n : nat) : Prop := forall B cs h a o ts0 X Y vs inl ini h',
  enc_block B cs -> precompile n h a cs = Done h' -> nth_error h a = Some o -> own o ts0 X Y -> Forall name_ok (X ++ Y) -> block_ok fs ns inl ini vs B -> placed o B.
Lemma placed_none o B : fname o <> "main" -> placed o B -> flat_map publics_in B = [].
Proof. intros N. induction 1 as [|t B [H|[H _]] _ IH]; cbn [flat_map]; [reflexivity|now rewrite H, IH|easy]. Qed.
Lemma declare_name h a x c h' o o' : declare h a (Con (Tok TVarDecl x) [c]) = Done h' -> nth_error h a = Some o -> nth_error h' a = Some o' -> fname o' = fname o.
Proof.
  intros Ed N N'. assert (La := nth_lt _ _ _ N). unfold declare in Ed. cbn [output ident inputs] in Ed. unfold fetch at 1 in Ed. rewrite N in Ed. cbn [get bind] in Ed. destruct (lookup x (ffuns o)) as [|] eqn:Lk; [discriminate|]. cbn [alloc] in Ed.
  rewrite (set_fun_ok _ _ _ _ o) in Ed by now apply nth_app_old. cbn [bind] in Ed. erewrite set_con_ok in Ed by (apply nth_store_eq; rewrite app_length; lia). cbn [bind] in Ed. rewrite store_store in Ed.
  unfold add_task, fetch in Ed. rewrite nth_store_eq in Ed by (rewrite app_length; lia). cbn [get bind] in Ed. destruct (ftasks _) in Ed; [|discriminate]. injection Ed as <-. rewrite store_store in N'. rewrite nth_store_eq in N' by (rewrite app_length; lia). injection N' as <-. reflexivity.
Qed.
Lemma declare_at h a x c h' o : declare h a (Con (Tok TVarDecl x) [c]) = Done h' -> nth_error h a = Some o -> exists o', nth_error h' a = Some o'.
Proof.
  intros Ed N. assert (La := nth_lt _ _ _ N). unfold declare in Ed. cbn [output ident inputs] in Ed. unfold fetch at 1 in Ed. rewrite N in Ed. cbn [get bind] in Ed. destruct (lookup x (ffuns o)) as [|] eqn:Lk; [discriminate|]. cbn [alloc] in Ed.
  rewrite (set_fun_ok _ _ _ _ o) in Ed by now apply nth_app_old. cbn [bind] in Ed. erewrite set_con_ok in Ed by (apply nth_store_eq; rewrite app_length; lia). cbn [bind] in Ed. rewrite store_store in Ed.
  unfold add_task, fetch in Ed. rewrite nth_store_eq in Ed by (rewrite app_length; lia). cbn [get bind] in Ed. destruct (ftasks _) in Ed; [|discriminate]. injection Ed as <-. rewrite store_store. rewrite nth_store_eq by (rewrite app_length; lia). eauto.
Qed.
Lemma elements_name a x : forall cs i h h' o o', declare_elements h a x i cs = Done h' -> nth_error h a = Some o -> nth_error h' a = Some o' -> fname o' = fname o.
Proof.
  induction cs as [|c cs IH]; intros i h h' o o' E N N'; cbn [declare_elements] in E; [injection E as <-; congruence|].
  apply bind_inv in E. destruct E as (h1 & E1 & E). apply bind_inv in E. destruct E as (u & _ & E). destruct (declare_at _ _ _ _ _ _ E1 N) as [o1 N1].
  rewrite (IH _ _ _ _ _ E N1 N'). exact (declare_name _ _ _ _ _ _ _ E1 N N1).
Qed.
Lemma placed_step n : (forall k, k < n -> PLC k) -> PLC n.
Proof.
  intros IH B cs h a o ts0 X Y vs inl ini h' En E N Ow Fn Ok. destruct n as [|n]; [discriminate|].
  assert (IHn := IH n (Nat.lt_succ_diag_r n)).
  destruct En as [|t B c1 cs En1 En2|x es ces B cs Nes Ees En2]; [constructor| |].
  2:{ (* an array *)
    unfold array in Ok. cbn [app] in Ok. destruct Ok as [Ok1 Ok2]. cbn in Ok1. assert (Nx : name_ok x) by apply Ok1. assert (La := nth_lt _ _ _ N).
    cbn [precompile output ttyp ident inputs] in E. unfold fetch in E. rewrite N in E. cbn [get bind] in E. destruct (lookup x (fcons o)) eqn:Lx; [discriminate|].
    rewrite (set_con_ok _ _ _ _ o N) in E. cbn [bind] in E. apply bind_inv in E. destruct E as (h2 & E2 & E). apply bind_inv in E. destruct E as (u & _ & E). set (o0 := with_cons o _) in E2.
    destruct (elements_spec a x es ces 0 _ _ ts0 X (Y ++ [x]) h2 Ees E2 (nth_store_eq _ _ _ La) (own_array _ _ _ _ _ _ Ow Nx Lx)) as (o2 & ts2 & N2 & Ow2 & _).
    assert (F2 := elements_name _ _ _ _ _ _ _ _ E2 (nth_store_eq _ _ _ La) N2).
    assert (Fe := elements_named fs ns inl ini x B es 0 vs Ok2). destruct (block_ok_app fs ns inl ini B _ _ Ok2) as [vs' Ok3].
    apply Forall_app in Fn. destruct Fn as [FX FY].
    assert (Pb : placed o2 B) by (refine (IHn B cs h2 a o2 _ _ _ vs' inl ini h' En2 E N2 Ow2 _ Ok3); repeat (apply Forall_app; split); auto).
    unfold placed in *. rewrite F2 in Pb. unfold array. cbn [app]. constructor; [now left|]. apply Forall_app. split; [|exact Pb]. clear. generalize 0 as i. induction es as [|e es IH]; intros i; cbn [elements]; constructor; auto. }
  destruct Ok as [Ok1 Ok2]. assert (La := nth_lt _ _ _ N). assert (Et : ftasks o = Some ts0) by apply Ow.
  assert (Task : forall c, In (ttyp (output c)) [TOverload; TCall; TReturn] -> block_ok fs ns inl ini vs B -> precompile (S n) h a (c :: cs) = Done h' -> placed o B).
  { intros c It Ok' E'. cbn [precompile] in E'.
    assert (E2 : (h1 <- add_task h a c ;; _ <- check_all h1 a (inputs c) ;; precompile n h1 a cs) = Done h') by (destruct It as [It|[It|[It|[]]]]; rewrite <- It in E'; exact E').
    rewrite (add_task_ok _ _ _ _ _ N Et) in E2. cbn [bind] in E2. apply bind_inv in E2. destruct E2 as (? & _ & E2).
    refine (IHn B cs _ a (with_tasks o (ts0 ++ [c])) (ts0 ++ [c]) X Y vs inl ini h' En2 E2 _ _ Fn Ok'); [apply nth_store_eq; exact La|now apply own_task]. }
  destruct En1 as [x e c En|s x e c En|e1 e2 c1 c2 E1 E2|f es ces Es|s e c En|s c cc s1 x e ce body cb fin Ec Ee Eb Ef|s c cc body cb fin1 fin2 Ec Eb E1 E2|x|s x es ces e c Ees En].
  - constructor; [now left|]. cbn [app precompile output ttyp ident inputs] in E. apply bind_inv in E. destruct E as (h1 & Ed & E). apply bind_inv in E. destruct E as (u & _ & E).
    unfold declare in Ed. cbn [output ident inputs] in Ed. unfold fetch at 1 in Ed. rewrite N in Ed. cbn [get bind] in Ed. destruct (lookup x (ffuns o)) as [|] eqn:Lk; [discriminate|]. cbn [alloc] in Ed.
    rewrite (set_fun_ok _ _ _ _ o) in Ed by now apply nth_app_old. cbn [bind] in Ed. erewrite set_con_ok in Ed by (apply nth_store_eq; rewrite app_length; lia). cbn [bind] in Ed. rewrite store_store in Ed.
    erewrite add_task_ok in Ed by (first [apply nth_store_eq; rewrite app_length; lia|exact Et]). rewrite store_store in Ed. injection Ed as <-.
    cbn [fcons with_funs] in E. match type of E with precompile _ (store ?x a ?y) _ _ = _ => set (o1 := y) in E; set (hh := x) in E end.
    refine (IHn B cs _ a o1 _ (X ++ [x]) Y (vs ++ [x]) inl ini h' En2 E _ (own_declare o ts0 X Y x _ _ Ow) _ Ok2).
    + apply nth_store_eq. unfold hh. rewrite app_length. lia.
    + apply Forall_app in Fn. destruct Fn as [FX FY]. repeat (apply Forall_app; split); auto. constructor; auto. cbn in Ok1. apply Ok1.
  - constructor; [now left|]. eapply Task; [|exact Ok2|exact E]. now left.
  - constructor; [now left|]. eapply Task; [|exact Ok2|exact E]. right. now left.
  - constructor; [now left|]. eapply Task; [|exact Ok2|exact E]. right. now left.
  - constructor; [now left|]. eapply Task; [|exact Ok2|exact E]. right. right. now left.
  - set (con := Con (Tok TFor s) _) in E. cbn [app] in E. rewrite <- app_assoc in E. cbn [app] in E. cbn [precompile] in E. unfold con at 1 in E. cbn [output ttyp] in E.
    rewrite (split_nested con body cb fin cs) in E by (auto; now left). cbn [get bind tl] in E. rewrite (block_name_ok _ _ _ _ "for" N Et) in E. cbn [bind alloc] in E.
    rewrite (set_fun_ok _ _ _ _ o) in E by now apply nth_app_old. cbn [bind] in E. erewrite add_task_ok in E by (first [apply nth_store_eq; rewrite app_length; lia|exact Et]). cbn [bind] in E. rewrite store_store in E.
    apply bind_inv in E. destruct E as (h4 & E4 & E). set (hh := h ++ [_]) in E4. set (o1 := with_tasks _ _) in E4.
    assert (Lh : List.length hh = S (List.length h)) by (unfold hh; rewrite app_length; cbn; lia).
    cbn [stmt_ok] in Ok1. destruct Ok1 as (Okc & Iv & Oke & Okb). apply stmt_block in Okb.
    assert (N1 : nth_error (store hh a o1) a = Some o1) by (apply nth_store_eq; lia).
    assert (Ow1 : own o1 (ts0 ++ [Con (Tok TFor (blk (List.length ts0) "for")) (inputs con)]) X Y) by (apply own_block; [exact Ow|exact Fn|now left]).
    destruct (pre_all fs ns n B cs _ a o1 _ X Y vs inl ini h4 En2 E4 N1 Ow1 Fn Ok2) as (o4 & ts4 & N4 & Ow4 & Gr4 & To4 & _).
    assert (Nb : nth_error h4 (List.length h) = Some (new_circuit "for" (Some a))).
    { destruct To4 as [_ To4]. rewrite To4; [|rewrite store_length, Lh; lia|lia]. rewrite nth_store_ne by lia. apply nth_last. }
    constructor; [left|exact (IHn B cs _ a o1 _ X Y vs inl ini h4 En2 E4 N1 Ow1 Fn Ok2)].
    assert (Pb := IHn body cb h4 (List.length h) _ [] [] [] vs true ini h' Eb E Nb (own_nil _ _) (Forall_nil _) Okb). eapply placed_none in Pb; [exact Pb|discriminate].
  - cbn [stmt_ok] in Ok1. destruct Ok1 as (-> & Okc & Okb). apply stmt_block in Okb.
    set (con := Con (Tok TIf s) [cc]) in E. cbn [app] in E. rewrite <- app_assoc in E. cbn [app] in E. cbn [precompile] in E. unfold con at 1 in E. cbn [output ttyp] in E.
    assert (Si : split_at_if_end (con :: cb ++ fin1 :: fin2 :: cs) = Done (con :: cb ++ [fin1], fin2 :: cs)).
    { assert (Sf : split_at_if_end (fin1 :: fin2 :: cs) = Done ([fin1], fin2 :: cs)).
      { destruct E1 as [F1 _], E2 as [F2 _]. cbn [split_at_if_end]. rewrite F1, F2. reflexivity. }
      unfold con. cbn [split_at_if_end output ttyp ttype_eqb]. rewrite (proj2 (split_if fs ns) _ _ Eb _ _ _ _ _ Okb Sf). reflexivity. }
    rewrite Si in E. cbn [bind] in E. clear Si. rewrite (block_name_ok _ _ _ _ "if" N Et) in E. cbn [bind alloc] in E.
    rewrite (set_fun_ok _ _ _ _ o) in E by now apply nth_app_old. cbn [bind] in E. erewrite add_task_ok in E by (first [apply nth_store_eq; rewrite app_length; lia|exact Et]). cbn [bind] in E. rewrite store_store in E.
    rewrite (split_nested con body cb fin1 []) in E by (auto; right; now left). cbn [get bind tl] in E.
    set (name := blk (List.length ts0) "if") in E. set (f := List.length h) in *. set (nf := new_circuit name (Some a)) in E. set (hh := h ++ [nf]) in E. set (o1 := with_tasks _ _) in E. set (nb := new_circuit "if" (Some a)) in E.
    assert (Lh : List.length hh = S f) by (unfold hh, f; rewrite app_length; cbn; lia).
    assert (Nf : nth_error (store hh a o1) f = Some nf) by (rewrite nth_store_ne by (unfold f; lia); apply nth_last).
    assert (Lg : List.length (store hh a o1 ++ [nb]) = S (S f)) by (rewrite app_length, store_length, Lh; cbn; lia).
    rewrite (block_name_ok _ _ _ [] "if" Nf eq_refl) in E. cbn [bind List.length] in E.
    rewrite (set_fun_ok _ _ _ _ nf) in E by (apply nth_app_old; exact Nf). cbn [bind] in E. rewrite store_length, Lh in E.
    erewrite add_task_ok in E by (first [apply nth_store_eq; rewrite Lg; lia|reflexivity]). cbn [bind] in E. rewrite store_store in E.
    set (fo := with_tasks _ _) in E. set (h6 := store _ f fo) in E.
    apply bind_inv in E. destruct E as (h7 & E7 & E). apply bind_inv in E. destruct E as (h8 & E8 & _).
    destruct n as [|n]; [discriminate|]. destruct E2 as [F2 I2].
    assert (E7' : precompile n h6 a cs = Done h7) by (cbn [precompile] in E7; rewrite F2, I2 in E7; exact E7). clear E7.
    assert (Na6 : nth_error h6 a = Some o1).
    { unfold h6. rewrite nth_store_ne by (unfold f; lia). apply nth_app_old. apply nth_store_eq. rewrite Lh. unfold f. lia. }
    assert (Ow1 : own o1 (ts0 ++ [leaf (Tok TIfCall name)]) X Y) by (apply own_block; [exact Ow|exact Fn|right; now left]).
    destruct (pre_all fs ns n B cs h6 a o1 _ X Y vs inl false h7 En2 E7' Na6 Ow1 Fn Ok2) as (o4 & ts4 & N4 & Ow4 & Gr4 & To4 & _).
    assert (Nb : nth_error h7 (S f) = Some nb).
    { destruct To4 as [_ To4]. rewrite To4; [|unfold h6; rewrite store_length, Lg; lia|unfold f; lia]. unfold h6. rewrite nth_store_ne by lia. rewrite <- Lh, <- (store_length hh a o1). apply nth_last. }
    constructor; [left|exact (IH n ltac:(lia) B cs h6 a o1 _ X Y vs inl false h7 En2 E7' Na6 Ow1 Fn Ok2)].
    assert (Pb := IHn body cb h7 (S f) _ [] [] [] vs inl true h8 Eb E8 Nb (own_nil _ _) (Forall_nil _) Okb). eapply placed_none in Pb; [exact Pb|discriminate].
  - cbn [app precompile output ttyp ident inputs] in E. unfold fetch in E. rewrite N in E. cbn [get bind] in E. destruct (String.eqb (fname o) "main") eqn:Em; [|discriminate].
    apply bind_inv in E. destruct E as (u & _ & E). constructor; [right; split; [now apply String.eqb_eq|eauto]|]. exact (IHn B cs h a o ts0 X Y vs inl ini h' En2 E N Ow Fn Ok2).
  - constructor; [now left|]. eapply Task; [|exact Ok2|exact E]. now left.
Qed.
Lemma placed_all n : PLC n.
Proof. induction n as [n IH] using lt_wf_ind. now apply placed_step. Qed.
End P.

(** ** Functions *)
Section F.
Variable fs : defs.
Lemma args_total : forall ps h f o ts X, nth_error h f = Some o -> own o ts X [] -> Forall name_ok ps -> NoDup ps -> (forall x, In x ps -> ~ In x X) ->
  exists h' o', register_args h f (map (fun x => Con (Tok TArgument x) []) ps) = Done h' /\ nth_error h' f = Some o' /\ fname o' = fname o.
Proof.
  induction ps as [|x ps IH]; intros h f o ts X N Ow Fn Nd Nx; cbn [map register_args output ident inputs]; [eauto|].
  inversion Fn as [|? ? Fx Fp]; subst. inversion Nd as [|? ? Nix Ndp]; subst. unfold fetch. rewrite N. cbn [get bind].
  assert (Lk : lookup x (ffuns o) = None).
  { apply lookup_none_keys. intros J. destruct Ow as (_ & _ & _ & D). destruct (D x J) as [J1|(k & s & -> & _)]; [apply (Nx x); [now left|auto]|exact (blk_name _ _ Fx)]. }
  rewrite Lk. cbn [alloc]. set (oa := FObj _ _ _ _ _ _ _). fold (arg_object x). assert (Lf := nth_lt _ _ _ N).
  rewrite (set_fun_ok _ _ _ _ oa) by (apply nth_app_old; now apply nth_store_eq). cbn [bind]. set (o1 := with_funs oa _).
  destruct (IH (store (store h f oa ++ [arg_object x]) f o1) f o1 ts (X ++ [x])) as (h' & o' & E & N' & F'); auto.
  - apply nth_store_eq. rewrite app_length, store_length. lia.
  - eapply own_arg; [exact Ow|reflexivity|reflexivity|reflexivity].
  - intros y Iy J. apply in_app_iff in J. destruct J as [J|[<-|[]]]; [apply (Nx y); [now right|auto]|easy].
  - exists h', o'. auto.
Qed.
Lemma prog_total : forall fs' cs, enc_prog fs' cs -> forall h g, nth_error h 0 = Some g -> fcons g = [] -> fctx g = None -> (forall f, In f (map fst fs') -> lookup f (ffuns g) = None) ->
  NoDup (map fst fs') -> Forall (fun d => fun_ok fs (fst d) (snd d)) fs' -> publics_at_main fs' -> accepts h 0 cs.
Proof.
  induction 1 as [|f ps body fs' cs fin cs' Eb Ef Ep IH]; intros h g N Cg Cx Lg Nd Ok Pm.
  - exists 1, h. intros [|n] L; [lia|reflexivity].
  - inversion Ok as [|? ? (Nf & Ndp & Pp & nf & Inf & Bok) Ok2]; subst. cbn [fst snd fparams fbody map] in *. inversion Nd as [|? ? Nif Nd2]; subst.
    assert (Fp : Forall name_ok ps) by (eapply Forall_impl; [|exact Pp]; cbn; tauto).
    set (oa := new_circuit f (Some 0)). assert (L0 := nth_lt _ _ _ N).
    destruct (args_total ps (h ++ [oa]) (List.length h) oa [] [] (nth_last _ _) (own_nil _ _) Fp Ndp (fun _ _ F => F)) as (h1 & o1 & Er & N1' & Fm).
    destruct (register_args_spec ps (h ++ [oa]) (List.length h) oa [] [] [] h1 Er (nth_last _ _) (own_nil _ _)) as (o1' & N1 & I1 & C1 & Ow1 & To1 & _ & P1).
    rewrite N1 in N1'. injection N1' as ->. cbn [app finputs fctx oa new_circuit] in *.
    assert (Ng1 : nth_error h1 0 = Some g).
    { destruct To1 as [_ To1]. rewrite To1; [apply nth_app_old; exact N|rewrite app_length; lia|lia]. }
    assert (L1 : S (List.length h) <= List.length h1) by (destruct To1 as [To1 _]; rewrite app_length in To1; cbn in To1; lia).
    set (g2 := with_funs g (set_at f (List.length h) (ffuns g))). set (h2 := store h1 0 g2).
    assert (L2 : List.length h2 = List.length h1) by apply store_length.
    assert (Ng2 : nth_error h2 0 = Some g2) by (apply nth_store_eq; lia).
    destruct (IH h2 g2 Ng2 Cg Cx) as (n0 & h3 & H3); auto.
    { intros f0 I0. cbn [g2 ffuns with_funs]. rewrite lookup_set_at. destruct (String.eqb_spec f0 f) as [->|_]; [easy|apply Lg; now right]. }
    { intros f0 d I0. apply (Pm f0 d). now right. }
    destruct (pre_prog fs fs' cs' Ep n0 h2 h3 g2 (H3 n0 (le_n _)) Ng2 Cg Cx Ok2) as (g3 & Ng3 & Cg3 & _ & To3 & _).
    assert (Na3 : nth_error h3 (List.length h) = Some o1).
    { destruct To3 as [_ To3]. rewrite To3; [|lia|lia]. unfold h2. rewrite nth_store_ne by lia. exact N1. }
    destruct (proj2 (pre_total fs nf) _ _ Eb h3 (List.length h) o1 [] ps [] ps false false) as (n1 & h4 & H4).
    { constructor; auto; [now rewrite app_nil_r|]. intros x Ix. eapply vis_here; [exact Na3|]. apply Ow1. exact Ix. }
    { intros ? []. }
    { exact Bok. }
    { unfold placed. rewrite Fm. eapply Forall_impl; [|exact (Pm f (Fun ps body) (or_introl eq_refl))]. auto. }
    exists (S (Nat.max n0 n1)), h4. intros [|n] Ln; [lia|]. set (con := Con (Tok TFuncDef f) _). cbn [precompile]. unfold con at 1. cbn [output ttyp].
    rewrite (split_nested con body cs fin cs') by (auto; right; right; now left). cbn [get bind tl].
    unfold fetch at 1. rewrite N. cbn [get bind]. unfold con. cbn [output ident]. rewrite Cg, (Lg f (or_introl eq_refl)). cbn [lookup].
    unfold register_function. cbn [alloc output ident inputs]. fold oa. rewrite Er. cbn [bind]. rewrite (set_fun_ok _ _ _ _ g Ng1). cbn [bind]. fold g2. fold h2.
    rewrite H3 by lia. cbn [bind]. apply H4. lia.
Qed.

Lemma args_name : forall ps h f o h' o', register_args h f (map (fun x => Con (Tok TArgument x) []) ps) = Done h' -> nth_error h f = Some o -> nth_error h' f = Some o' -> fname o' = fname o.
Proof.
  induction ps as [|x ps IH]; intros h f o h' o' E N N'; cbn [map register_args output ident inputs] in E; [injection E as <-; congruence|].
  unfold fetch in E. rewrite N in E. cbn [get bind] in E. destruct (lookup x (ffuns o)); [discriminate|]. cbn [alloc] in E. set (oa := FObj _ _ _ _ _ _ _) in E. assert (Lf := nth_lt _ _ _ N).
  rewrite (set_fun_ok _ _ _ _ oa) in E by (apply nth_app_old; now apply nth_store_eq). cbn [bind] in E. apply (IH _ _ (with_funs oa (set_at x (List.length (store h f oa)) (ffuns oa))) _ _ E); [|exact N'].
  apply nth_store_eq. rewrite app_length, store_length. lia.
Qed.
Lemma prog_placed : forall fs' cs, enc_prog fs' cs -> forall n h h' g, precompile n h 0 cs = Done h' -> nth_error h 0 = Some g -> fcons g = [] -> fctx g = None ->
  Forall (fun d => fun_ok fs (fst d) (snd d)) fs' -> publics_at_main fs'.
Proof.
  induction 1 as [|f ps body fs' cs fin cs' Eb Ef Ep IH]; intros n h h' g E N Cg Cx Ok; (destruct n as [|n]; [discriminate|]).
  - intros ? ? [].
  - inversion Ok as [|? ? (Nf & Nd & Pp & nf & Inf & Bok) Ok2]; subst. cbn [fst snd fparams fbody] in *.
    set (con := Con (Tok TFuncDef f) _) in E. cbn [precompile] in E. unfold con at 1 in E. cbn [output ttyp] in E.
    rewrite (split_nested con body cs fin cs') in E by (auto; right; right; now left). cbn [get bind tl] in E.
    unfold fetch in E. rewrite N in E. cbn [get bind] in E. unfold con in E. cbn [output ident] in E. rewrite Cg in E. cbn [lookup] in E.
    destruct (lookup f (ffuns g)) eqn:Lk; [discriminate|].
    apply bind_inv in E. destruct E as ([h1 a] & Er & E). unfold register_function in Er. cbn [alloc output ident inputs] in Er.
    apply bind_inv in Er. destruct Er as (h0 & Er & X). injection X as X1 X2. subst h0 a.
    assert (Lg := nth_lt _ _ _ N).
    set (oa := new_circuit f (Some 0)) in Er.
    destruct (register_args_spec ps (h ++ [oa]) (List.length h) oa [] [] [] h1 Er (nth_last _ _) (own_nil _ _)) as (o1 & N1 & I1 & C1 & Ow1 & To1 & _ & P1). cbn [app finputs fctx oa new_circuit] in *.
    assert (Fm := args_name _ _ _ _ _ _ Er (nth_last _ _) N1). cbn [fname new_circuit] in Fm.
    apply bind_inv in E. destruct E as (h2 & E2 & E).
    assert (Ng1 : nth_error h1 0 = Some g).
    { destruct To1 as [_ To1]. rewrite To1; [apply nth_app_old; exact N|rewrite app_length; lia|lia]. }
    apply (set_fun_inv _ _ _ _ _ _ E2) in Ng1 as H2. clear E2. set (g2 := with_funs g _) in H2.
    assert (L1 : S (List.length h) <= List.length h1) by (destruct To1 as [To1 _]; rewrite app_length in To1; cbn in To1; lia).
    apply bind_inv in E. destruct E as (h3 & E3 & E).
    assert (Ng2 : nth_error h2 0 = Some g2) by (rewrite H2; apply nth_store_eq; lia).
    assert (L2 : List.length h2 = List.length h1) by (rewrite H2; apply store_length).
    destruct (pre_prog fs fs' cs' Ep n h2 h3 g2 E3 Ng2 Cg Cx Ok2) as (g3 & Ng3 & Cg3 & _ & To3 & _).
    assert (Na3 : nth_error h3 (List.length h) = Some o1).
    { destruct To3 as [_ To3]. rewrite To3; [|lia|lia]. rewrite H2, nth_store_ne by lia. exact N1. }
    assert (Fp : Forall name_ok ps) by (eapply Forall_impl; [|exact Pp]; cbn; tauto).
    assert (Fp' : Forall name_ok (ps ++ [])) by now rewrite app_nil_r.
    assert (Pb := placed_all fs nf n body cs h3 (List.length h) o1 [] ps [] ps false false h' Eb E Na3 Ow1 Fp' Bok).
    intros f0 d [X|I0]; [|exact (IH n h2 h3 g2 E3 Ng2 Cg Cx Ok2 f0 d I0)]. injection X as <- <-. unfold placed in Pb. rewrite Fm in Pb. exact Pb.
Qed.
End F.

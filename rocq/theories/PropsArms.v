(** What becomes of chains of if, else if and else (circuit.go:83-144, Programm.go:332-349). *)
Require Import ZArith Lia Bool Ascii String List.
Require Import Verif.FqModel Verif.FactorModel Verif.ParserModel Verif.CircuitModel Verif.LangSpec Verif.LangHeap Verif.LangSym Verif.LangTree Verif.LangScope Verif.LangRun Verif.LangBuild Verif.SourceSpec Verif.PropsElse Verif.PropsFactor.
Import ListNotations.
Local Open Scope string_scope.
Local Open Scope list_scope.
Local Open Scope nat_scope.

(** ** Specification *)
(** Arms from number k on, each with the constraints of its condition (none: else) in order: the block of every arm whose
    condition holds is run, until one returns. *)
Fixpoint run_arms (test : ctree -> state -> res (bool * state)) (block : string -> state -> res (ret * state)) (k : nat) (arms : list (option ctree)) (st : state) : res (ret * state) :=
  match arms with
  | [] => Done (nothing, st)
  | a :: arms' =>
      '(go, st1) <- match a with None => Done (true, st) | Some c => test c st end ;;
      if go then '(r, st2) <- block (blk k "if") st1 ;;
                 if rflag r then Done (Ret (rvals r) true (rfun r), st2) else run_arms test block (S k) arms' st2
      else run_arms test block (S k) arms' st1
  end.

(** ** Proofs *)
Definition conds_of (a : option ctree) : list ctree := match a with Some c => [c] | None => [] end.
Fixpoint arm_tasks (k : nat) (arms : list (option ctree)) : list ctree :=
  match arms with [] => [] | a :: arms' => Con (Tok TIf (blk k "if")) (conds_of a) :: arm_tasks (S k) arms' end.
Inductive arm_code : list (option ctree) -> list (list stmt) -> list ctree -> Prop :=
| ac_nil : arm_code [] [] []
| ac_cons a arms B Bs cb cs : enc_block B cb -> arm_code arms Bs cs ->
    arm_code (a :: arms) (B :: Bs) ((Con (Tok TElse "") (conds_of a) :: cb ++ [Con (Tok TNestedEnd "") []]) ++ cs).
Lemma split_else i B cs rest : enc_block B cs ->
  split_at_nested_end 0 ((Con (Tok TElse "") i :: cs ++ [Con (Tok TNestedEnd "") []]) ++ rest) = Some (Con (Tok TElse "") i :: cs, rest).
Proof.
  intros En. cbn [app]. rewrite <- app_assoc. cbn [app]. rewrite split_step; cbn [output ttyp]; [|lia]. rewrite (proj2 split_block _ _ En) by lia. cbn [split_at_nested_end output ttyp]. cbn. now rewrite app_nil_r.
Qed.
Lemma split_arms fs ns inl vs : forall arms Bs cs, arm_code arms Bs cs -> Forall (block_ok fs ns inl true vs) Bs ->
  forall i o k, split_at_if_end k = Done (i, o) -> split_at_if_end (cs ++ k) = Done (cs ++ i, o).
Proof.
  induction 1 as [|a arms B Bs cb cs En Ac IH]; intros F i o k E; [exact E|]. inversion F; subst.
  rewrite <- !app_assoc. cbn [app split_at_if_end output ttyp ttype_eqb]. rewrite <- !app_assoc. cbn [app].
  rewrite (proj2 (split_if fs ns) _ _ En inl vs (Con (Tok TNestedEnd "") [] :: cs ++ i) o); [reflexivity|assumption|].
  cbn [split_at_if_end output ttyp ttype_eqb]. now rewrite (IH H2 _ _ _ E).
Qed.
Definition blocks_at (h : heap) (f k : nat) (of : fobj) (Bs : list (list stmt)) : Prop :=
  forall i B, nth_error Bs i = Some B -> exists b, lookup (blk (k + i) "if") (ffuns of) = Some b /\ tree h b (Some f) [] B.
Lemma in_if : In "if" ["for"; "if"].
Proof. right. now left. Qed.
Lemma arms_pre fs ns inl vs : forall arms Bs cs, arm_code arms Bs cs -> Forall (block_ok fs ns inl true vs) Bs ->
  forall n h f fo ts h', precompile n h f cs = Done h' -> nth_error h f = Some fo -> ftasks fo = Some ts ->
  exists fo', nth_error h' f = Some fo' /\ fctx fo' = fctx fo /\ touch f h h' /\ ftasks fo' = Some (ts ++ arm_tasks (List.length ts) arms) /\
    (forall k, k < List.length ts -> lookup (blk k "if") (ffuns fo') = lookup (blk k "if") (ffuns fo)) /\
    forall h'', within (fun x => List.length h <= x) h' h'' -> blocks_at h'' f (List.length ts) fo' Bs.
Proof.
  induction 1 as [|a arms B Bs cb cs En Ac IH]; intros F n h f fo ts h' E N Et; (destruct n as [|n]; [discriminate|]).
  - injection E as <-. exists fo. cbn [arm_tasks]. rewrite app_nil_r. do 2 (split; auto). split; [apply touch_refl|]. split; auto. split; auto. intros h'' _ i B I. destruct i; discriminate.
  - inversion F as [|? ? OkB OkBs]; subst. assert (Lf := nth_lt _ _ _ N).
    assert (Sp := split_else (conds_of a) B cb cs En).
    remember ((Con (Tok TElse "") (conds_of a) :: cb ++ [Con (Tok TNestedEnd "") []]) ++ cs) as all eqn:Ea. cbn [app] in Ea. rewrite Ea in E. cbn [precompile output ttyp inputs] in E. rewrite <- Ea in E. rewrite Sp in E. clear Sp Ea all.
    cbn [get bind tl] in E. apply bind_inv in E. destruct E as (name & Eb1 & E). assert (Nm := block_name_inv _ _ _ _ _ _ Eb1 N Et). subst name. clear Eb1.
    cbn [alloc] in E. apply bind_inv in E. destruct E as (h2 & E2 & E).
    assert (N0 : nth_error (h ++ [new_circuit "else" (Some f)]) f = Some fo) by now apply nth_app_old.
    apply (set_fun_inv _ _ _ _ _ _ E2) in N0. subst h2. clear E2.
    apply bind_inv in E. destruct E as (h3 & E3 & E). eapply add_task_inv in E3; [|apply nth_store_eq; rewrite app_length; lia|exact Et]. rewrite LangBuild.store_store in E3. subst h3.
    apply bind_inv in E. destruct E as (h7 & E7 & E).
    match type of E7 with precompile _ (store ?x f ?y) _ _ = _ => set (o1 := y) in *; set (hh := x) in * end. set (b := List.length h) in *. set (task := Con (Tok TIf _) _) in o1.
    assert (Lh : List.length hh = S b) by (unfold hh, b; rewrite app_length; cbn; lia).
    destruct (IH OkBs n (store hh f o1) f o1 (ts ++ [task]) h7 E7) as (fo' & Nf' & Cf' & To7 & Ta' & Lk' & Bl'); [apply nth_store_eq; rewrite Lh; lia|reflexivity|].
    assert (L7 : S b <= List.length h7) by (destruct To7 as [To7 _]; rewrite store_length, Lh in To7; exact To7).
    assert (Nb : nth_error h7 b = Some (new_circuit "else" (Some f))).
    { destruct To7 as [_ To7]. rewrite To7; [|rewrite store_length, Lh; lia|unfold b; lia]. rewrite nth_store_ne by (unfold b; lia). unfold hh, b. apply nth_last. }
    destruct (pre_all fs ns n B cb h7 b _ [] [] [] vs inl true h' En E Nb (own_nil _ _) (Forall_nil _) OkB) as (o5 & ts5 & N5 & Ow5 & Gr5 & To5 & Kk5). cbn [app] in Ow5.
    rewrite app_length in Ta', Lk', Bl'. cbn [List.length] in Ta', Lk', Bl'. rewrite Nat.add_1_r in Ta', Lk', Bl'.
    exists fo'. split; [destruct To5 as [_ To5]; rewrite To5; [exact Nf'|eapply nth_lt; eauto|unfold b; lia]|]. split; [exact Cf'|].
    split.
    { eapply touch_new; [|exact To5|unfold b; lia]. eapply touch_trans; [|exact To7]. eapply touch_trans; [apply (touch_app f h)|apply touch_store]. }
    split; [rewrite Ta', <- app_assoc; reflexivity|]. split.
    { intros k Hk. rewrite Lk' by lia. unfold o1. cbn [ffuns with_tasks with_funs]. rewrite lookup_set_at. destruct (String.eqb_spec (blk k "if") (blk (List.length ts) "if")) as [Q|Q]; auto. apply blk_inj in Q; [lia|apply in_if|apply in_if]. }
    intros h'' Wi i B' I. destruct i as [|i].
    + injection I as <-. exists b. rewrite Nat.add_0_r. split.
      * rewrite Lk' by lia. unfold o1. cbn [ffuns with_tasks with_funs]. rewrite lookup_set_at, String.eqb_refl. reflexivity.
      * eapply own_tree; [apply Wi; [unfold b; lia|exact N5]|exact Ow5|reflexivity|reflexivity|eapply decls_ok; eauto|apply Gr5|apply Gr5|].
        apply Kk5. intros x ob Px Nx. apply Wi; auto. destruct Px as [->|Px]; unfold b in *; lia.
    + cbn [nth_error] in I. replace (List.length ts + S i) with (S (List.length ts) + i) by lia. apply (Bl' h''); auto.
      intros x ob Px Nx. rewrite store_length, Lh in Px. apply Wi; [unfold b in *; lia|]. destruct To5 as [_ To5]. rewrite To5; [exact Nx|eapply nth_lt; eauto|lia].
Qed.
Lemma elifs_code l cs : enc_elifs l cs -> forall B cb, enc_block B cb -> exists cc, Forall2 enc_cond (map fst l) cc /\
  arm_code (map Some cc ++ [None]) (map snd l ++ [B]) (cs ++ Con (Tok TElse "") [] :: cb ++ [Con (Tok TNestedEnd "") []]).
Proof.
  induction 1 as [|[c bs] l c1 cs A _ IH]; intros B cb En.
  - exists []. split; [constructor|]. cbn [map app]. assert (X := ac_cons None [] B [] cb [] En ac_nil). rewrite app_nil_r in X. exact X.
  - destruct A as (cc & cb1 & Ec & Eb & ->). destruct (IH B cb En) as (ccs & F & Ac). exists (cc :: ccs). split; [constructor; auto|]. cbn [map fst snd] in *.
    rewrite <- app_assoc. apply (ac_cons (Some cc) _ bs _ cb1 _ Eb Ac).
Qed.
Lemma tasks_run sort hash q n f k arms : forall st,
  run_tasks (compile sort hash q (S n) f) (arm_tasks k arms) st = run_arms (static_condition (compile sort hash q n f)) (fun x => compile sort hash q n f (leaf (Tok TIfCall x))) k arms st.
Proof.
  revert k. induction arms as [|a arms IH]; intros k st; [reflexivity|]. cbn [arm_tasks run_tasks run_arms].
  assert (C : compile sort hash q (S n) f (Con (Tok TIf (blk k "if")) (conds_of a)) st =
    ('(go, st1) <- match a with None => Done (true, st) | Some c => static_condition (compile sort hash q n f) c st end ;;
     if go then compile sort hash q n f (leaf (Tok TIfCall (blk k "if"))) st1 else Done (nothing, st1))) by (destruct a; reflexivity).
  rewrite C. clear C. destruct (match a with None => Done (true, st) | Some c => static_condition (compile sort hash q n f) c st end) as [[go st1]| | |]; try reflexivity. cbn [bind].
  destruct go; [|cbn [bind nothing rflag]; apply IH]. destruct (compile sort hash q n f (leaf (Tok TIfCall (blk k "if"))) st1) as [[r st2]| | |]; try reflexivity. cbn [bind]. destruct (rflag r); [reflexivity|apply IH].
Qed.

(** ** C105.  A chain as C104 reads it (no if inside its arms), handled by preCompile in the object of a block: the chain gets
    an object, with one block for each arm, in order; running the chain runs the block of every arm whose condition holds and
    then the block of the else, not only the first. *)
Theorem C105_chain : forall fs ns vs inl ini n h a o ts0 X Y c bs l bs' b c1 c2 c3 c4 h',
  enc_arm TIf (c, bs) c1 -> enc_elifs l c2 -> enc_block bs' c3 -> enc_block b c4 ->
  Forall (block_ok fs ns inl true vs) (bs :: map snd l ++ [bs']) -> block_ok fs ns inl ini vs b ->
  nth_error h a = Some o -> own o ts0 X Y -> Forall name_ok (X ++ Y) ->
  precompile n h a (c1 ++ c2 ++ (Con (Tok TElse "") [] :: c3 ++ [Con (Tok TNestedEnd "") []]) ++ Con (Tok TIfEnd "") [] :: c4) = Done h' ->
  exists o' f fo cc, nth_error h' a = Some o' /\ lookup (blk (List.length ts0) "if") (ffuns o') = Some f /\ nth_error h' f = Some fo /\ fctx fo = Some a /\
    Forall2 enc_cond (c :: map fst l) cc /\
    (forall i B, nth_error (bs :: map snd l ++ [bs']) i = Some B -> exists d ctx, lookup (blk i "if") (ffuns fo) = Some d /\ tree h' d ctx [] B) /\
    forall sort hash q m st, nth_error (sheap st) a = Some o' -> nth_error (sheap st) f = Some fo ->
      compile sort hash q (S (S m)) a (leaf (Tok TIfCall (blk (List.length ts0) "if"))) st =
      run_arms (static_condition (compile sort hash q m f)) (fun x => compile sort hash q m f (leaf (Tok TIfCall x))) 0 (map Some cc ++ [None]) st.
Proof.
  intros fs ns vs inl ini n h a o ts0 X Y c bs l bs' rest c1 c2 c3 c4 h' A1 A2 A3 A4 F Okr N Ow Fn E.
  inversion F as [|? ? Okb OkBs]; subst. destruct A1 as (cc & cb & Ec & Eb & ->). cbn [fst snd] in Ec, Eb. destruct (elifs_code l c2 A2 bs' c3 A3) as (ccs & Fc & Ac).
  set (arms := c2 ++ Con (Tok TElse "") [] :: c3 ++ [Con (Tok TNestedEnd "") []]) in *.
  assert (La := nth_lt _ _ _ N). assert (FnX : Forall name_ok X) by (apply Forall_app in Fn; apply Fn).
  destruct n as [|n]; [discriminate|]. set (con := Con (Tok TIf "") [cc]) in E. set (fin1 := Con (Tok TNestedEnd "") []) in *. set (fin2 := Con (Tok TIfEnd "") []) in *.
  replace ((con :: cb ++ [fin1]) ++ c2 ++ (Con (Tok TElse "") [] :: c3 ++ [fin1]) ++ fin2 :: c4) with (con :: cb ++ fin1 :: arms ++ fin2 :: c4) in E
    by (unfold arms; repeat (cbn [app]; rewrite <- ?app_assoc); reflexivity).
  cbn [precompile] in E. unfold con at 1 in E. cbn [output ttyp] in E.
  assert (Si : split_at_if_end (con :: cb ++ fin1 :: arms ++ fin2 :: c4) = Done (con :: cb ++ fin1 :: arms, fin2 :: c4)).
  { assert (Sf : split_at_if_end (arms ++ fin2 :: c4) = Done (arms ++ [], fin2 :: c4)) by (apply (split_arms fs ns inl vs _ _ _ Ac OkBs); reflexivity). rewrite app_nil_r in Sf.
    unfold con. cbn [split_at_if_end output ttyp ttype_eqb]. rewrite (proj2 (split_if fs ns) _ _ Eb inl vs (fin1 :: arms) (fin2 :: c4)); [reflexivity|exact Okb|]. unfold fin1. cbn [split_at_if_end output ttyp ttype_eqb]. now rewrite Sf. }
  rewrite Si in E. cbn [bind] in E. clear Si. assert (Et : ftasks o = Some ts0) by apply Ow.
  apply bind_inv in E. destruct E as (name & Eb1 & E). apply (block_name_inv _ _ _ _ _ _ Eb1 N) in Et. subst name. clear Eb1. assert (Et : ftasks o = Some ts0) by apply Ow.
  cbn [alloc] in E. apply bind_inv in E. destruct E as (h2 & Eh2 & E).
  set (name := blk (List.length ts0) "if") in *.
  assert (N0 : nth_error (h ++ [new_circuit name (Some a)]) a = Some o) by now apply nth_app_old.
  apply (set_fun_inv _ _ _ _ _ _ Eh2) in N0. subst h2. clear Eh2.
  apply bind_inv in E. destruct E as (h3 & E3 & E). eapply add_task_inv in E3; [|apply nth_store_eq; rewrite app_length; lia|exact Et]. rewrite LangBuild.store_store in E3. subst h3.
  rewrite (split_nested con bs cb fin1 arms) in E; [|right; now left|exact Eb|split; reflexivity]. cbn [get bind tl] in E.
  set (hh := h ++ [_]) in E. set (o1 := with_tasks _ _) in E. set (f := List.length h) in *. set (b := S f).
  assert (Lh : List.length hh = b) by (unfold hh, b, f; rewrite app_length; cbn; lia).
  assert (Nf : nth_error (store hh a o1) f = Some (new_circuit name (Some a))) by (rewrite nth_store_ne by (unfold f; lia); unfold hh, f; apply nth_last).
  apply bind_inv in E. destruct E as (name2 & Eb2 & E). assert (Nm2 := block_name_inv _ _ _ [] _ _ Eb2 Nf eq_refl). clear Eb2.
  cbn [List.length] in Nm2. subst name2. set (name2 := blk 0 "if") in *.
  apply bind_inv in E. destruct E as (h5 & E5 & E). rewrite store_length, Lh in E5.
  assert (N0 : nth_error (store hh a o1 ++ [new_circuit "if" (Some a)]) f = Some (new_circuit name (Some a))) by now apply nth_app_old.
  apply (set_fun_inv _ _ _ _ _ _ E5) in N0. subst h5. clear E5.
  assert (Lg : List.length (store hh a o1 ++ [new_circuit "if" (Some a)]) = S b) by (rewrite app_length, store_length, Lh; cbn; lia).
  apply bind_inv in E. destruct E as (h6 & E6 & E). eapply add_task_inv in E6; [|apply nth_store_eq; rewrite Lg; unfold b; lia|reflexivity]. rewrite LangBuild.store_store in E6. subst h6.
  set (fo := with_tasks _ _) in E. cbn [app] in fo. set (h6 := store _ f fo) in E. rewrite store_length, Lh in E.
  assert (L6 : List.length h6 = S b) by (unfold h6; rewrite store_length; exact Lg).
  apply bind_inv in E. destruct E as (h7 & E7 & E). apply bind_inv in E. destruct E as (h8 & E8 & E).
  destruct n as [|n]; [discriminate|]. assert (E7' : precompile n h6 a c4 = Done h7) by exact E7. clear E7.
  set (task := leaf (Tok TIfCall name)) in *.
  assert (Na6 : nth_error h6 a = Some o1).
  { unfold h6. rewrite nth_store_ne by (unfold f; lia). apply nth_app_old. apply nth_store_eq. rewrite Lh. unfold b, f. lia. }
  destruct (pre_all fs ns n rest c4 h6 a o1 (ts0 ++ [task]) X Y vs inl ini h7 A4 E7' Na6) as (o4 & ts & N4 & Ow4 & Gr4 & To4 & Kk4).
  { apply own_block; [exact Ow|exact Fn|apply in_if]. } { exact Fn. } { exact Okr. }
  assert (Nb : nth_error h7 b = Some (new_circuit "if" (Some a))).
  { destruct To4 as [_ To4]. rewrite To4; [|lia|unfold b, f; lia]. unfold h6. rewrite nth_store_ne by (unfold b; lia).
    replace b with (List.length (store hh a o1)) by (rewrite store_length; exact Lh). apply nth_last. }
  destruct (pre_all fs ns (S n) bs cb h7 b _ [] [] [] vs inl true h8 Eb E8 Nb (own_nil _ _) (Forall_nil _) Okb) as (o5 & ts5 & N5 & Ow5 & Gr5 & To5 & Kk5). cbn [app] in Ow5.
  assert (L7 : S b <= List.length h7) by (destruct To4 as [To4 _]; lia).
  assert (L8 : List.length h7 <= List.length h8) by apply To5.
  assert (Na' : nth_error h8 a = Some o4) by (destruct To5 as [_ To5]; rewrite To5; [exact N4|eapply nth_lt; eauto|unfold b, f; lia]).
  assert (Nf' : nth_error h8 f = Some fo).
  { destruct To5 as [_ To5]. rewrite To5; [|unfold b in *; lia|unfold b; lia]. destruct To4 as [_ To4]. rewrite To4; [|unfold b in *; lia|unfold f; lia].
    unfold h6. apply nth_store_eq. rewrite Lg. unfold b. lia. }
  destruct (arms_pre fs ns inl vs _ _ _ Ac OkBs _ h8 f fo _ h' E Nf' eq_refl) as (fo' & Nfo & Cf & Tf & Tk & Lk & Bl). cbn [List.length] in Tk, Lk, Bl.
  assert (Gl : lookup name (ffuns o4) = Some f).
  { destruct Gr4 as (_ & _ & Gr4). apply Gr4. cbn [o1 ffuns with_tasks with_funs]. rewrite lookup_set_at, String.eqb_refl. reflexivity. }
  exists o4, f, fo', (cc :: ccs). split; [destruct Tf as [_ Tf]; rewrite Tf; [exact Na'|eapply nth_lt; eauto|unfold f; lia]|]. split; [exact Gl|]. split; [exact Nfo|]. split; [exact Cf|].
  split; [constructor; auto|]. split.
  - intros i B I. destruct i as [|i].
    + injection I as <-. exists b, (Some a). split.
      * rewrite Lk by lia. cbn [fo ffuns with_tasks with_funs new_circuit]. rewrite lookup_set_at, String.eqb_refl. reflexivity.
      * assert (Wi : within (fun x => b <= x) h8 h').
        { intros x ob Px Nx. destruct Tf as [_ Tf]. rewrite Tf; [exact Nx|eapply nth_lt; eauto|unfold b in Px; lia]. }
        eapply own_tree; [apply Wi; [cbn; lia|exact N5]|exact Ow5|reflexivity|reflexivity|eapply decls_ok; eauto|apply Gr5|apply Gr5|].
        apply Kk5. intros x ob Px Nx. apply Wi; auto. destruct Px as [->|Px]; lia.
    + cbn [nth_error] in I. destruct (Bl h' (fun _ _ _ H => H) i B I) as (d & L & T). exists d, (Some f). split; [exact L|exact T].
  - intros sort hash q m st Sa Sf. change (map Some (cc :: ccs) ++ [None]) with (Some cc :: map Some ccs ++ [None]). rewrite <- (tasks_run sort hash q m f 0).
    assert (Ff : find_fun (sheap st) a name = Done (Some (a, f))) by (unfold find_fun; cbn [find_in]; unfold fetch; rewrite Sa; cbn [get bind]; rewrite Gl; reflexivity).
    assert (C : compile sort hash q (S (S m)) a (leaf (Tok TIfCall name)) st = (w <- find_fun (sheap st) a name ;; match w with None => Panic | Some (_, x) => ob <- fetch (sheap st) x ;; ts <- get (ftasks ob) ;; run_tasks (compile sort hash q (S m) x) ts st end)) by reflexivity.
    fold task in C. rewrite C, Ff. cbn [bind]. unfold fetch. rewrite Sf. cbn [get bind]. rewrite Tk. reflexivity.
Qed.
Print Assumptions C105_chain.
(** So the block of the else is run whenever no arm before it returned, whatever the conditions were. *)
Theorem C105_else : forall test block arms k st r st1, run_arms test block k arms st = Done (r, st1) ->
  run_arms test block k (arms ++ [None]) st =
  if rflag r then Done (r, st1) else '(r2, st2) <- block (blk (k + List.length arms) "if") st1 ;; Done (if rflag r2 then (Ret (rvals r2) true (rfun r2), st2) else (nothing, st2)).
Proof.
  intros test block. induction arms as [|a arms IH]; intros k st r st1 E.
  - injection E as <- <-. cbn [app List.length run_arms bind nothing rflag]. rewrite Nat.add_0_r. destruct (block (blk k "if") st) as [[r2 st2]| | |]; try reflexivity. cbn [bind]. destruct (rflag r2); reflexivity.
  - cbn [app List.length run_arms] in *. apply bind_inv in E. destruct E as ([go st0] & E0 & E). rewrite E0. cbn [bind]. replace (k + S (List.length arms)) with (S k + List.length arms) by lia. destruct go; [|now apply IH].
    apply bind_inv in E. destruct E as ([r2 st2] & E2 & E). rewrite E2. cbn [bind]. destruct (rflag r2); [|now apply IH]. injection E as <- <-. reflexivity.
Qed.
Print Assumptions C105_else.

(** The constraints of if 1==1 {equal(x,2)} else if 1==2 {} else {equal(x,3)}, in the object of a function with parameter x. *)
Definition C105_cond (s : string) : ctree := Con (Tok TUnassigned "") [Con (Tok TCompare "==") []; Con (Tok TNumber "1") []; Con (Tok TNumber s) []].
Definition C105_eq (s : string) : ctree := Con (Tok TCall "equal") [Con (Tok TIdent "x") []; Con (Tok TNumber s) []].
Definition C105_end : ctree := Con (Tok TNestedEnd "") [].
Definition C105_heap : heap :=
  match register_function [] (Con (Tok TFuncDef "main") [Con (Tok TArgument "x") []]) 0 with Done (h, _) => h | _ => [] end.
Example C105_case : exists o h', nth_error C105_heap 0 = Some o /\ own o [] ["x"] [] /\ Forall name_ok (["x"] ++ []) /\
  enc_arm TIf (Cmp "==" (Num "1") (Num "1"), [Equal (Var "x") (Num "2")]) [Con (Tok TIf "") [C105_cond "1"]; C105_eq "2"; C105_end] /\
  enc_elifs [(Cmp "==" (Num "1") (Num "2"), [])] [Con (Tok TElse "") [C105_cond "2"]; C105_end] /\
  enc_block [Equal (Var "x") (Num "3")] [C105_eq "3"] /\ enc_block [] [] /\
  Forall (block_ok [] [] false true ["x"]) ([Equal (Var "x") (Num "2")] :: [[]] ++ [[Equal (Var "x") (Num "3")]]) /\
  precompile 20 C105_heap 0 ([Con (Tok TIf "") [C105_cond "1"]; C105_eq "2"; C105_end] ++ [Con (Tok TElse "") [C105_cond "2"]; C105_end] ++
    (Con (Tok TElse "") [] :: [C105_eq "3"] ++ [Con (Tok TNestedEnd "") []]) ++ Con (Tok TIfEnd "") [] :: []) = Done h' /\
  match compile (fun l => l) toy_hash 101 30 0 (leaf (Tok TIfCall "0if")) (St h' (Coll [] []) [] []) with
  | Done (_, st) => map gright (gates (scoll st)) = [[Fac (Tok TNumber "2") 2]; [Fac (Tok TNumber "3") 3]]
  | _ => False
  end.
Proof.
  assert (Eq : forall s, enc_block [Equal (Var "x") (Num s)] [C105_eq s]) by (intros s; apply (enc_cons _ [] [_] []); [constructor; constructor|constructor]).
  eexists _, _. split; [vm_compute; reflexivity|]. split; [|split; [|split; [|split; [|split; [|split; [|split; [|split]]]]]]].
  - split; [reflexivity|]. split; [|split].
    + intros x [<-|[]]. split; [now left|reflexivity].
    + intros x [<-|[]]. split; now left.
    + intros x [<-|[]]. left. now left.
  - constructor; [|constructor]. split; [reflexivity|]. intros I. vm_compute in I. repeat (destruct I as [I|I]; [discriminate|]). destruct I.
  - exists (C105_cond "1"), [C105_eq "2"]. split; [apply enc_cmp; constructor|]. split; [apply Eq|reflexivity].
  - apply (ee_more _ [] [_; _] []); [|constructor]. exists (C105_cond "2"), []. split; [apply enc_cmp; constructor|]. split; [constructor|reflexivity].
  - apply Eq.
  - constructor.
  - repeat constructor.
  - vm_compute. reflexivity.
  - vm_compute. reflexivity.
Qed.

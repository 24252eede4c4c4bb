(** Compiling only adds to the log of stored values. *)
Require Import ZArith Lia Bool Ascii String List.
Require Import Verif.FqModel Verif.FactorModel Verif.ParserModel Verif.CircuitModel Verif.LangHeap.
Import ListNotations.
Local Open Scope string_scope.
Local Open Scope list_scope.
Local Open Scope nat_scope.

Definition later (st st' : state) : Prop := exists l, sstored st' = sstored st ++ l.
Lemma later_refl st : later st st.
Proof. exists []. now rewrite app_nil_r. Qed.
Lemma later_eq st st' : sstored st' = sstored st -> later st st'.
Proof. exists []. now rewrite app_nil_r. Qed.
Lemma later_trans s1 s2 s3 : later s1 s2 -> later s2 s3 -> later s1 s3.
Proof. intros [l E] [l' E']. exists (l ++ l'). now rewrite E', E, app_assoc. Qed.

Definition mono (comp : ctree -> state -> res (ret * state)) : Prop := forall c st r st', comp c st = Done (r, st') -> later st st'.
(** Take apart a run of binds. *)
Ltac runs := repeat match goal with
  | H : bind _ _ = Done _ |- _ => apply bind_inv in H; destruct H as (? & ? & H)
  | p : (_ * _)%type |- _ => destruct p
  | H : Done _ = Done _ |- _ => injection H as; subst
  | H : Panic = Done _ |- _ => discriminate H
  | H : Alias = Done _ |- _ => discriminate H
  | H : Running = Done _ |- _ => discriminate H
  end.
Lemma mono_tasks comp : mono comp -> forall ts st r st', run_tasks comp ts st = Done (r, st') -> later st st'.
Proof.
  intros M. induction ts as [|t ts IH]; intros st r st' E; cbn [run_tasks] in E; [runs; apply later_refl|].
  apply bind_inv in E. destruct E as ([r1 st1] & E1 & E). apply M in E1. eapply later_trans; [exact E1|].
  destruct (rflag r1); [runs; apply later_refl|eauto].
Qed.
Lemma mono_all comp : mono comp -> forall cs st rs st', comp_all comp cs st = Done (rs, st') -> later st st'.
Proof.
  intros M. induction cs as [|t ts IH]; intros st r st' E; cbn [comp_all] in E; [runs; apply later_refl|].
  apply bind_inv in E. destruct E as ([r1 st1] & E1 & E). apply M in E1. eapply later_trans; [exact E1|].
  apply bind_inv in E. destruct E as ([r2 st2] & E2 & E). runs. eauto.
Qed.
Lemma mono_aside comp : mono comp -> mono (aside comp).
Proof.
  intros M c st r st' E. unfold aside in E. apply bind_inv in E. destruct E as ([r1 st1] & E1 & E). runs. apply M in E1. destruct E1 as [l E1]. exists l. exact E1.
Qed.
Lemma mono_index comp : mono comp -> forall ins st s st', index_names comp ins st = Done (s, st') -> later st st'.
Proof.
  intros M. induction ins as [|i ins IH]; intros st s st' E; cbn [index_names] in E; [runs; apply later_refl|].
  apply bind_inv in E. destruct E as ([r1 st1] & E1 & E). apply (mono_aside _ M) in E1. eapply later_trans; [exact E1|].
  destruct (strip (rvals r1)) as [|f [|? ?]]; try discriminate. destruct (is_number f); [|discriminate].
  apply bind_inv in E. destruct E as (z & _ & E). apply bind_inv in E. destruct E as ([s2 st2] & E2 & E). runs. eauto.
Qed.
Lemma mono_name comp : mono comp -> forall c st s st', resolve_name comp c st = Done (s, st') -> later st st'.
Proof. intros M c st s st' E. unfold resolve_name in E. apply bind_inv in E. destruct E as ([s2 st2] & E2 & E). runs. eapply mono_index; eauto. Qed.
Lemma mono_static comp : mono comp -> forall c st s st', static_condition comp c st = Done (s, st') -> later st st'.
Proof.
  intros M c st s st' E. unfold static_condition in E. destruct (inputs c) as [|o [|a [|b l]]]; try discriminate.
  apply bind_inv in E. destruct E as ([r1 st1] & E1 & E). apply (mono_aside _ M) in E1. eapply later_trans; [exact E1|].
  apply bind_inv in E. destruct E as ([r2 st2] & E2 & E). apply (mono_aside _ M) in E2. eapply later_trans; [exact E2|].
  destruct (strip (rvals r1)) as [|x [|? ?]]; try discriminate. destruct (strip (rvals r2)) as [|y [|? ?]]; try discriminate.
  destruct (_ && _); [|discriminate]. runs. apply later_refl.
Qed.
Section P.
Variable sort : factors -> factors.
Variable hash : string -> Z.
Variable q : Z.
Lemma submit_stored st g st' : submit st g = Done st' -> sstored st' = sstored st.
Proof. unfold submit. intros E. runs. reflexivity. Qed.
Lemma operate_stored st o l r v st' : operate sort hash q st o l r = Done (v, st') -> sstored st' = sstored st.
Proof.
  unfold operate. destruct (String.eqb o "+"); [intros E; runs; reflexivity|].
  destruct (String.eqb o "-"); [destruct (shared r); intros E; runs; reflexivity|].
  destruct (String.eqb o "*" && _); [destruct l, r; intros E; runs; reflexivity|].
  intros E. apply bind_inv in E. destruct E as ([c f] & _ & E).
  destruct (String.eqb o "*").
  - destruct (extract_constant _ _ _ _) as [[[? ?] ?]|]; [|discriminate]. apply bind_inv in E. destruct E as (st2 & E2 & E). apply submit_stored in E2. runs. exact E2.
  - destruct (String.eqb o "/" && _); [|runs; reflexivity]. destruct (factor_signature _ _) as [[? ?]|]; [|discriminate]. destruct (factor_signature _ _) as [[? ?]|]; [|discriminate].
    apply bind_inv in E. destruct E as (st2 & E2 & E). apply submit_stored in E2. runs. exact E2.
Qed.
Lemma mono_binary comp : mono comp -> forall ins flag st r st', binary sort hash q comp ins flag st = Done (r, st') -> later st st'.
Proof.
  intros M ins flag st r st' E. unfold binary in E. destruct ins as [|o [|a [|b [|? ?]]]]; try discriminate.
  destruct (ttyp (output o)); try discriminate. destruct (existsb _ _); [|discriminate].
  apply bind_inv in E. destruct E as ([r1 st1] & E1 & E). apply M in E1. eapply later_trans; [exact E1|].
  apply bind_inv in E. destruct E as ([r2 st2] & E2 & E). apply M in E2. eapply later_trans; [exact E2|].
  apply bind_inv in E. destruct E as ([v st3] & E3 & E). apply operate_stored in E3. runs. now apply later_eq.
Qed.
Lemma mono_overload comp cur (M : mono comp) c st r st' :
  match inputs c with
  | [lhs; e] =>
      '(name, st1) <- match ttyp (output lhs) with
                      | TArrCall => resolve_name comp lhs st
                      | _ => Done (ident (output lhs), st)
                      end ;;
      '(r, st2) <- comp e st1 ;;
      w <- find_fun (sheap st2) cur name ;;
      match w with
      | None => Panic
      | Some (o, _) =>
          match strip (rvals r), rfun r with
          | [], Some a => h <- set_fun (sheap st2) o name a ;; Done (nothing, with_heap st2 h)
          | f, _ => '(h1, a) <- factors_function q (sheap st2) f ;;
                    h <- set_fun h1 o name a ;; Done (Ret (rvals r) false None, stored (with_heap st2 h) [f])
          end
      end
  | _ => Panic
  end = Done (r, st') -> later st st'.
Proof.
  destruct (inputs c) as [|lhs [|e [|? ?]]]; try discriminate. intros E.
  apply bind_inv in E. destruct E as ([name st1] & E1 & E).
  assert (L1 : later st st1) by (destruct (ttyp (output lhs)); try (injection E1 as _ <-; apply later_refl); eapply mono_name; eauto).
  eapply later_trans; [exact L1|]. apply bind_inv in E. destruct E as ([r2 st2] & E2 & E). apply M in E2. eapply later_trans; [exact E2|].
  apply bind_inv in E. destruct E as (w & _ & E). destruct w as [[o b]|]; [|discriminate].
  assert (X : forall f, ('(h1, a) <- factors_function q (sheap st2) f ;; h <- set_fun h1 o name a ;; Done (Ret (rvals r2) false None, stored (with_heap st2 h) [f])) = Done (r, st') -> later st2 st').
  { intros f Ef. apply bind_inv in Ef. destruct Ef as ([h1 a] & _ & Ef). apply bind_inv in Ef. destruct Ef as (h & _ & Ef). injection Ef as _ <-. exists [f]. reflexivity. }
  destruct (strip (rvals r2)) as [|f0 f1]; [|apply (X _ E)]. destruct (rfun r2); [|apply (X _ E)].
  apply bind_inv in E. destruct E as (h & _ & E). injection E as _ <-. now apply later_eq.
Qed.
Lemma mono_compile : forall n cur, mono (compile sort hash q n cur).
Proof.
  induction n as [|n IH]; intros cur c st r st' E; [discriminate|]. assert (M := IH cur). cbn [compile] in E.
  destruct (ttyp (output c)); try (eapply mono_binary; [|exact E]; exact M).
  all: try (apply (mono_overload _ cur M c st r st' E)).
  - (* number *) runs. apply later_refl.
  - (* identifier *) apply bind_inv in E. destruct E as (w & _ & E). destruct w as [[o a]|]; [|discriminate].
    apply bind_inv in E. destruct E as (ob & _ & E). destruct (fnum ob); [runs; apply later_refl|].
    destruct (finputs ob); [|runs; apply later_refl]. apply bind_inv in E. destruct E as (k & _ & E). destruct k as [[o' con]|]; [|discriminate]. eapply M; eauto.
  - (* call *) destruct (String.eqb _ "BREAK").
    { apply bind_inv in E. destruct E as ([rs st1] & E1 & E). runs. eapply mono_all; eauto. }
    destruct (String.eqb _ "SPLIT").
    { destruct (inputs c) as [|i [|? ?]]; try discriminate. apply bind_inv in E. destruct E as ([r1 st1] & E1 & E). apply M in E1. eapply later_trans; [exact E1|].
      destruct (strip (rvals r1)) as [|f [|? ?]]; try discriminate. runs. now apply later_eq. }
    destruct (String.eqb _ "AND"); [discriminate|]. destruct (existsb _ _); [eapply mono_binary; [|exact E]; exact M|].
    destruct (String.eqb _ "addGateConstraint").
    { destruct (inputs c) as [|a [|b [|? ?]]]; try discriminate. apply bind_inv in E. destruct E as ([r1 st1] & E1 & E). apply M in E1. eapply later_trans; [exact E1|].
      apply bind_inv in E. destruct E as ([r2 st2] & E2 & E). apply M in E2. eapply later_trans; [exact E2|].
      apply bind_inv in E. destruct E as ([c' f] & _ & E). destruct (extract_constant _ _ _ _) as [[[? ?] ?]|]; [|discriminate].
      apply bind_inv in E. destruct E as (st3 & E3 & E). apply submit_stored in E3. runs. now apply later_eq. }
    destruct (String.eqb _ "scalarBaseMultiply").
    { destruct (inputs c) as [|a [|? ?]]; try discriminate. apply bind_inv in E. destruct E as ([r1 st1] & E1 & E). apply M in E1. eapply later_trans; [exact E1|].
      apply bind_inv in E. destruct E as ([c' f] & _ & E).
      apply bind_inv in E. destruct E as (st3 & E3 & E). apply submit_stored in E3. runs. now apply later_eq. }
    destruct (String.eqb _ "equal").
    { destruct (inputs c) as [|a [|b [|? ?]]]; try discriminate. apply bind_inv in E. destruct E as ([r1 st1] & E1 & E). apply M in E1. eapply later_trans; [exact E1|].
      apply bind_inv in E. destruct E as ([r2 st2] & E2 & E). apply M in E2. eapply later_trans; [exact E2|].
      apply bind_inv in E. destruct E as (c' & _ & E).
      apply bind_inv in E. destruct E as (st3 & E3 & E). apply submit_stored in E3. runs. now apply later_eq. }
    apply bind_inv in E. destruct E as (w & _ & E). destruct w as [[o a]|]; [|discriminate].
    apply bind_inv in E. destruct E as ([h1 nxt] & _ & E). apply bind_inv in E. destruct E as ([rs st2] & E2 & E). apply (mono_all _ M) in E2.
    apply bind_inv in E. destruct E as ([args h2] & _ & E). apply bind_inv in E. destruct E as ([h3 ready] & _ & E).
    eapply later_trans; [|eapply later_trans; [exact E2|]]; [now apply later_eq|].
    destruct ready.
    + apply bind_inv in E. destruct E as (ob & _ & E). apply bind_inv in E. destruct E as (ts & _ & E). apply bind_inv in E. destruct E as ([r1 st4] & E4 & E). runs.
      apply (mono_tasks _ (IH nxt)) in E4. eapply later_trans; [|exact E4]. eexists. reflexivity.
    + runs. eexists. reflexivity.
  - (* body of an if *) apply bind_inv in E. destruct E as (w & _ & E). destruct w as [[o a]|]; [|discriminate].
    apply bind_inv in E. destruct E as (ob & _ & E). apply bind_inv in E. destruct E as (ts & _ & E). eapply mono_tasks; [|exact E]. apply IH.
  - (* array element *) apply bind_inv in E. destruct E as ([name st1] & E1 & E). apply (mono_name _ M) in E1. eapply later_trans; [exact E1|].
    apply bind_inv in E. destruct E as (k & _ & E). destruct k as [[o' con]|]; [|discriminate]. apply bind_inv in E. destruct E as ([r2 st2] & E2 & E). runs. eapply M; eauto.
  - (* expression *) destruct (inputs c) as [|i [|j l]].
    + apply bind_inv in E. destruct E as (ob & _ & E). destruct (lookup _ _); [|discriminate]. eapply M; eauto.
    + eapply M; eauto.
    + eapply mono_binary; [|exact E]. exact M.
  - (* argument *) runs. apply later_refl.
  - (* if *) apply bind_inv in E. destruct E as ([go st1] & E1 & E).
    assert (L1 : later st st1) by (destruct (inputs c); [runs; apply later_refl|eapply mono_static; [|exact E1]; exact M]).
    eapply later_trans; [exact L1|]. destruct go; [eapply M; eauto|runs; apply later_refl].
  - (* for *) destruct (inputs c) as [|cond more]; [discriminate|]. apply bind_inv in E. destruct E as ([go st1] & E1 & E). apply (mono_static _ M) in E1.
    eapply later_trans; [exact E1|]. destruct go; [|runs; apply later_refl]. apply bind_inv in E. destruct E as ([r2 st2] & E2 & E). apply M in E2. eapply later_trans; [exact E2|].
    destruct (rflag r2); [runs; apply later_refl|]. destruct more as [|next more]; [discriminate|].
    apply bind_inv in E. destruct E as ([r3 st3] & E3 & E). apply M in E3. eapply later_trans; [exact E3|]. eapply M; eauto.
  - (* return *) destruct (inputs c) as [|i [|j l]].
    + runs. apply later_refl.
    + apply bind_inv in E. destruct E as ([r2 st2] & E2 & E). runs. eapply M; eauto.
    + eapply mono_binary; [|exact E]. exact M.
Qed.
Lemma complete_stored st f st' : complete sort hash st f = Done st' -> sstored st' = sstored st.
Proof.
  unfold complete. intros E. apply bind_inv in E. destruct E as (c & _ & E).
  assert (X : forall s, (i <- get (list_signature hash f) ;; submit s (Some (Gate GAdd i f [] [] (wire i 1) false no_token))) = Done st' -> sstored st' = sstored s).
  { intros s Es. apply bind_inv in Es. destruct Es as (i & _ & Es). now apply submit_stored in Es. }
  destruct f as [|x [|y f]]; [runs; reflexivity| |now apply X in E]. destruct (_ || _); [runs; reflexivity|now apply X in E].
Qed.
End P.

(** What a return inside a loop or a called function does to the caller (circuitcompiler/Programm.go:198-208, 247-262, 350-520). *)
Require Import ZArith Lia Bool Ascii String List.
Require Import Verif.FqModel Verif.FactorModel Verif.ParserModel Verif.CircuitModel Verif.LangSpec Verif.LangHeap Verif.PropsFactor Verif.PropsLang Verif.PropsCircuit.
Import ListNotations.
Local Open Scope string_scope.
Local Open Scope list_scope.
Local Open Scope nat_scope.

Section S.
Variable sort : factors -> factors.
Variable hash : string -> Z.
Variable q : Z.
Notation compile := (compile sort hash q).
Lemma binary_flag comp ins b st r st' : binary sort hash q comp ins b st = Done (r, st') -> rflag r = b.
Proof. unfold binary. intros E. repeat first [discriminate | (apply bind_inv in E; destruct E as ([? ?] & _ & E)) | (injection E as <- _; reflexivity) | (destruct ins as [|? ins]) | (match type of E with context [match ?x with _ => _ end] => destruct x end)]. Qed.
Lemma call_flag n a c st r st' : ttyp (output c) = TCall -> compile n a c st = Done (r, st') -> rflag r = false.
Proof.
  intros T E. destruct n as [|n]; [discriminate|]. cbn [CircuitModel.compile] in E. rewrite T in E.
  destruct (String.eqb (ident (output c)) "BREAK"). { apply bind_inv in E. destruct E as ([? ?] & _ & E). now injection E as <- _. }
  destruct (String.eqb (ident (output c)) "SPLIT").
  { destruct (inputs c) as [|i [|]]; try discriminate. apply bind_inv in E. destruct E as ([? ?] & _ & E). destruct (strip _) as [|f [|]]; try discriminate.
    apply bind_inv in E. destruct E as (? & _ & E). apply bind_inv in E. destruct E as (? & _ & E). now injection E as <- _. }
  destruct (String.eqb (ident (output c)) "AND"); [discriminate|].
  destruct (existsb (String.eqb (ident (output c))) ["NAND"; "OR"; "NOT"]); [now apply binary_flag in E|].
  destruct (String.eqb (ident (output c)) "addGateConstraint").
  { destruct (inputs c) as [|x [|y [|]]]; try discriminate. apply bind_inv in E. destruct E as ([? ?] & _ & E). apply bind_inv in E. destruct E as ([? ?] & _ & E). apply bind_inv in E. destruct E as ([? ?] & _ & E).
    destruct (extract_constant _ _ _ _) as [[[? ?] ?]|]; [|discriminate]. apply bind_inv in E. destruct E as (? & _ & E). now injection E as <- _. }
  destruct (String.eqb (ident (output c)) "scalarBaseMultiply").
  { destruct (inputs c) as [|x [|]]; try discriminate. apply bind_inv in E. destruct E as ([? ?] & _ & E). apply bind_inv in E. destruct E as ([? ?] & _ & E). apply bind_inv in E. destruct E as (? & _ & E). now injection E as <- _. }
  destruct (String.eqb (ident (output c)) "equal").
  { destruct (inputs c) as [|x [|y [|]]]; try discriminate. apply bind_inv in E. destruct E as ([? ?] & _ & E). apply bind_inv in E. destruct E as ([? ?] & _ & E). apply bind_inv in E. destruct E as (? & _ & E). apply bind_inv in E. destruct E as (? & _ & E). now injection E as <- _. }
  apply bind_inv in E. destruct E as (w & _ & E). destruct w as [[? f]|]; [|discriminate]. apply bind_inv in E. destruct E as ([? ?] & _ & E). apply bind_inv in E. destruct E as ([? ?] & _ & E). apply bind_inv in E. destruct E as ([? ?] & _ & E). apply bind_inv in E. destruct E as ([? ready] & _ & E).
  destruct ready; [|now injection E as <- _]. apply bind_inv in E. destruct E as (? & _ & E). apply bind_inv in E. destruct E as (? & _ & E). apply bind_inv in E. destruct E as ([? ?] & _ & E). now injection E as <- _.
Qed.
Lemma for_nothing n : forall a c st r st', ttyp (output c) = TFor -> compile n a c st = Done (r, st') -> r = nothing.
Proof.
  induction n as [|n IH]; intros a c st r st' T E; [discriminate|]. cbn [CircuitModel.compile] in E. rewrite T in E. destruct (inputs c) as [|cond more]; [discriminate|].
  apply bind_inv in E. destruct E as ([go st1] & _ & E). destruct go; [|now injection E as <- _]. apply bind_inv in E. destruct E as ([r1 st2] & E1 & E). rewrite (call_flag n a (call_of (ident (output c))) st1 r1 st2 eq_refl E1) in E.
  destruct more as [|next more]; [discriminate|]. apply bind_inv in E. destruct E as ([r3 st3] & _ & E). eapply IH; eauto.
Qed.
End S.

(** ** C106.  A call, and a loop, never end the tasks they stand in: a loop gives nothing, whatever its body returns, and what
    follows a loop is run whenever the loop ends.  (C77 is an instance.) *)
Theorem C106_call : forall sort hash q n a c st r st', ttyp (output c) = TCall -> compile sort hash q n a c st = Done (r, st') -> rflag r = false.
Proof. exact call_flag. Qed.
Print Assumptions C106_call.
Theorem C106_loop : forall sort hash q n a c st r st' ts, ttyp (output c) = TFor -> compile sort hash q n a c st = Done (r, st') ->
  rvals r = [] /\ rflag r = false /\ run_tasks (compile sort hash q n a) (c :: ts) st = run_tasks (compile sort hash q n a) ts st'.
Proof. intros sort hash q n a c st r st' ts T E. assert (X := for_nothing _ _ _ _ _ _ _ _ _ T E). subst r. split; [reflexivity|]. split; [reflexivity|]. cbn [run_tasks]. rewrite E. reflexivity. Qed.
Print Assumptions C106_loop.
(** In the program of C77 the body returns x, the loop runs it twice and ends, and k is then 2. *)
Example C106_case :
  match build sort_factors toy_hash 101 100 (tree_of 1000 C77_text) with
  | Done p =>
      match map ftasks (pheap p) with
      | [_; Some [d; l; e]; _; _; _; Some [b]] => ttyp (output l) = TFor /\ ttyp (output e) = TReturn /\ ttyp (output b) = TReturn /\
          match run_tasks (compile sort_factors toy_hash 101 100 1) [d] (St (pheap p) (Coll [] []) [] []) with
          | Done (_, st) =>
              match compile sort_factors toy_hash 101 100 1 l st with
              | Done (r, st') => r = nothing /\ match compile sort_factors toy_hash 101 100 1 (leaf (Tok TIdent "k")) st' with
                                                | Done (v, _) => map mult (strip (rvals v)) = [2%Z] | _ => False end
              | _ => False
              end
          | _ => False
          end
      | _ => False
      end
  | _ => False
  end.
Proof. vm_compute. repeat split. Qed.

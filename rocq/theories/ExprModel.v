(** Model of the arithmetic part of circuitcompiler/Programm.go:compile (214-610): literals, inputs of
    main, the four operators, scalarBaseMultiply; and of Execute (183-196) on a main whose tasks
    are equal(...) calls and a final return.
    Not covered here: user functions, variables, arrays, loops, if (they rebind names, but emit
    no gates of their own).
    Every function also returns the gates handed to the collector, dropped ones included: the
    theorems say what must hold of their identifiers. *)
Require Import ZArith Bool Ascii String List.
Require Import Verif.FqModel Verif.FactorModel.
Import ListNotations.
Open Scope Z_scope.

Inductive expr : Type :=
| ENum (s : string)                  (* NumberToken, Programm.go:217-223 *)
| EVar (x : string)                  (* input of main, resolved to ARGUMENT, Programm.go:224-243 and 288-293 *)
| EBin (op : string) (l r : expr)    (* Programm.go:525-608 *)
| EBase (e : expr).                  (* Programm.go:455-471 *)

(** Does the compiled operand hold the global bigOne pointer (Programm.go:467-470)?  Subtracting
    such an operand overwrites the global constant; that case is excluded here (CircuitModel marks it [Alias]). *)
Fixpoint has_base (e : expr) : bool :=
  match e with
  | EBase _ => true
  | EBin _ l r => has_base l || has_base r
  | _ => false
  end.

Section Expr.
Variable sort : factors -> factors.
Variable hash : string -> Z.
Variable q : Z.

(** Append the submitted gate to the record. *)
Definition traced {A} (x : option A) (g : option gate) (tr : list gate) : option (A * list gate) :=
  match x, g with Some a, Some g' => Some (a, tr ++ [g']) | _, _ => None end.

(** compile_op together with the gate it submits, if any. *)
Definition compile_op_tr (c : collector) (op : string) (l r : factors) (tr : list gate)
  : option (collector * factors * list gate) :=
  match compile_op sort hash q c op l r with
  | None => None
  | Some (c', f) =>
      if String.eqb op "*" && negb (is_single_number l || is_single_number r) then
        match extract_constant sort q l r with
        | Some (_, l', r') => traced (Some (c', f)) (with_id sort hash (Gate GMul "" l' r' [] [] false no_token)) tr
        | None => None
        end
      else if String.eqb op "/" && negb (is_single_number r) then
        match factor_signature sort l, factor_signature sort r with
        | Some (_, l'), Some (_, r') =>
            traced (Some (c', f)) (with_id sort hash (Gate GMul "" [] r' [] l' false no_token)) tr
        | _, _ => None
        end
      else Some (c', f, tr)
  end.

Fixpoint compile_expr (c : collector) (e : expr) (tr : list gate) : option (collector * factors * list gate) :=
  match e with
  | ENum s => match string_to_field q s with
              | Some (v, _) => Some (c, [Fac (Tok TNumber s) v], tr)
              | None => None
              end
  | EVar x => Some (c, wire x 1, tr)
  | EBin op l r =>
      if String.eqb op "-" && has_base r then None
      else
      match compile_expr c l tr with
      | None => None
      | Some (c1, fl, tr1) =>
          match compile_expr c1 r tr1 with
          | None => None
          | Some (c2, fr, tr2) => compile_op_tr c2 op fl fr tr2
          end
      end
  | EBase e1 =>
      match compile_expr c e1 tr with
      | None => None
      | Some (c1, fe, tr1) =>
          match compile_base sort hash c1 fe with
          | Some (c2, f) => traced (Some (c2, f)) (with_id sort hash (Gate GBase "" [] [] fe [] false no_token)) tr1
          | None => None
          end
      end
  end.

(** Tasks of main, in order; the return comes last. *)
Record prog := Prog { equalities : list (expr * expr); result : expr }.

Fixpoint compile_equalities (c : collector) (es : list (expr * expr)) (tr : list gate)
  : option (collector * list gate) :=
  match es with
  | [] => Some (c, tr)
  | (l, r) :: es' =>
      match compile_expr c l tr with
      | None => None
      | Some (c1, fl, tr1) =>
          match compile_expr c1 r tr1 with
          | None => None
          | Some (c2, fr, tr2) =>
              match compile_equal sort hash c2 fl fr with
              | None => None
              | Some c3 =>
                  match with_id sort hash (Gate GEqual "" fl fr [] [] true no_token) with
                  | Some g => compile_equalities c3 es' (tr2 ++ [g])
                  | None => None
                  end
              end
          end
      end
  end.

(** Programm.go:183-196 *)
Definition execute (p : prog) : option (collector * factors * list gate) :=
  match compile_equalities (Coll [] []) (equalities p) [] with
  | None => None
  | Some (c1, tr1) =>
      match compile_expr c1 (result p) tr1 with
      | None => None
      | Some (c2, f, tr2) =>
          match complete_function sort hash c2 f with
          | None => None
          | Some c3 =>
              if is_single_number f then Some (c3, f, tr2)
              else if match f with [x] => mult x =? 1 | _ => false end then Some (c3, f, tr2)
              else match list_signature hash f with
                   | Some i => Some (c3, f, tr2 ++ [Gate GAdd i f [] [] (wire i 1) false no_token])
                   | None => None
                   end
          end
      end
  end.
End Expr.

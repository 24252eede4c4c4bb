(** Model of circuitcompiler/circuit.go and of compile, Execute in circuitcompiler/Programm.go:
    functions, variables, arrays, loops, conditions.
    A [function] object is a record in a heap, a pointer is its index.  Copying the struct by value
    (Programm.go:239, 506) shares all maps and no field of the copy is assigned later, so the copy is
    represented by the same index.
    big.Int values: the multiplicative of a factor read from a number variable is the variable's
    own big.Int (Programm.go:229), that of scalarBaseMultiply the global bigOne (Programm.go:469);
    these are marked [true].  negateFactors overwrites them (factorHandling.go:242), which changes the
    variable or the constant; the model stops there with [Alias].
    Recursion carries fuel; running out of it is [Running]. *)
Require Import ZArith Bool Ascii String List.
Require Import Verif.FqModel Verif.FactorModel Verif.LexerModel Verif.ParserModel.
Import ListNotations.
Local Open Scope string_scope.
Local Open Scope list_scope.

Inductive res (A : Type) : Type := Done (a : A) | Panic | Alias | Running.
Arguments Done {A}. Arguments Panic {A}. Arguments Alias {A}. Arguments Running {A}.
Definition bind {A B} (x : res A) (f : A -> res B) : res B :=
  match x with Done a => f a | Panic => Panic | Alias => Alias | Running => Running end.
Notation "x <- e ;; f" := (bind e (fun x => f)) (at level 61, e at next level, right associativity).
Notation "' p <- e ;; f" := (bind e (fun x => match x with p => f end)) (at level 61, p pattern, e at next level, right associativity).
Definition get {A} (x : option A) : res A := match x with Some a => Done a | None => Panic end.

(** circuit.go:11-30.  [fnum]: value, if isNumber.  [ftasks = None]: taskStack is nil, as in function{}.
    Outputs is never used. *)
Record fobj := FObj { fname : string; fnum : option Z; finputs : list string; fctx : option nat;
                      ffuns : list (string * nat); ftasks : option (list ctree); fcons : list (string * ctree) }.
Definition heap := list fobj.

(** Go maps. *)
Fixpoint lookup {A} (x : string) (m : list (string * A)) : option A :=
  match m with
  | [] => None
  | (y, a) :: m' => if String.eqb x y then Some a else lookup x m'
  end.
Fixpoint set_at {A} (x : string) (a : A) (m : list (string * A)) : list (string * A) :=
  match m with
  | [] => [(x, a)]
  | (y, b) :: m' => if String.eqb x y then (x, a) :: m' else (y, b) :: set_at x a m'
  end.

Definition fetch (h : heap) (a : nat) : res fobj := get (nth_error h a).
Fixpoint store (h : heap) (a : nat) (o : fobj) : heap :=
  match h, a with
  | [], _ => []
  | _ :: h', O => o :: h'
  | x :: h', S a' => x :: store h' a' o
  end.
Definition alloc (h : heap) (o : fobj) : heap * nat := (h ++ [o], List.length h).
Definition with_funs (o : fobj) (m : list (string * nat)) : fobj :=
  FObj (fname o) (fnum o) (finputs o) (fctx o) m (ftasks o) (fcons o).
Definition with_cons (o : fobj) (m : list (string * ctree)) : fobj :=
  FObj (fname o) (fnum o) (finputs o) (fctx o) (ffuns o) (ftasks o) m.
Definition with_tasks (o : fobj) (t : list ctree) : fobj :=
  FObj (fname o) (fnum o) (finputs o) (fctx o) (ffuns o) (Some t) (fcons o).
Definition with_inputs (o : fobj) (i : list string) : fobj :=
  FObj (fname o) (fnum o) i (fctx o) (ffuns o) (ftasks o) (fcons o).
(** functions[x] = a; constraintMap[x] = c; taskStack.add (circuit.go:466-469). *)
Definition set_fun (h : heap) (o : nat) (x : string) (a : nat) : res heap :=
  ob <- fetch h o ;; Done (store h o (with_funs ob (set_at x a (ffuns ob)))).
Definition set_con (h : heap) (o : nat) (x : string) (c : ctree) : res heap :=
  ob <- fetch h o ;; Done (store h o (with_cons ob (set_at x c (fcons ob)))).
Definition add_task (h : heap) (o : nat) (c : ctree) : res heap :=
  ob <- fetch h o ;; t <- get (ftasks ob) ;; Done (store h o (with_tasks ob (t ++ [c]))).

(** circuit.go:36-41 *)
Definition new_circuit (name : string) (ctx : option nat) : fobj := FObj name None [] ctx [] (Some []) [].
(** function{} *)
Definition zero_function : fobj := FObj "" None [] None [] None [].

(** circuit.go:313-322, 325-334, 346-355.  [n] bounds the length of the chain of contexts. *)
Fixpoint find_in {A} (n : nat) (fld : fobj -> list (string * A)) (h : heap) (cur : option nat) (x : string) : res (option (nat * A)) :=
  match cur with
  | None => Done None
  | Some a =>
      match n with
      | O => Running
      | S n' => ob <- fetch h a ;;
                match lookup x (fld ob) with
                | Some v => Done (Some (a, v))
                | None => find_in n' fld h (fctx ob) x
                end
      end
  end.
Definition find_fun (h : heap) (cur : nat) (x : string) : res (option (nat * nat)) :=
  find_in (S (List.length h)) ffuns h (Some cur) x.
Definition find_con (h : heap) (cur : nat) (x : string) : res (option (nat * ctree)) :=
  find_in (S (List.length h)) fcons h (Some cur) x.

(** circuit.go:357-377.  The nested objects get the clone as context; isNumber and value are not
    copied. *)
Fixpoint copy_funs (copy : heap -> nat -> option nat -> res (heap * nat)) (h : heap) (ctx : nat) (m : list (string * nat))
  : res (heap * list (string * nat)) :=
  match m with
  | [] => Done (h, [])
  | (k, v) :: m' => '(h1, v') <- copy h v (Some ctx) ;; '(h2, m2) <- copy_funs copy h1 ctx m' ;; Done (h2, (k, v') :: m2)
  end.
Fixpoint flat_copy_in (n : nat) (h : heap) (a : nat) (ctx : option nat) : res (heap * nat) :=
  match n with
  | O => Running
  | S n' =>
      ob <- fetch h a ;;
      let '(h1, c) := alloc h (FObj (fname ob) None (finputs ob) ctx [] (Some []) (fcons ob)) in
      '(h2, m) <- copy_funs (flat_copy_in n') h1 c (ffuns ob) ;;
      t <- get (ftasks ob) ;;
      Done (store h2 c (FObj (fname ob) None (finputs ob) ctx m (Some t) (fcons ob)), c)
  end.
Definition flat_copy (n : nat) (h : heap) (a : nat) : res (heap * nat) :=
  ob <- fetch h a ;; flat_copy_in n h a (fctx ob).

(** Programm.go:147-157 *)
Fixpoint load_inputs (h : heap) (a : nat) (names : list string) (new : list nat) : res (heap * list string) :=
  match new with
  | [] => Done (h, names)
  | v :: new' => match names with
                 | [] => Panic
                 | x :: names' => h1 <- set_fun h a x v ;; load_inputs h1 a names' new'
                 end
  end.
Definition gets_loaded_with (h : heap) (a : nat) (new : list nat) : res (heap * bool) :=
  ob <- fetch h a ;;
  if Nat.ltb (List.length (finputs ob)) (List.length new) then Panic
  else '(h1, rest) <- load_inputs h a (finputs ob) new ;;
       ob1 <- fetch h1 a ;;
       Done (store h1 a (with_inputs ob1 rest), Nat.eqb (List.length (finputs ob)) (List.length new)).

(** Constraints built by the compiler itself. *)
Definition leaf (t : token) : ctree := Con t [].
Definition call_of (x : string) : ctree := leaf (Tok TCall x).
Definition ret_of (l : list ctree) : ctree := Con (Tok TReturn "") l.

(** circuit.go:470-487 *)
Definition token_function (t : token) : fobj := with_tasks (new_circuit (ident t) None) [ret_of [leaf t]].
(** factorHandling.go:277-312 *)
Definition factor_function (f : factor) : fobj :=
  if is_number f then
    let o := token_function (ftok f) in FObj (fname o) (Some (mult f)) (finputs o) (fctx o) (ffuns o) (ftasks o) (fcons o)
  else if (mult f =? 1)%Z then token_function (ftok f)
  else with_tasks (new_circuit (ident (ftok f)) None)
         [ret_of [leaf (Tok TArith "*"); leaf (Tok TNumber (dec (mult f))); leaf (ftok f)]].
(** factorHandling.go:315-385, for "+" only: the one operation it is called with. *)
Definition combine_functions (q : Z) (h : heap) (a b : nat) : res (heap * nat) :=
  oa <- fetch h a ;; ob <- fetch h b ;;
  match fnum oa, fnum ob with
  | Some x, Some y => let s := fadd q x y in Done (alloc h (factor_function (Fac (Tok TNumber (dec s)) s)))
  | _, _ => Done (alloc h (FObj "" None [] None (set_at (fname ob) b (set_at (fname oa) a []))
                     (Some [ret_of [leaf (Tok TArith "+"); call_of (fname oa); call_of (fname ob)]]) []))
  end.
(** factorHandling.go:267-275 *)
Fixpoint factors_function (q : Z) (h : heap) (f : factors) : res (heap * nat) :=
  match f with
  | [] => Done (alloc h zero_function)
  | [x] => Done (alloc h (factor_function x))
  | x :: f' => let '(h1, a) := alloc h (factor_function x) in
               '(h2, b) <- factors_function q h1 f' ;; combine_functions q h2 a b
  end.

(** Factors with the mark of a shared multiplicative. *)
Definition vals := list (factor * bool).
Definition plain (l : factors) : vals := map (fun f => (f, false)) l.
Definition strip (v : vals) : factors := map fst v.
Definition shared (v : vals) : bool := existsb snd v.
(** factorHandling.go:199-238 as [add_factors], with marks. *)
Fixpoint add_into_m (q : Z) (l : factor) (rights : vals) : option vals :=
  match rights with
  | [] => None
  | r :: rs => match add_factor q l (fst r) with
               | Some s => Some ((s, false) :: rs)
               | None => match add_into_m q l rs with Some rs' => Some (r :: rs') | None => None end
               end
  end.
Fixpoint add_loop_m (q : Z) (lefts rights : vals) : vals * vals :=
  match lefts with
  | [] => ([], rights)
  | l :: ls => match add_into_m q (fst l) rights with
               | Some rights' => add_loop_m q ls rights'
               | None => let '(res, rs) := add_loop_m q ls rights in (l :: res, rs)
               end
  end.
Definition add_factors_m (q : Z) (l r : vals) : vals :=
  let '(res, rs) := add_loop_m q l r in
  match res ++ filter (fun f => negb (mult (fst f) =? 0)%Z) rs with
  | [] => [(Fac (Tok TNumber "0") 0%Z, false)]
  | res' => res'
  end.

(** What compile returns: factors, reachedReturn, preloadedFunction ([None]: function{}). *)
Record ret := Ret { rvals : vals; rflag : bool; rfun : option nat }.
Definition nothing : ret := Ret [] false None.
(** The heap and the collected gates; for the theorems also the gates submitted (those dropped by Add,
    Programm.go:64-74, included) and the factor lists stored in variables and parameters. *)
Record state := St { sheap : heap; scoll : collector; strace : list gate; sstored : list factors }.

(** The tasks of one function: Programm.go:198-208 *)
Fixpoint run_tasks (comp : ctree -> state -> res (ret * state)) (ts : list ctree) (st : state) : res (ret * state) :=
  match ts with
  | [] => Done (nothing, st)
  | t :: ts' => '(r, st1) <- comp t st ;;
                if rflag r then Done (Ret (rvals r) true (rfun r), st1) else run_tasks comp ts' st1
  end.
(** Compile constraints in order. *)
Fixpoint comp_all (comp : ctree -> state -> res (ret * state)) (cs : list ctree) (st : state) : res (list ret * state) :=
  match cs with
  | [] => Done ([], st)
  | c :: cs' => '(r, st1) <- comp c st ;; '(rs, st2) <- comp_all comp cs' st1 ;; Done (r :: rs, st2)
  end.
(** With newGateContainer() instead of the current one (Programm.go:166, circuit.go:399-400). *)
Definition aside (comp : ctree -> state -> res (ret * state)) (c : ctree) (st : state) : res (ret * state) :=
  '(r, st1) <- comp c (St (sheap st) (Coll [] []) [] (sstored st)) ;; Done (r, St (sheap st1) (scoll st) (strace st) (sstored st1)).

Section Compile.
Variable sort : factors -> factors.
Variable hash : string -> Z.
Variable q : Z.

(** strconv.ParseInt(s, 10, 64), not negative *)
Definition parse_index (s : string) : option Z :=
  match set_string10 s with
  | Some z => if ((0 <=? z) && (z <? 2 ^ 63))%Z then Some z else None
  | None => None
  end.
(** Programm.go:160-180 *)
Fixpoint index_names (comp : ctree -> state -> res (ret * state)) (ins : list ctree) (st : state) : res (string * state) :=
  match ins with
  | [] => Done ("", st)
  | i :: ins' =>
      '(r, st1) <- aside comp i st ;;
      match strip (rvals r) with
      | [f] => if is_number f then
                 z <- get (parse_index (ident (ftok f))) ;;
                 '(s, st2) <- index_names comp ins' st1 ;; Done ("[" ++ dec z ++ "]" ++ s, st2)%string
               else Panic
      | _ => Panic
      end
  end.
Definition resolve_name (comp : ctree -> state -> res (ret * state)) (c : ctree) (st : state) : res (string * state) :=
  '(s, st1) <- index_names comp (inputs c) st ;; Done (ident (output c) ++ s, st1)%string.

(** circuit.go:393-444 *)
Definition compare_as (op : string) (a b : Z) : res bool :=
  if String.eqb op "==" then Done (a =? b)%Z
  else if String.eqb op "!=" then Done (negb (a =? b)%Z)
  else if String.eqb op ">" then Done (b <? a)%Z
  else if String.eqb op ">=" then Done (b <=? a)%Z
  else if String.eqb op "<" then Done (a <? b)%Z
  else if String.eqb op "<=" then Done (a <=? b)%Z
  else Panic.
Definition static_condition (comp : ctree -> state -> res (ret * state)) (c : ctree) (st : state) : res (bool * state) :=
  match inputs c with
  | o :: a :: b :: _ =>
      '(ra, st1) <- aside comp a st ;;
      '(rb, st2) <- aside comp b st1 ;;
      match strip (rvals ra), strip (rvals rb) with
      | [x], [y] => if is_number x && is_number y then
                      t <- compare_as (ident (output o)) (mult x) (mult y) ;; Done (t, st2)
                    else Panic
      | _, _ => Panic
      end
  | _ => Panic
  end.

Definition with_coll (st : state) (c : collector) : state := St (sheap st) c (strace st) (sstored st).
Definition with_heap (st : state) (h : heap) : state := St h (scoll st) (strace st) (sstored st).
Definition stored (st : state) (l : list factors) : state := St (sheap st) (scoll st) (strace st) (sstored st ++ l).
Definition submit (st : state) (g : option gate) : res state :=
  g' <- get g ;; Done (St (sheap st) (scoll st) (strace st ++ [g']) (sstored st)).

(** Programm.go:541-599: one operation on compiled operands. *)
Definition operate (st : state) (op : string) (l r : vals) : res (vals * state) :=
  if String.eqb op "+" then Done (add_factors_m q l r, st)
  else if String.eqb op "-" then
    if shared r then Alias else Done (add_factors_m q l (plain (negate_factors (strip r))), st)
  else if String.eqb op "*" && (is_single_number (strip l) || is_single_number (strip r)) then
    match l, r with
    | [], _ => Done (r, st)
    | _, [] => Done (l, st)
    | _, _ => f <- get (mul_factors q (strip l) (strip r)) ;; Done (plain f, st)
    end
  else
    '(c, f) <- get (compile_op sort hash q (scoll st) op (strip l) (strip r)) ;;
    let st1 := with_coll st c in
    if String.eqb op "*" then
      match extract_constant sort q (strip l) (strip r) with
      | Some (_, l', r') => st2 <- submit st1 (with_id sort hash (Gate GMul "" l' r' [] [] false no_token)) ;; Done (plain f, st2)
      | None => Panic
      end
    else if String.eqb op "/" && negb (is_single_number (strip r)) then
      match factor_signature sort (strip l), factor_signature sort (strip r) with
      | Some (_, l'), Some (_, r') =>
          st2 <- submit st1 (with_id sort hash (Gate GMul "" [] r' [] l' false no_token)) ;; Done (plain f, st2)
      | _, _ => Panic
      end
    else Done (plain f, st1).
(** Programm.go:525-608; [flag]: Output.Type == RETURN. *)
Definition binary (comp : ctree -> state -> res (ret * state)) (ins : list ctree) (flag : bool) (st : state) : res (ret * state) :=
  match ins with
  | [o; a; b] =>
      match ttyp (output o) with
      | TArith =>
          if existsb (String.eqb (ident (output o))) ["*"; "/"; "+"; "-"] then
            '(ra, st1) <- comp a st ;;
            '(rb, st2) <- comp b st1 ;;
            '(v, st3) <- operate st2 (ident (output o)) (rvals ra) (rvals rb) ;; Done (Ret v flag None, st3)
          else Panic
      | _ => Panic
      end
  | _ => Panic
  end.

(** Gates of SPLIT as submitted. *)
Definition split_gates (f : factor) : list gate :=
  let n := Z.to_nat (bitlen q) in
  map (fun i => Gate GBit (bit_name i (ident (ftok f))) [] [] [] [] false (ftok f)) (seq 0 n).

(** An argument of a call: the function that returns it (Programm.go:499-510). *)
Fixpoint argument_functions (rs : list ret) (h : heap) : res (list nat * heap) :=
  match rs with
  | [] => Done ([], h)
  | r :: rs' =>
      '(h1, a) <- match strip (rvals r), rfun r with
                  | [], Some a => Done (h, a)
                  | f, _ => factors_function q h f
                  end ;;
      '(l, h2) <- argument_functions rs' h1 ;; Done (a :: l, h2)
  end.

(** Programm.go:214-610 *)
Fixpoint compile (n : nat) (cur : nat) (c : ctree) (st : state) : res (ret * state) :=
  match n with
  | O => Running
  | S n' =>
      let comp := compile n' cur in
      let x := ident (output c) in
      match ttyp (output c) with
      | TNumber => v <- get (string_to_field q x) ;; Done (Ret [(Fac (Tok TNumber x) (fst v), false)] false None, st)
      | TIdent =>
          w <- find_fun (sheap st) cur x ;;
          match w with
          | None => Panic
          | Some (_, a) =>
              ob <- fetch (sheap st) a ;;
              match fnum ob with
              | Some v => Done (Ret [(Fac (Tok TNumber (fname ob)) v, true)] false None, st)
              | None =>
                  match finputs ob with
                  | [] => k <- find_con (sheap st) cur x ;;
                          match k with Some (_, con) => comp con st | None => Panic end
                  | _ => Done (Ret [] false (Some a), st)
                  end
              end
          end
      | TFor =>
          match inputs c with
          | cond :: more =>
              '(go, st1) <- static_condition comp cond st ;;
              if go then
                '(r, st2) <- comp (call_of x) st1 ;;
                if rflag r then Done (Ret (rvals r) true (rfun r), st2)
                else match more with
                     | next :: _ => '(_, st3) <- comp next st2 ;; comp c st3
                     | [] => Panic
                     end
              else Done (nothing, st1)
          | [] => Panic
          end
      | TUnassigned =>
          match inputs c with
          | [] => ob <- fetch (sheap st) cur ;;
                  match lookup x (fcons ob) with Some con => comp con st | None => Panic end
          | [i] => comp i st
          | ins => binary comp ins false st
          end
      | TReturn =>
          match inputs c with
          | [] => Done (Ret [(Fac (Tok TNumber "") 1%Z, false)] true None, st)
          | [i] => '(r, st1) <- comp i st ;; Done (Ret (rvals r) true (rfun r), st1)
          | ins => binary comp ins true st
          end
      | TArgument => Done (Ret (plain (wire x 1)) false None, st)
      | TOverload =>
          match inputs c with
          | [lhs; e] =>
              '(name, st1) <- match ttyp (output lhs) with
                              | TArrCall => resolve_name comp lhs st
                              | _ => Done (ident (output lhs), st)
                              end ;;
              '(r, st2) <- comp e st1 ;;
              w <- find_fun (sheap st2) cur name ;;
              match w with
              | None => Panic
              | Some (o, _) =>
                  match strip (rvals r), rfun r with
                  | [], Some a => h <- set_fun (sheap st2) o name a ;; Done (nothing, with_heap st2 h)
                  | f, _ => '(h1, a) <- factors_function q (sheap st2) f ;;
                            h <- set_fun h1 o name a ;; Done (Ret (rvals r) false None, stored (with_heap st2 h) [f])
                  end
              end
          | _ => Panic
          end
      | TArrCall =>
          '(name, st1) <- resolve_name comp c st ;;
          k <- find_con (sheap st1) cur name ;;
          match k with
          | Some (_, con) => '(r, st2) <- comp con st1 ;; Done (Ret (rvals r) false (rfun r), st2)
          | None => Panic
          end
      | TIf =>
          '(go, st1) <- match inputs c with [] => Done (true, st) | cond :: _ => static_condition comp cond st end ;;
          if go then comp (leaf (Tok TIfCall x)) st1 else Done (nothing, st1)
      | TIfCall =>
          w <- find_fun (sheap st) cur x ;;
          match w with
          | None => Panic
          | Some (_, a) => ob <- fetch (sheap st) a ;; ts <- get (ftasks ob) ;; run_tasks (compile n' a) ts st
          end
      | TCall =>
          if String.eqb x "BREAK" then '(_, st1) <- comp_all comp (inputs c) st ;; Done (nothing, st1)
          else if String.eqb x "SPLIT" then
            match inputs c with
            | [i] => '(r, st1) <- comp i st ;;
                     match strip (rvals r) with
                     | [f] => c' <- get (compile_split sort hash q (scoll st1) [f]) ;;
                              g <- get (with_id sort hash (Gate GSum "" (bit_sum (Z.to_nat (bitlen q)) (ident (ftok f))) [] [] [] true (ftok f))) ;;
                              Done (nothing, St (sheap st1) c' (strace st1 ++ split_gates f ++ [g]) (sstored st1))
                     | _ => Panic
                     end
            | _ => Panic
            end
          else if String.eqb x "AND" then Panic
          else if existsb (String.eqb x) ["NAND"; "OR"; "NOT"] then binary comp (inputs c) false st
          else if String.eqb x "addGateConstraint" then
            match inputs c with
            | [a; b] =>
                '(ra, st1) <- comp a st ;; '(rb, st2) <- comp b st1 ;;
                '(c', f) <- get (compile_add_gate sort hash q (scoll st2) (strip (rvals ra)) (strip (rvals rb))) ;;
                match extract_constant sort q (strip (rvals ra)) (strip (rvals rb)) with
                | Some (_, l', r') =>
                    st3 <- submit (with_coll st2 c') (with_id sort hash (Gate GAdd "" (add_factors q l' r') [] [] [] false no_token)) ;;
                    Done (Ret (plain f) false None, st3)
                | None => Panic
                end
            | _ => Panic
            end
          else if String.eqb x "scalarBaseMultiply" then
            match inputs c with
            | [a] =>
                '(ra, st1) <- comp a st ;;
                '(c', f) <- get (compile_base sort hash (scoll st1) (strip (rvals ra))) ;;
                st2 <- submit (with_coll st1 c') (with_id sort hash (Gate GBase "" [] [] (strip (rvals ra)) [] false no_token)) ;;
                Done (Ret (map (fun y => (y, true)) f) false None, st2)
            | _ => Panic
            end
          else if String.eqb x "equal" then
            match inputs c with
            | [a; b] =>
                '(ra, st1) <- comp a st ;; '(rb, st2) <- comp b st1 ;;
                c' <- get (compile_equal sort hash (scoll st2) (strip (rvals ra)) (strip (rvals rb))) ;;
                st3 <- submit (with_coll st2 c') (with_id sort hash (Gate GEqual "" (strip (rvals ra)) (strip (rvals rb)) [] [] true no_token)) ;;
                Done (nothing, st3)
            | _ => Panic
            end
          else
            w <- find_fun (sheap st) cur x ;;
            match w with
            | None => Panic
            | Some (_, a) =>
                '(h1, nxt) <- flat_copy n' (sheap st) a ;;
                '(rs, st2) <- comp_all comp (inputs c) (with_heap st h1) ;;
                '(args, h2) <- argument_functions rs (sheap st2) ;;
                '(h3, ready) <- gets_loaded_with h2 nxt args ;;
                let st3 := stored (with_heap st2 h3) (map (fun r => strip (rvals r)) rs) in
                if ready then
                  ob <- fetch h3 nxt ;; ts <- get (ftasks ob) ;;
                  '(r, st4) <- run_tasks (compile n' nxt) ts st3 ;; Done (Ret (rvals r) false (rfun r), st4)
                else Done (Ret [] false (Some nxt), st3)
            end
      | _ => binary comp (inputs c) false st
      end
  end.

(** completeFunction (FactorModel.complete_function) with the gate submitted. *)
Definition complete (st : state) (f : factors) : res state :=
  c <- get (complete_function sort hash (scoll st) f) ;;
  let st1 := with_coll st c in
  match f with
  | [] => Done st1
  | [x] => if is_number x || (mult x =? 1)%Z then Done st1
           else i <- get (list_signature hash f) ;; submit st1 (Some (Gate GAdd i f [] [] (wire i 1) false no_token))
  | _ => i <- get (list_signature hash f) ;; submit st1 (Some (Gate GAdd i f [] [] (wire i 1) false no_token))
  end.
(** Programm.go:183-196.  The last result is returned too, for the theorems. *)
Fixpoint execute_tasks (comp : ctree -> state -> res (ret * state)) (ts : list ctree) (st : state) : res (ret * state) :=
  match ts with
  | [] => Done (nothing, st)
  | t :: ts' => '(r, st1) <- comp t st ;; st2 <- complete st1 (strip (rvals r)) ;;
                if rflag r then Done (r, st2) else execute_tasks comp ts' st2
  end.
End Compile.

(** circuit.go:489-498 (the first chain end, also if it is a nested one) *)
Fixpoint split_at_if_end (cs : list ctree) : res (list ctree * list ctree) :=
  match cs with
  | [] => Panic
  | c :: cs' => if ttype_eqb (ttyp (output c)) TIfEnd then Done ([], cs)
                else '(i, o) <- split_at_if_end cs' ;; Done (c :: i, o)
  end.
(** circuit.go:500-519.  [None]: no success.  [d]: the counter. *)
Fixpoint split_at_nested_end (d : Z) (cs : list ctree) : option (list ctree * list ctree) :=
  match cs with
  | [] => None
  | c :: cs' =>
      let d1 := match ttyp (output c) with TElse | TFor | TFuncDef | TIf => (d + 1)%Z | TNestedEnd => (d - 1)%Z | _ => d end in
      if (d1 =? 0)%Z then Some ([], cs')
      else match split_at_nested_end d1 cs' with Some (i, o) => Some (c :: i, o) | None => None end
  end.

(** circuit.go:269-311 *)
Fixpoint context_check (h : heap) (cur : nat) (c : ctree) : res unit :=
  match c with
  | Con o ins =>
      _ <- (fix all (l : list ctree) : res unit :=
              match l with [] => Done tt | i :: l' => _ <- context_check h cur i ;; all l' end) ins ;;
      if ttype_eqb (ttyp o) TNumber || is_operator o then Done tt
      else match ttyp o with
           | TArgument => ob <- fetch h cur ;; match lookup (ident o) (fcons ob) with Some _ => Done tt | None => Panic end
           | TOverload | TVarDecl | TArrDecl => Panic
           | TIdent =>
               k <- find_con h cur (ident o) ;;
               match k with
               | Some _ => Done tt
               | None => f <- find_fun h cur (ident o) ;; match f with Some _ => Done tt | None => Panic end
               end
           | _ => Done tt
           end
  end.
(** circuit.go:264-268 *)
Fixpoint check_all (h : heap) (cur : nat) (l : list ctree) : res unit :=
  match l with [] => Done tt | i :: l' => _ <- context_check h cur i ;; check_all h cur l' end.

(** circuit.go:43-70 *)
Fixpoint register_args (h : heap) (f : nat) (args : list ctree) : res heap :=
  match args with
  | [] => Done h
  | a :: args' =>
      let x := ident (output a) in
      ob <- fetch h f ;;
      match lookup x (ffuns ob) with
      | Some _ => Panic
      | None =>
          let '(h1, r) := alloc (store h f (FObj (fname ob) (fnum ob) (finputs ob ++ [x]) (fctx ob) (ffuns ob) (ftasks ob)
                                             (set_at x (Con (Tok TCall x) (inputs a)) (fcons ob))))
                            (with_tasks (new_circuit x None) [ret_of [a]]) in
          h2 <- set_fun h1 f x r ;; register_args h2 f args'
      end
  end.
Definition register_function (h : heap) (c : ctree) (ctx : nat) : res (heap * nat) :=
  let '(h1, f) := alloc h (new_circuit (ident (output c)) (Some ctx)) in
  h2 <- register_args h1 f (inputs c) ;; Done (h2, f).

(** "%vif" and "%vfor" of the length of the task stack *)
Definition block_name (h : heap) (cur : nat) (suffix : string) : res string :=
  ob <- fetch h cur ;; t <- get (ftasks ob) ;; Done (dec (Z.of_nat (List.length t)) ++ suffix)%string.

(** circuit.go:167-198 *)
Definition declare (h : heap) (cur : nat) (c : ctree) : res heap :=
  let x := ident (output c) in
  ob <- fetch h cur ;;
  match lookup x (ffuns ob) with
  | Some _ => Panic
  | None =>
      let '(h1, r) := alloc h (with_tasks (new_circuit x (Some cur)) [ret_of (inputs c)]) in
      h2 <- set_fun h1 cur x r ;;
      h3 <- set_con h2 cur x (call_of x) ;;
      match inputs c with
      | e :: _ => add_task h3 cur (Con (Tok TOverload "") [leaf (output c); e])
      | [] => Panic
      end
  end.
(** circuit.go:147-166: the elements of an array; each is handled by preCompile of a one-element list. *)
Fixpoint declare_elements (h : heap) (cur : nat) (x : string) (i : nat) (es : list ctree) : res heap :=
  match es with
  | [] => Done h
  | e :: es' =>
      let c := Con (Tok TVarDecl (x ++ "[" ++ dec (Z.of_nat i) ++ "]")%string) [e] in
      h1 <- declare h cur c ;; _ <- check_all h1 cur [e] ;; declare_elements h1 cur x (S i) es'
  end.

(** circuit.go:72-262 *)
Fixpoint precompile (n : nat) (h : heap) (cur : nat) (cs : list ctree) : res heap :=
  match n with
  | O => Running
  | S n' =>
      match cs with
      | [] => Done h
      | c :: rest =>
          let x := ident (output c) in
          let go_on (h1 : heap) := _ <- check_all h1 cur (inputs c) ;; precompile n' h1 cur rest in
          match ttyp (output c) with
          | TPublic => ob <- fetch h cur ;; if String.eqb (fname ob) "main" then go_on h else Panic
          | TIf =>
              '(chain, outside) <- split_at_if_end cs ;;
              name <- block_name h cur "if" ;;
              let '(h1, f) := alloc h (new_circuit name (Some cur)) in
              h2 <- set_fun h1 cur name f ;;
              h3 <- add_task h2 cur (leaf (Tok TIfCall name)) ;;
              '(first, others) <- get (split_at_nested_end 0 chain) ;;
              name2 <- block_name h3 f "if" ;;
              let '(h4, b) := alloc h3 (new_circuit "if" (Some cur)) in
              h5 <- set_fun h4 f name2 b ;;
              h6 <- add_task h5 f (Con (Tok TIf name2) (inputs c)) ;;
              h7 <- precompile n' h6 cur outside ;;
              h8 <- precompile n' h7 b (tl first) ;;
              precompile n' h8 f others
          | TElse =>
              '(first, others) <- get (split_at_nested_end 0 cs) ;;
              name2 <- block_name h cur "if" ;;
              let '(h4, b) := alloc h (new_circuit "else" (Some cur)) in
              h5 <- set_fun h4 cur name2 b ;;
              h6 <- add_task h5 cur (Con (Tok TIf name2) (inputs c)) ;;
              h7 <- precompile n' h6 cur others ;;
              precompile n' h7 b (tl first)
          | TArrDecl =>
              ob <- fetch h cur ;;
              match lookup x (fcons ob) with
              | Some _ => Panic
              | None => h1 <- set_con h cur x c ;; h2 <- declare_elements h1 cur x 0 (inputs c) ;; go_on h2
              end
          | TVarDecl => h1 <- declare h cur c ;; go_on h1
          | TFuncDef =>
              '(inside, outside) <- get (split_at_nested_end 0 cs) ;;
              ob <- fetch h cur ;;
              match lookup x (ffuns ob), lookup x (fcons ob) with
              | None, None =>
                  '(h1, f) <- register_function h c cur ;;
                  h2 <- set_fun h1 cur x f ;;
                  h3 <- precompile n' h2 cur outside ;;
                  precompile n' h3 f (tl inside)
              | _, _ => Panic
              end
          | TFor =>
              '(inside, outside) <- get (split_at_nested_end 0 cs) ;;
              name <- block_name h cur "for" ;;
              let '(h1, f) := alloc h (new_circuit "for" (Some cur)) in
              h2 <- set_fun h1 cur name f ;;
              h3 <- add_task h2 cur (Con (Tok TFor name) (inputs c)) ;;
              h4 <- precompile n' h3 cur outside ;;
              precompile n' h4 f (tl inside)
          | TOverload | TCall | TReturn => h1 <- add_task h cur c ;; go_on h1
          | _ => go_on h
          end
      end
  end.

Section Program.
Variable sort : factors -> factors.
Variable hash : string -> Z.
Variable q : Z.

(** parser.go:68-98.  At this point there is no main yet: resolveArrayName gets a nil receiver, modelled
    by an empty circuit without context; both resolve constant indices only. *)
Fixpoint public_names (n : nat) (cs : list ctree) : res (list string) :=
  match cs with
  | [] => Done []
  | c :: cs' =>
      if ttype_eqb (ttyp (output c)) TPublic then
        '(s, _) <- resolve_name (compile sort hash q n 0) c (St [new_circuit "" None] (Coll [] []) [] []) ;;
        l <- public_names n cs' ;; Done (s :: l)
      else public_names n cs'
  end.
Record program := Program { pheap : heap; pmain : option nat; ppublic : list string }.
Definition build (n : nat) (cs : list ctree) : res program :=
  pub <- public_names n cs ;;
  h <- precompile n [new_circuit "global" None] 0 cs ;;
  g <- fetch h 0 ;;
  Done (Program h (lookup "main" (ffuns g)) ("1" :: pub)).
(** Programm.go:183-196 *)
Definition run_program (n : nat) (p : program) : res (ret * state) :=
  m <- get (pmain p) ;;
  ob <- fetch (pheap p) m ;; ts <- get (ftasks ob) ;;
  execute_tasks sort hash (compile sort hash q n m) ts (St (pheap p) (Coll [] []) [] []).
(** From source text to gates.  [Running] also if the parser goroutine ends without closing its channel. *)
Definition compile_text (n : nat) (text : string) : res (ret * state) :=
  match lex n text with
  | SparseModel.Ret toks =>
      match parse_tokens (stack_all_tokens toks) with
      | Some (Some cs) => p <- build n cs ;; run_program n p
      | Some None => Running
      | None => Panic
      end
  | SparseModel.Panic => Panic
  | SparseModel.Running => Running
  end.
(** The same, for a program that imports files (parser.go:128-140).  [Running]: a panic of the parser, or
    not done in [n] steps. *)
Definition compile_files (files : string -> option string) (n : nat) (text : string) : res (ret * state) :=
  match parse_files files n text with
  | Some cs => p <- build n cs ;; run_program n p
  | None => Running
  end.
End Program.

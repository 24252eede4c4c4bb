(** Model of circuitcompiler/factorHandling.go, circuitcompiler/gate.go and the gate collector of
    circuitcompiler/Programm.go.  Factor lists are values here: in-place updates of a slice or of
    a shared big.Int appear as results only (CircuitModel marks shared values). *)
Require Import ZArith NArith Bool DecimalString Ascii String List.
Require Import Verif.FqModel.
Import ListNotations.
Open Scope Z_scope.

(** lexer.go:95-123.  Each Go constant is one bit; [TNone] is the zero value of a TokenType. *)
Inductive ttype : Type :=
| TNone | TNumber | TSyntax | TComment | TAssign | TArith | TBoolOp | TBitOp | TCompare | TEOF | TImport
| TPublic | TIdent | TFuncDef | TCall | TIfCall | TVarDecl | TOverload | TArrDecl | TArrCall | TUnassigned
| TArgument | TIf | TElse | TFor | TNestedEnd | TIfEnd | TReturn.
Definition ttype_eqb (a b : ttype) : bool :=
  match a, b with
  | TNone, TNone | TNumber, TNumber | TSyntax, TSyntax | TComment, TComment | TAssign, TAssign
  | TArith, TArith | TBoolOp, TBoolOp | TBitOp, TBitOp | TCompare, TCompare | TEOF, TEOF | TImport, TImport
  | TPublic, TPublic | TIdent, TIdent | TFuncDef, TFuncDef | TCall, TCall | TIfCall, TIfCall
  | TVarDecl, TVarDecl | TOverload, TOverload | TArrDecl, TArrDecl | TArrCall, TArrCall
  | TUnassigned, TUnassigned | TArgument, TArgument | TIf, TIf | TElse, TElse | TFor, TFor
  | TNestedEnd, TNestedEnd | TIfEnd, TIfEnd | TReturn, TReturn => true
  | _, _ => false
  end.
(** lexer.go:93: Type & IN != 0 *)
Definition is_in (t : ttype) : bool :=
  match t with TIdent | TArgument | TVarDecl | TUnassigned => true | _ => false end.
(** a & b == NumberToken; as each type is one bit, both are NumberToken. *)
Definition both_number (a b : ttype) : bool := ttype_eqb a TNumber && ttype_eqb b TNumber.

(** lexer.go:25-28 *)
Record token := Tok { ttyp : ttype; ident : string }.
(** factorHandling.go:19-22 *)
Record factor := Fac { ftok : token; mult : Z }.
Definition factors := list factor.

(** big.Int.String *)
Definition dec (z : Z) : string := NilZero.string_of_int (Z.to_int z).

Definition dquote : string := String (ascii_of_nat 34) EmptyString.
(** factorHandling.go:39-44 *)
Definition factor_string (f : factor) : string :=
  "(" ++ dquote ++ ident (ftok f) ++ dquote ++ "  fac: " ++ dec (mult f) ++ ")".

(** factorHandling.go:53-56 *)
Definition is_single_number (f : factors) : bool :=
  match f with [x] => ttype_eqb (ttyp (ftok x)) TNumber | _ => false end.

Definition is_number (f : factor) : bool := ttype_eqb (ttyp (ftok f)) TNumber.

(** factorHandling.go:60-63.  big.Int.GCD is the non-negative gcd, also of negative numbers
    (Go 1.14 and later); a single factor is its own gcd, with its sign. *)
Definition gcd_of (f : factors) : option Z :=
  match f with
  | [] => None
  | x :: f' => Some (fold_left (fun g y => Z.gcd (mult y) g) f' (mult x))
  end.
(** factorHandling.go:58-70.  big.Int.Div by zero panics; the division is exact otherwise. *)
Definition extract_gcd (f : factors) : option (factors * Z) :=
  match gcd_of f with
  | None => None
  | Some g => if g =? 0 then None
              else Some (map (fun x => Fac (ftok x) (mult x / g)) f, g)
  end.

Section WithSort.
(** sort.Sort on factors (order of the strings, descending); only what the theorems name is
    assumed about it. *)
Variable sort : factors -> factors.
(** SHA-256 of a byte string as a big-endian integer. *)
Variable hash : string -> Z.
Variable q : Z.

(** factorHandling.go:72-78 *)
Definition hash_factors (f : factors) : Z := hash (String.concat "" (map factor_string f)).
(** s[:16]: panics on shorter strings. *)
Definition prefix16 (s : string) : option string :=
  if Nat.ltb (String.length s) 16 then None else Some (substring 0 16 s).
(** factorHandling.go:80-83 *)
Definition list_signature (f : factors) : option string := prefix16 (dec (hash_factors f)).

(** factorHandling.go:100-105 *)
Definition factor_signature (f : factors) : option (Z * factors) :=
  match extract_gcd f with
  | Some (f', g) => Some (g, sort f')
  | None => None
  end.
(** factorHandling.go:90-98 *)
Definition extract_constant (l r : factors) : option (Z * factors * factors) :=
  match factor_signature l, factor_signature r with
  | Some (gl, l'), Some (gr, r') => Some (fmul q gl gr, l', r')
  | _, _ => None
  end.

(** factorHandling.go:107-112: assigns to the loop copy, so nothing changes. *)
Definition scalar_multiply_factors (f : factors) (x : Z) : factors := f.

(** Inner loop of factorHandling.go:126-164 for one left factor; [left] is the loop copy, so
    every round starts from it and the last one counts.  [None]: the panic of line 163. *)
Definition mul_factor (left right : factor) : option factor :=
  if is_number left && is_in (ttyp (ftok right)) then Some (Fac (ftok right) (fmul q (mult right) (mult left)))
  else if is_in (ttyp (ftok left)) && is_number right then Some (Fac (ftok left) (fmul q (mult right) (mult left)))
  else if both_number (ttyp (ftok right)) (ttyp (ftok left)) then
    let res := fmul q (mult right) (mult left) in Some (Fac (Tok TNumber (dec res)) res)
  else None.
Fixpoint mul_row (acc left : factor) (rights : factors) : option factor :=
  match rights with
  | [] => Some acc
  | r :: rs => match mul_factor left r with Some f => mul_row f left rs | None => None end
  end.
Fixpoint mul_rows (lefts rights : factors) : option factors :=
  match lefts with
  | [] => Some []
  | l :: ls => match mul_row l l rights, mul_rows ls rights with
               | Some f, Some fs => Some (f :: fs)
               | _, _ => None
               end
  end.
(** factorHandling.go:116-167 *)
Definition mul_factors (l r : factors) : option factors :=
  if Nat.ltb (List.length l) (List.length r) then mul_rows r l else mul_rows l r.

(** factorHandling.go:177-195 *)
Definition add_factor (l r : factor) : option factor :=
  if both_number (ttyp (ftok l)) (ttyp (ftok r)) then
    let res := fadd q (mult l) (mult r) in Some (Fac (Tok TNumber (dec res)) res)
  else if ttype_eqb (ttyp (ftok l)) (ttyp (ftok r)) && String.eqb (ident (ftok l)) (ident (ftok r))
  then Some (Fac (ftok r) (fadd q (mult l) (mult r)))
  else None.
(** Inner loop of factorHandling.go:204-215: add to the first right factor that fits. *)
Fixpoint add_into (l : factor) (rights : factors) : option factors :=
  match rights with
  | [] => None
  | r :: rs => match add_factor l r with
               | Some s => Some (s :: rs)
               | None => match add_into l rs with Some rs' => Some (r :: rs') | None => None end
               end
  end.
(** Outer loop of factorHandling.go:202-219: kept left factors and updated right factors. *)
Fixpoint add_loop (lefts rights : factors) : factors * factors :=
  match lefts with
  | [] => ([], rights)
  | l :: ls => match add_into l rights with
               | Some rights' => add_loop ls rights'
               | None => let '(res, rs) := add_loop ls rights in (l :: res, rs)
               end
  end.
(** factorHandling.go:199-238 *)
Definition add_factors (l r : factors) : factors :=
  let '(res, rs) := add_loop l r in
  match res ++ filter (fun f => negb (mult f =? 0)) rs with
  | [] => [Fac (Tok TNumber "0") 0]
  | res' => res'
  end.

(** factorHandling.go:239-248 *)
Definition negate_factors (f : factors) : factors :=
  map (fun x => Fac (if is_number x then Tok TNumber (dec (- mult x)) else ftok x) (- mult x)) f.

(** factorHandling.go:256-265 *)
Fixpoint invert_factors (f : factors) : option factors :=
  match f with
  | [] => Some []
  | x :: f' => match finv q (mult x), invert_factors f' with
               | Some i, Some r => Some (Fac (if is_number x then Tok TNumber (dec i) else ftok x) i :: r)
               | _, _ => None
               end
  end.

(** gate.go:9-20 *)
Inductive gkind : Type := GMul | GReturnMul | GBase | GEqual | GAdd | GSum | GBit.
(** gate.go:22-33 *)
Record gate := Gate { gtyp : gkind; gid : string; gleft : factors; gright : factors; gexp : factors;
                      gout : factors; gnonew : bool; grep : token }.

(** gate.go:46-59 *)
Definition set_id (g : gate) : option gate :=
  let l := sort (gleft g) in
  let r := sort (gright g) in
  let e := sort (gexp g) in
  let o := sort (gout g) in
  let lr := hash_factors l + hash_factors r in
  let eo := hash_factors (e ++ o) in
  match prefix16 (dec (Z.lxor lr eo)) with
  | Some i => Some (Gate (gtyp g) i l r e o (gnonew g) (grep g))
  | None => None
  end.
(** gate.go:39-44: ID(), which fills in the identifier as a side effect. *)
Definition with_id (g : gate) : option gate :=
  match gid g with EmptyString => set_id g | _ => Some g end.

(** Programm.go:10-14: the gates in order and the set of their identifiers.  splittedElements is
    never used. *)
Record collector := Coll { gates : list gate; known : list string }.
Definition contains (c : collector) (i : string) : bool := existsb (String.eqb i) (known c).
(** Programm.go:64-74.  [finish] stands for the assignments the caller makes to the same gate
    after Add (outIns or leftIns, from the identifier); a dropped gate gets them too, but nobody
    sees it.  Result: the collector and the identifier. *)
Definition collect (c : collector) (g : gate) (finish : gate -> gate) : option (collector * string) :=
  match with_id g with
  | None => None
  | Some g' => if contains c (gid g') then Some (c, gid g')
               else Some (Coll (gates c ++ [finish g']) (gid g' :: known c), gid g')
  end.

Definition no_token : token := Tok TNone "".
Definition arg (i : string) : token := Tok TArgument i.
Definition wire (i : string) (m : Z) : factors := [Fac (arg i) m].

(** Programm.go:549-563, two operands that are not single numbers. *)
Definition compile_mul (c : collector) (l r : factors) : option (collector * factors) :=
  match extract_constant l r with
  | None => None
  | Some (k, l', r') =>
      match collect c (Gate GMul "" l' r' [] [] false no_token)
              (fun g => Gate (gtyp g) (gid g) (gleft g) (gright g) (gexp g) (wire (gid g) 1) (gnonew g) (grep g)) with
      | Some (c', i) => Some (c', wire i k)
      | None => None
      end
  end.
(** Programm.go:572-587, divisor not a single number. *)
Definition compile_div (c : collector) (l r : factors) : option (collector * factors) :=
  match factor_signature l, factor_signature r with
  | Some (gl, l'), Some (gr, r') =>
      match fdiv q gl gr with
      | None => None
      | Some k =>
          match collect c (Gate GMul "" [] r' [] l' false no_token)
                  (fun g => Gate (gtyp g) (gid g) (wire (gid g) 1) (gright g) (gexp g) (gout g) (gnonew g) (grep g)) with
          | Some (c', i) => Some (c', wire i k)
          | None => None
          end
      end
  | _, _ => None
  end.
(** Programm.go:472-488 *)
Definition compile_equal (c : collector) (l r : factors) : option collector :=
  match collect c (Gate GEqual "" l r [] [] true no_token) (fun g => g) with
  | Some (c', _) => Some c'
  | None => None
  end.
(** Programm.go:426-454; setAndGetID is called first, then Add. *)
Definition compile_add_gate (c : collector) (l r : factors) : option (collector * factors) :=
  match extract_constant l r with
  | None => None
  | Some (k, l', r') =>
      match collect c (Gate GAdd "" (add_factors l' r') [] [] [] false no_token)
              (fun g => Gate (gtyp g) (gid g) (gleft g) (gright g) (gexp g) (wire (gid g) 1) (gnonew g) (grep g)) with
      | Some (c', i) => Some (c', wire i k)
      | None => None
      end
  end.
(** Programm.go:455-471: outIns stays empty, the row uses the identifier. *)
Definition compile_base (c : collector) (e : factors) : option (collector * factors) :=
  match collect c (Gate GBase "" [] [] e [] false no_token) (fun g => g) with
  | Some (c', i) => Some (c', wire i 1)
  | None => None
  end.

(** Programm.go:541-599: one arithmetic operation on compiled operands. *)
Definition compile_op (c : collector) (op : string) (l r : factors) : option (collector * factors) :=
  if String.eqb op "*" then
    if is_single_number l || is_single_number r
    then match mul_factors l r with Some f => Some (c, f) | None => None end
    else compile_mul c l r
  else if String.eqb op "/" then
    if is_single_number r
    then match invert_factors r with
         | Some i => match mul_factors l i with Some f => Some (c, f) | None => None end
         | None => None
         end
    else compile_div c l r
  else if String.eqb op "+" then Some (c, add_factors l r)
  else if String.eqb op "-" then Some (c, add_factors l (negate_factors r))
  else None.

(** Programm.go:24-57 *)
Definition complete_function (c : collector) (f : factors) : option collector :=
  match f with
  | [] => Some c
  | x :: f' =>
      if is_single_number f then Some c
      else if match f' with [] => mult x =? 1 | _ => false end then Some c
      else match list_signature f with
           | None => None
           | Some i =>
               match collect c (Gate GAdd i f [] [] (wire i 1) false no_token) (fun g => g) with
               | Some (c', _) => Some c'
               | None => None
               end
           end
  end.

(** Programm.go:369-414: SPLIT of a compiled argument; N = bit length of the field order. *)
Definition bit_name (i : nat) (x : string) : string := dec (Z.of_nat i) ++ x.
Fixpoint add_bits (c : collector) (t : token) (is : list nat) : option collector :=
  match is with
  | [] => Some c
  | i :: is' => match collect c (Gate GBit (bit_name i (ident t)) [] [] [] [] false t) (fun g => g) with
                | Some (c', _) => add_bits c' t is'
                | None => None
                end
  end.
Definition bit_sum (n : nat) (x : string) : factors :=
  map (fun i => Fac (arg (bit_name i x)) (2 ^ Z.of_nat i)) (seq 0 n).
Definition compile_split (c : collector) (f : factors) : option collector :=
  match f with
  | [x] => let n := Z.to_nat (bitlen q) in
           match add_bits c (ftok x) (seq 0 n) with
           | None => None
           | Some c' => match collect c' (Gate GSum "" (bit_sum n (ident (ftok x))) [] [] [] true (ftok x)) (fun g => g) with
                        | Some (c'', _) => Some c''
                        | None => None
                        end
           end
  | _ => None
  end.
End WithSort.

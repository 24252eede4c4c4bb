(** A small imperative language with lexical scoping: what the source programs mean, independently of
    the compiler's function objects.  The big-step semantics is stated once for any domain of
    values; [field_values] is its meaning over the field of q elements. *)
Require Import ZArith Bool Ascii String List.
Require Import Verif.Cong Verif.FqModel Verif.FactorModel Verif.FactorSpec Verif.ParserModel.
Import ListNotations.
Local Open Scope string_scope.
Local Open Scope list_scope.

Inductive exp : Type :=
| Num (s : string)
| Var (x : string)
| Bin (o : string) (a b : exp)
| Base (e : exp)                          (* scalarBaseMultiply(e) *)
| Call (f : string) (args : list exp)
| Idx (a : string) (es : list exp).        (* a[e1][e2]... *)
(** a op b, with one of == != < <= > >= *)
Record cond := Cmp { cop : string; cleft : exp; cright : exp }.
Inductive stmt : Type :=
| Decl (x : string) (e : exp)             (* var x = e *)
| Assign (x : string) (e : exp)           (* x = e *)
| Equal (a b : exp)                       (* equal(a, b) *)
| Do (f : string) (args : list exp)       (* f(args) *)
| Return (e : exp)
| For (c : cond) (x : string) (e : exp) (body : list stmt)   (* for c ; x = e { body } *)
| If (c : cond) (body : list stmt)
| Public (x : string)                     (* public{x} *)
| Put (a : string) (es : list exp) (e : exp)   (* a[e1][e2]... = e *)
| Array (x : string).                     (* x is the name of an array; its elements are declared next *)
Record fdef := Fun { fparams : list string; fbody : list stmt }.
Definition defs := list (string * fdef).

(** The name of an element of an array, and var x[] = {es}: an array is its elements, declared in order as
    variables. *)
Fixpoint brackets (l : list Z) : string := match l with [] => "" | i :: l' => "[" ++ dec i ++ "]" ++ brackets l' end%string.
Definition element (a : string) (l : list Z) : string := (a ++ brackets l)%string.
Fixpoint elements (x : string) (i : nat) (es : list exp) : list stmt :=
  match es with [] => [] | e :: es' => Decl (element x [Z.of_nat i]) e :: elements x (S i) es' end.
Definition array (x : string) (es : list exp) : list stmt := Array x :: elements x 0 es.

(** ** Meaning *)
Fixpoint find_at {A} (x : string) (m : list (string * A)) : option A :=
  match m with [] => None | (y, a) :: m' => if String.eqb x y then Some a else find_at x m' end.
Fixpoint put_at {A} (x : string) (a : A) (m : list (string * A)) : list (string * A) :=
  match m with [] => [] | (y, b) :: m' => if String.eqb x y then (y, a) :: m' else (y, b) :: put_at x a m' end.

(** Values, an effect record, and the operations on them.  [dread]: what reading a variable gives;
    [delem]: what reading an element of an array gives; [dnew]: the record while the operands of a
    condition or an index are evaluated; [dindex]: a value as an index; [ddone]: what happens after each
    task of main. *)
Record domain := Domain {
  dval : Type; drec : Type;
  dnum : string -> dval -> Prop;
  dread : dval -> dval -> Prop;
  delem : dval -> dval -> Prop;
  dindex : dval -> Z -> Prop;
  dop : string -> drec -> dval -> dval -> dval -> drec -> Prop;
  dbase : drec -> dval -> dval -> drec -> Prop;
  dequal : drec -> dval -> dval -> drec -> Prop;
  dcmp : string -> dval -> dval -> bool -> Prop;
  dnew : drec;
  ddone : drec -> option dval -> drec -> Prop }.

Section Semantics.
Variable D : domain.
Variable fs : defs.
Definition env := list (string * dval D).

(** Expressions do not change variables.  A block returns [Some v], or [None] if it ends without
    reaching a return.  Variables declared in a block are dropped at its end: new variables are
    appended to the environment, so the old ones are a prefix. *)
Inductive ev : env -> drec D -> exp -> dval D -> drec D -> Prop :=
| ev_num : forall m s x v, dnum D x v -> ev m s (Num x) v s
| ev_var : forall m s x u v, find_at x m = Some u -> dread D u v -> ev m s (Var x) v s
| ev_bin : forall m s o a b s1 va s2 vb v s3, ev m s a va s1 -> ev m s1 b vb s2 -> dop D o s2 va vb v s3 -> ev m s (Bin o a b) v s3
| ev_base : forall m s a va s1 v s2, ev m s a va s1 -> dbase D s1 va v s2 -> ev m s (Base a) v s2
| ev_call : forall m s f args vs s1 v s2, evs m s args vs s1 -> call s1 f vs (Some v) s2 -> ev m s (Call f args) v s2
| ev_idx : forall m s a es l u v, idxs m es l -> find_at (element a l) m = Some u -> delem D u v -> ev m s (Idx a es) v s
with idxs : env -> list exp -> list Z -> Prop :=
| idxs_nil : forall m, idxs m [] []
| idxs_cons : forall m e v s1 i es l, ev m (dnew D) e v s1 -> dindex D v i -> idxs m es l -> idxs m (e :: es) (i :: l)
with evs : env -> drec D -> list exp -> list (dval D) -> drec D -> Prop :=
| evs_nil : forall m s, evs m s [] [] s
| evs_cons : forall m s e v s1 es vs s2, ev m s e v s1 -> evs m s1 es vs s2 -> evs m s (e :: es) (v :: vs) s2
with call : drec D -> string -> list (dval D) -> option (dval D) -> drec D -> Prop :=
| call_fun : forall s f ps body vs m r s1, find_at f fs = Some (Fun ps body) -> length ps = length vs ->
    xb (combine ps vs) s body m r s1 -> call s f vs r s1
with xs : env -> drec D -> stmt -> env -> option (dval D) -> bool -> drec D -> Prop :=
| xs_decl : forall m s x e v s1, ev m s e v s1 -> xs m s (Decl x e) (m ++ [(x, v)]) (Some v) false s1
| xs_assign : forall m s x e v s1, ev m s e v s1 -> find_at x m <> None -> xs m s (Assign x e) (put_at x v m) (Some v) false s1
| xs_equal : forall m s a b va s1 vb s2 s3, ev m s a va s1 -> ev m s1 b vb s2 -> dequal D s2 va vb s3 ->
    xs m s (Equal a b) m None false s3
| xs_do : forall m s f args vs s1 r s2, evs m s args vs s1 -> call s1 f vs r s2 -> xs m s (Do f args) m r false s2
| xs_return : forall m s e v s1, ev m s e v s1 -> xs m s (Return e) m (Some v) true s1
| xs_for_end : forall m s c x e body, test m c false -> xs m s (For c x e body) m None false s
| xs_for : forall m s c x e body m1 s1 v s2 m2 s3, test m c true -> xb m s body m1 None s1 ->
    ev (firstn (length m) m1) s1 e v s2 -> find_at x m <> None ->
    xs (put_at x v (firstn (length m) m1)) s2 (For c x e body) m2 None false s3 ->
    xs m s (For c x e body) m2 None false s3
| xs_if_not : forall m s c body, test m c false -> xs m s (If c body) m None false s
| xs_if : forall m s c body m1 r s1, test m c true -> xb m s body m1 r s1 ->
    xs m s (If c body) (firstn (length m) m1) r (match r with Some _ => true | None => false end) s1
| xs_public : forall m s x, xs m s (Public x) m None false s
| xs_set : forall m s a es e l v s1, idxs m es l -> ev m s e v s1 -> find_at (element a l) m <> None ->
    xs m s (Put a es e) (put_at (element a l) v m) (Some v) false s1
| xs_array : forall m s x, xs m s (Array x) m None false s
with xb : env -> drec D -> list stmt -> env -> option (dval D) -> drec D -> Prop :=
| xb_nil : forall m s, xb m s [] m None s
| xb_return : forall m s t ts m1 v s1, xs m s t m1 v true s1 -> xb m s (t :: ts) m1 v s1
| xb_cons : forall m s t ts m1 v s1 m2 r s2, xs m s t m1 v false s1 -> xb m1 s1 ts m2 r s2 -> xb m s (t :: ts) m2 r s2
with test : env -> cond -> bool -> Prop :=
| test_cmp : forall m c va s1 vb s2 b, ev m (dnew D) (cleft c) va s1 -> ev m (dnew D) (cright c) vb s2 ->
    dcmp D (cop c) va vb b -> test m c b.

(** The body of main: after each task its value is handed to [ddone]. *)
Inductive mb : env -> drec D -> list stmt -> option (dval D) -> drec D -> Prop :=
| mb_nil : forall m s, mb m s [] None s
| mb_return : forall m s t ts m1 v s1 s2, xs m s t m1 v true s1 -> ddone D s1 v s2 -> mb m s (t :: ts) v s2
| mb_cons : forall m s t ts m1 v s1 s2 r s3, xs m s t m1 v false s1 -> ddone D s1 v s2 -> mb m1 s2 ts r s3 ->
    mb m s (t :: ts) r s3.
End Semantics.

(** ** The field of q elements
    A value is a number known at compile time, reduced mod q, or the value of a wire.  The record is the
    list of pairs the program asks to be equal.  An index is a known number below 2^63; it has a meaning
    only if q is at least 2^63, so that it is below q too (over a smaller field the number in the text and
    the reduced one would name different elements). *)
Inductive value : Type := Known (z : Z) | Wire (z : Z).
Definition num_of (v : value) : Z := match v with Known z => z | Wire z => z end.

Section Field.
Variable q : Z.
Variable gx : Z -> Z.

(** z is the result of [a o b]; a quotient is any z with z * b = a. *)
Inductive result_of : string -> Z -> Z -> Z -> Prop :=
| result_add : forall a b z, z ==[q] a + b -> result_of "+" a b z
| result_sub : forall a b z, z ==[q] a - b -> result_of "-" a b z
| result_mul : forall a b z, z ==[q] a * b -> result_of "*" a b z
| result_div : forall a b z, ~ b ==[q] 0 -> z * b ==[q] a -> result_of "/" a b z.
(** Two known numbers give a known one. *)
Inductive value_op : string -> value -> value -> value -> Prop :=
| value_known : forall o a b z, (0 <= z < q)%Z -> result_of o a b z -> value_op o (Known a) (Known b) (Known z)
| value_left : forall o a b z, result_of o a (num_of b) z -> value_op o (Wire a) b (Wire z)
| value_right : forall o a b z, result_of o (num_of a) b z -> value_op o a (Wire b) (Wire z).
(** Only known numbers are compared, as integers between 0 and q - 1. *)
Inductive compared : string -> value -> value -> bool -> Prop :=
| cmp_eq : forall a b, compared "==" (Known a) (Known b) (a =? b)%Z
| cmp_ne : forall a b, compared "!=" (Known a) (Known b) (negb (a =? b)%Z)
| cmp_lt : forall a b, compared "<" (Known a) (Known b) (a <? b)%Z
| cmp_le : forall a b, compared "<=" (Known a) (Known b) (a <=? b)%Z
| cmp_gt : forall a b, compared ">" (Known a) (Known b) (b <? a)%Z
| cmp_ge : forall a b, compared ">=" (Known a) (Known b) (b <=? a)%Z.

Definition field_values : domain := {|
  dval := value; drec := list (Z * Z);
  dnum := fun s v => exists z, set_string10 s = Some z /\ v = Known (z mod q);
  dread := fun u v => v = u;
  delem := fun u v => v = u;
  dindex := fun v i => v = Known i /\ (0 <= i < 2 ^ 63 /\ 2 ^ 63 <= q)%Z;
  dop := fun o s a b v s' => value_op o a b v /\ s' = s;
  dbase := fun s a v s' => (exists z, z ==[q] gx (num_of a mod q) /\ v = Wire z) /\ s' = s;
  dequal := fun s a b s' => s' = s ++ [(num_of a, num_of b)];
  dcmp := compared;
  dnew := [];
  ddone := fun s _ s' => s' = s |}.

(** The program started with main's inputs as wires: its result, if any, and the equalities it asks for. *)
Definition program_means (fs : defs) (w : assignment) (v : option value) (asked : list (Z * Z)) : Prop :=
  exists ins body, find_at "main" fs = Some (Fun ins body) /\
    mb field_values fs (map (fun x => (x, Wire (w x))) ins) [] body v asked.
End Field.

(** ** Programs as the parser emits them (parser.go)
    An expression node of one input stands for that input. *)
Inductive enc : exp -> ctree -> Prop :=
| enc_num : forall s, enc (Num s) (Con (Tok TNumber s) [])
| enc_var : forall x, enc (Var x) (Con (Tok TIdent x) [])
| enc_bin : forall s o a b ca cb, enc a ca -> enc b cb -> enc (Bin o a b) (Con (Tok TUnassigned s) [Con (Tok TArith o) []; ca; cb])
| enc_wrap : forall s e c, enc e c -> enc e (Con (Tok TUnassigned s) [c])
| enc_base : forall e c, enc e c -> enc (Base e) (Con (Tok TCall "scalarBaseMultiply") [c])
| enc_call : forall f es cs, encs es cs -> enc (Call f es) (Con (Tok TCall f) cs)
| enc_idx : forall a es cs, encs es cs -> enc (Idx a es) (Con (Tok TArrCall a) cs)
with encs : list exp -> list ctree -> Prop :=
| encs_nil : encs [] []
| encs_cons : forall e c es cs, enc e c -> encs es cs -> encs (e :: es) (c :: cs).
Inductive enc_cond : cond -> ctree -> Prop :=
| enc_cmp : forall s o a b ca cb, enc a ca -> enc b cb -> enc_cond (Cmp o a b) (Con (Tok TUnassigned s) [Con (Tok TCompare o) []; ca; cb]).
Definition ends (t : ttype) (c : ctree) : Prop := ttyp (output c) = t /\ inputs c = [].
Inductive enc_stmt : stmt -> list ctree -> Prop :=
| enc_decl : forall x e c, enc e c -> enc_stmt (Decl x e) [Con (Tok TVarDecl x) [c]]
| enc_assign : forall s x e c, enc e c -> enc_stmt (Assign x e) [Con (Tok TOverload s) [Con (Tok TIdent x) []; c]]
| enc_equal : forall a b ca cb, enc a ca -> enc b cb -> enc_stmt (Equal a b) [Con (Tok TCall "equal") [ca; cb]]
| enc_do : forall f es cs, encs es cs -> enc_stmt (Do f es) [Con (Tok TCall f) cs]
| enc_return : forall s e c, enc e c -> enc_stmt (Return e) [Con (Tok TReturn s) [c]]
| enc_for : forall s c cc s1 x e ce body cs fin, enc_cond c cc -> enc e ce -> enc_block body cs -> ends TNestedEnd fin ->
    enc_stmt (For c x e body) (Con (Tok TFor s) [cc; Con (Tok TOverload s1) [Con (Tok TIdent x) []; ce]] :: cs ++ [fin])
| enc_if : forall s c cc body cs fin1 fin2, enc_cond c cc -> enc_block body cs -> ends TNestedEnd fin1 -> ends TIfEnd fin2 ->
    enc_stmt (If c body) (Con (Tok TIf s) [cc] :: cs ++ [fin1; fin2])
| enc_public : forall x, enc_stmt (Public x) [Con (Tok TPublic x) []]
| enc_set : forall s a es cs e c, encs es cs -> enc e c -> enc_stmt (Put a es e) [Con (Tok TOverload s) [Con (Tok TArrCall a) cs; c]]
with enc_block : list stmt -> list ctree -> Prop :=
| enc_nil : enc_block [] []
| enc_cons : forall t ts c cs, enc_stmt t c -> enc_block ts cs -> enc_block (t :: ts) (c ++ cs)
| enc_array : forall x es cs ts cs', es <> [] -> encs es cs -> enc_block ts cs' -> enc_block (array x es ++ ts) (Con (Tok TArrDecl x) cs :: cs').
Inductive enc_prog : defs -> list ctree -> Prop :=
| enc_none : enc_prog [] []
| enc_fun : forall f ps body fs cs fin cs', enc_block body cs -> ends TNestedEnd fin -> enc_prog fs cs' ->
    enc_prog ((f, Fun ps body) :: fs)
      (Con (Tok TFuncDef f) (map (fun x => Con (Tok TArgument x) []) ps) :: cs ++ fin :: cs').

(** The names declared public, in the order of the text. *)
Fixpoint publics_in (t : stmt) : list string :=
  match t with
  | Public x => [x]
  | For _ _ _ b | If _ b => flat_map publics_in b
  | _ => []
  end.
Definition publics (fs : defs) : list string := flat_map (fun d => flat_map publics_in (fbody (snd d))) fs.

(** ** Programs covered
    Names start with a letter and are not those of built-in functions (Programm.go:351-488). *)
Definition reserved : list string :=
  ["BREAK"; "SPLIT"; "AND"; "NAND"; "OR"; "NOT"; "addGateConstraint"; "scalarBaseMultiply"; "equal"].
Definition letter (c : ascii) : bool :=
  let n := nat_of_ascii c in (Nat.leb 65 n && Nat.leb n 90) || (Nat.leb 97 n && Nat.leb n 122).
Definition name_ok (x : string) : Prop :=
  match x with String c _ => letter c = true | EmptyString => False end /\ ~ In x reserved.

Section Scope.
Variable fs : defs.
(** A statement of the body itself, not of a nested block, is a return. *)
Definition returns (ts : list stmt) : Prop := exists e, In (Return e) ts.
(** Variables are declared before they are used, functions are given all their arguments, main is
    not called, a function called for its value returns one. *)
Definition callable (f : string) (n : nat) : Prop := f <> "main" /\ exists d, find_at f fs = Some d /\ length (fparams d) = n.
Definition gives (f : string) : Prop := exists d, find_at f fs = Some d /\ returns (fbody d).
Section Names.
(** The names declared in the function, in nested blocks too. *)
Variable ns : list string.
(** Elements of an array are used where all elements the function declares under the array's name are
    in scope. *)
Definition array_ok (vs : list string) (a : string) : Prop :=
  name_ok a /\ forall x, prefix (a ++ "[") x = true -> In x vs \/ ~ In x ns /\ find_at x fs = None.
Fixpoint exp_ok (vs : list string) (e : exp) : Prop :=
  let all := (fix all (l : list exp) : Prop := match l with [] => True | a :: l' => exp_ok vs a /\ all l' end) in
  match e with
  | Num _ => True
  | Var x => In x vs
  | Bin o a b => In o ["+"; "-"; "*"; "/"] /\ exp_ok vs a /\ exp_ok vs b
  | Base a => exp_ok vs a
  | Call f args => callable f (length args) /\ gives f /\ all args
  | Idx a es => array_ok vs a /\ es <> [] /\ all es
  end.
Definition cond_ok (vs : list string) (c : cond) : Prop := exp_ok vs (cleft c) /\ exp_ok vs (cright c).
(** A new variable must differ from those in scope and from the functions. *)
Definition new_ok (vs : list string) (x : string) : Prop := name_ok x /\ ~ In x vs /\ find_at x fs = None /\ In x ns.
(** No return inside a loop ([inl]), no if inside an if ([ini]). *)
Fixpoint stmt_ok (inl ini : bool) (vs : list string) (t : stmt) : Prop :=
  let block := (fix go (inl ini : bool) (vs : list string) (ts : list stmt) : Prop :=
                  match ts with
                  | [] => True
                  | t :: ts' => stmt_ok inl ini vs t /\ go inl ini (match t with Decl x _ => vs ++ [x] | _ => vs end) ts'
                  end) in
  match t with
  | Decl x e => exp_ok vs e /\ new_ok vs x
  | Assign x e => exp_ok vs e /\ In x vs
  | Equal a b => exp_ok vs a /\ exp_ok vs b
  | Do f args => callable f (length args) /\ Forall (exp_ok vs) args
  | Return e => exp_ok vs e /\ inl = false
  | For c x e body => cond_ok vs c /\ In x vs /\ exp_ok vs e /\ block true ini vs body
  | If c body => ini = false /\ cond_ok vs c /\ block inl true vs body
  | Public x => True
  | Put a es e => array_ok vs a /\ es <> [] /\ Forall (exp_ok vs) es /\ exp_ok vs e
  | Array x => new_ok vs x
  end.
Fixpoint block_ok (inl ini : bool) (vs : list string) (ts : list stmt) : Prop :=
  match ts with
  | [] => True
  | t :: ts' => stmt_ok inl ini vs t /\ block_ok inl ini (match t with Decl x _ => vs ++ [x] | _ => vs end) ts'
  end.
End Names.
Definition fun_ok (f : string) (d : fdef) : Prop :=
  name_ok f /\ NoDup (fparams d) /\ Forall (fun x => name_ok x /\ find_at x fs = None) (fparams d) /\
  exists ns, incl (fparams d) ns /\ block_ok ns false false (fparams d) (fbody d).
End Scope.
Definition prog_ok (fs : defs) : Prop :=
  NoDup (map fst fs) /\ Forall (fun d => fun_ok fs (fst d) (snd d)) fs.

(** The factors of a stored value have different names.  (Wires do; a number may by chance be
    written like the identifier of a gate.) *)
Definition distinct_names (f : factors) : Prop := NoDup (map (fun x => ident (ftok x)) f).

(** Signals are declared public in the body of main, not in its loops and branches. *)
Definition publics_at_main (fs : defs) : Prop := forall f d, In (f, d) fs ->
  Forall (fun t => publics_in t = [] \/ f = "main" /\ exists x, t = Public x) (fbody d).

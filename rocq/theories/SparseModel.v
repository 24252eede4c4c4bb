(** Model of utils/sparsePolynomial.go: polynomials and vectors stored in AVL trees.
    Ranging over [ChannelNodes] of a tree that is not modified meanwhile visits its entries in
    order; MulSparseScalar and Combine do modify the tree they range over: here they are given
    for the schedule in which the walker never runs ahead, SchedModel has all schedules.
    Keys are [N]: the wrap-around of uint additions beyond 2^64 is not modelled. *)
Require Import ZArith NArith Bool List.
Require Import Verif.FqModel Verif.AvlModel.
Import ListNotations.
Open Scope Z_scope.

(** Result of a loop run with bounded fuel: value, panic, or still running. *)
Inductive outcome (A : Type) : Type :=
| Ret (a : A)
| Panic
| Running.
Arguments Ret {A} a.
Arguments Panic {A}.
Arguments Running {A}.

Section Sparse.
Variable q : Z.

Definition add_cb : combiner := fun old new => Some (fadd q old new).
Definition mul_cb : combiner := fun old new => Some (fmul q old new).

(** A sequence of [Put(k, v, f)] calls. *)
Fixpoint put_all (t : tree) (l : list (N * Z)) (f : combiner) : option tree :=
  match l with
  | [] => Some t
  | (k, v) :: l' => match tree_put t k v f with Some t' => put_all t' l' f | None => None end
  end.

(** sparsePolynomial.go:9-19 *)
Definition mul_sparse (a b : tree) : option tree :=
  put_all Leaf
    (flat_map (fun L => map (fun R => ((fst L + fst R)%N, fmul q (snd R) (snd L))) (ascending b))
              (ascending a)) add_cb.

(** sparsePolynomial.go:53-61 *)
Definition clone (a : tree) : option tree := put_all Leaf (descending a) set_insert.

(** sparsePolynomial.go:24-26 after the Clone: one Put per key. *)
Definition scale_loop (a : tree) (s : Z) : option tree :=
  put_all a (map (fun e => (fst e, s)) (ascending a)) mul_cb.
(** sparsePolynomial.go:22-28 *)
Definition mul_sparse_scalar (a : tree) (s : Z) : option tree :=
  match clone a with Some a' => scale_loop a' s | None => None end.

(** sparsePolynomial.go:63-74 *)
Definition add_to_sparse (a b : tree) : option tree :=
  match clone a with Some a' => put_all a' (descending b) add_cb | None => None end.

(** sparsePolynomial.go:121-128 *)
Definition sub_to_sparse (a b : tree) : option tree :=
  match clone a with
  | Some a' => put_all a' (map (fun e => (fst e, fneg q (snd e))) (descending b)) add_cb
  | None => None
  end.

(** sparsePolynomial.go:36-50.  maxA and maxB are never nil (MaxNode of an empty tree is an
    artificial node 0 -> 0). *)
Fixpoint divide_loop (fuel : nat) (b res rem : tree) : outcome (tree * tree) :=
  let '(ka, va) := max_node rem in
  let '(kb, vb) := max_node b in
  if N.ltb ka kb then Ret (res, rem) else
  match fuel with
  | O => Running
  | S f =>
      match fdiv q va vb with
      | None => Panic
      | Some l =>
          let pos := (ka - kb)%N in
          match insert_no_overwrite Leaf pos l, insert_no_overwrite res pos l with
          | Some aux, Some res' =>
              match mul_sparse b aux with
              | None => Panic
              | Some mul =>
                  match sub_to_sparse rem mul with
                  | None => Panic
                  | Some rem' => divide_loop f b res' rem'
                  end
              end
          | _, _ => Panic
          end
      end
  end.
Definition divide_sparse (fuel : nat) (a b : tree) : outcome (tree * tree) :=
  match clone a with Some rem => divide_loop fuel b Leaf rem | None => Panic end.

(** sparsePolynomial.go:101-109: [powers] is alredyComputedExponents, the list is the snapshot
    taken by DecendingNodes; division by a zero key panics (116-118). *)
Fixpoint power_loop (powers : tree) (snap : list (N * Z)) (rem : N) (next : Z) : option (tree * Z) :=
  match snap with
  | [] => Some (powers, next)
  | (k, v) :: snap' =>
      if N.eqb k 0 then None else
      let qq := (rem / k)%N in
      let rem' := (rem mod k)%N in
      let vv := fexp_int q v qq in
      match insert powers (qq * k)%N vv with
      | None => None
      | Some powers' =>
          let next' := fmul q next vv in
          if N.eqb rem' 0 then Some (powers', next') else power_loop powers' snap' rem' next'
      end
  end.
(** sparsePolynomial.go:93-111 *)
Fixpoint eval_loop (entries : list (N * Z)) (powers : tree) (result : Z) : option Z :=
  match entries with
  | [] => Some result
  | (k, v) :: es =>
      match power_loop powers (descending powers) k 1 with
      | None => None
      | Some (powers', next) => eval_loop es powers' (fadd q result (fmul q v next))
      end
  end.
(** sparsePolynomial.go:77-113 *)
Definition eval_sparse (poly : tree) (at_ : Z) : option Z :=
  if at_ =? 0 then Some (match get poly 0%N with Some v => v | None => 0 end)
  else match insert_no_overwrite Leaf 1%N at_ with
       | None => None
       | Some powers => eval_loop (ascending poly) powers 0
       end.

(** The map [bases], finiteField.go:39: most recent binding first.  Cached trees are only ever
    cloned by their users, so sharing them is not visible. *)
Definition scache := list ((nat * nat) * tree).
Fixpoint scache_get (c : scache) (k n : nat) : option tree :=
  match c with
  | [] => None
  | ((k', n'), v) :: c' => if Nat.eqb k k' && Nat.eqb n n' then Some v else scache_get c' k n
  end.

(** sparsePolynomial.go:142-149 *)
Definition sbase_fac (k n : nat) : Z :=
  let fac i acc := fmul q acc (Z.of_nat k - Z.of_nat i) in
  fold_left (fun acc i => fac i acc) (seq (S k) (n - S k))
    (fold_left (fun acc i => fac i acc) (seq 0 k) 1).

(** sparsePolynomial.go:151-156 *)
Definition sbase_step (k : nat) (r : option tree) (i : nat) : option tree :=
  match r with
  | None => None
  | Some r =>
      if Nat.eqb i k then Some r else
      match from_array [- Z.of_nat i; 1] with
      | Some lin => mul_sparse r lin
      | None => None
      end
  end.
Definition sbase_prod (k n : nat) : option tree :=
  fold_left (sbase_step k) (seq 0 n) (sparse_with 0%N 1).

(** sparsePolynomial.go:142-158: a basis polynomial on a cache miss. *)
Definition sbase_fresh (k n : nat) : option tree :=
  match sbase_prod k n, finv q (sbase_fac k n) with
  | Some r, Some hf => mul_sparse_scalar r hf
  | _, _ => None
  end.
(** sparsePolynomial.go:136-161 *)
Definition sbase (c : scache) (k n : nat) : option (tree * scache) :=
  match scache_get c k n with
  | Some v => Some (v, c)
  | None => match sbase_fresh k n with
            | Some r => Some (r, ((k, n), r) :: c)
            | None => None
            end
  end.
(** sparsePolynomial.go:174-179 *)
Fixpoint interp_loop (c : scache) (n : nat) (data : list (N * Z)) (poly : tree) : option (tree * scache) :=
  match data with
  | [] => Some (poly, c)
  | (k, v) :: data' =>
      match sbase c (N.to_nat k) n with
      | None => None
      | Some (b, c') =>
          match mul_sparse_scalar b v with
          | None => None
          | Some prod =>
              match add_to_sparse poly prod with
              | None => None
              | Some poly' => interp_loop c' n data' poly'
              end
          end
      end
  end.
(** sparsePolynomial.go:131-180 *)
Definition interpolate_sparse (c : scache) (data : tree) (n : nat) : option (tree * scache) :=
  if N.leb (N.of_nat n) (max_power data) then None
  else interp_loop c n (ascending data) Leaf.

(** sparsePolynomial.go:181-187; an index outside b panics. *)
Definition sparse_scalar_product (a : tree) (b : list Z) : option Z :=
  fold_left (fun acc e => match acc, nth_error b (N.to_nat (fst e)) with
                          | Some res, Some w => Some (res + fmul q (snd e) w)
                          | _, _ => None
                          end) (ascending a) (Some 0).

(** sparsePolynomial.go:189-194 (a itself is updated). *)
Definition combine_loop (a : tree) (w : list Z) (es : list (N * Z)) : option tree :=
  fold_left (fun acc e => match acc, nth_error w (N.to_nat (fst e)) with
                          | Some t, Some x => tree_put t (fst e) x mul_cb
                          | _, _ => None
                          end) es (Some a).
Definition combine_sparse (a : tree) (w : list Z) : option tree := combine_loop a w (ascending a).

(** sparsePolynomial.go:197-204: polynomials[i] panics when there are fewer polynomials than weights. *)
Fixpoint linear_combine_sparse (ps : list tree) (w : list Z) : option (list tree) :=
  match w, ps with
  | [], _ => Some []
  | _ :: _, [] => None
  | x :: w', p :: ps' =>
      match mul_sparse_scalar p x, linear_combine_sparse ps' w' with
      | Some t, Some ts => Some (t :: ts)
      | _, _ => None
      end
  end.

(** sparsePolynomial.go:205-211 *)
Definition add_polynomials_sparse (ps : list tree) : option tree :=
  fold_left (fun acc p => match acc with Some s => add_to_sparse s p | None => None end) ps (Some Leaf).
End Sparse.

(** r[j].InsertNoOverwriteAllowed(y, v); [None]: index out of range or key occupied. *)
Fixpoint column_insert (r : list tree) (j : nat) (y : N) (v : Z) : option (list tree) :=
  match r, j with
  | [], _ => None
  | t :: r', O => match insert_no_overwrite t y v with Some t' => Some (t' :: r') | None => None end
  | t :: r', S j' => match column_insert r' j' y v with Some r'' => Some (t :: r'') | None => None end
  end.
(** sparsePolynomial.go:222-227, one row *)
Fixpoint transpose_row (r : list tree) (y : N) (es : list (N * Z)) : option (list tree) :=
  match es with
  | [] => Some r
  | (k, v) :: es' => match column_insert r (N.to_nat k) y v with
                     | Some r' => transpose_row r' y es'
                     | None => None
                     end
  end.
Fixpoint transpose_rows (r : list tree) (y : N) (m : list tree) : option (list tree) :=
  match m with
  | [] => Some r
  | t :: m' => match transpose_row r y (ascending t) with
               | Some r' => transpose_rows r' (N.succ y) m'
               | None => None
               end
  end.
(** sparsePolynomial.go:213-230 *)
Definition transpose_sparse (m : list tree) (witness : nat) : option (list tree) :=
  transpose_rows (repeat Leaf witness) 0%N m.

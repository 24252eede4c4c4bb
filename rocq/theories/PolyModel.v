(** Model of utils/polynomialField.go: dense polynomials as coefficient lists,
    lowest degree first.  [None] is a Go panic. *)
Require Import ZArith Bool List.
Require Import Verif.FqModel.
Import ListNotations.
Open Scope Z_scope.

(** polynomialField.go:24-31 *)
Definition zeros (n : nat) : list Z := repeat 0 n.

(** polynomialField.go:44-51 *)
Definition is_zero_array (a : list Z) : bool := forallb (fun x => x =? 0) a.

(** polynomialField.go:32-42 *)
Fixpoint big_arrays_equal (a b : list Z) : bool :=
  match a, b with
  | [], [] => true
  | x :: a', y :: b' => (x =? y) && big_arrays_equal a' b'
  | _, _ => false
  end.

(** The loop [for i := 0; i < len(b); i++ { r[i] = op(r[i], b[i]) }] that Add, Sub and
    MulSimple are made of (r is always at least as long as b). *)
Fixpoint ploop (op : Z -> Z -> Z) (r b : list Z) : list Z :=
  match b, r with
  | [], _ => r
  | y :: b', x :: r' => op x y :: ploop op r' b'
  | _ :: _, [] => []
  end.

(** r[pos] = l *)
Fixpoint set_nth (pos : nat) (l : Z) (r : list Z) : list Z :=
  match r, pos with
  | [], _ => []
  | _ :: r', O => l :: r'
  | x :: r', S p => x :: set_nth p l r'
  end.

(** rem[len(rem)-1], 0 when empty (the callers check the length first). *)
Definition top (l : list Z) : Z := last l 0.

Section Poly.
(** Modulus of the underlying field [pf.F.Q]. *)
Variable q : Z.

(** polynomialField.go:119-128 *)
Definition padd (a b : list Z) : list Z :=
  ploop (fadd q) (ploop (fadd q) (zeros (Nat.max (length a) (length b))) a) b.
(** polynomialField.go:131-140 *)
Definition psub (a b : list Z) : list Z :=
  ploop (fsub q) (ploop (fadd q) (zeros (Nat.max (length a) (length b))) a) b.
(** polynomialField.go:83-92 *)
Definition pmul_simple (a b : list Z) : list Z :=
  ploop (fmul q) (ploop (fadd q) (zeros (Nat.max (length a) (length b))) a) b.

(** Inner loop of Mul (polynomialField.go:69-77) for one coefficient [ai]; [r] is the
    slice of the result starting at index i. *)
Fixpoint addrow (ai : Z) (b r : list Z) : list Z :=
  match b, r with
  | [], _ => r
  | y :: b', x :: r' =>
      (if (ai =? 0) || (y =? 0) then x else fadd q x (fmul q ai y)) :: addrow ai b' r'
  | _ :: _, [] => []
  end.
(** Outer loop of Mul: rows i+1, i+2, ... never touch index i again, so the loop moves on to
    the tail. *)
Fixpoint mulrows (a b r : list Z) : list Z :=
  match a with
  | [] => r
  | ai :: a' => match addrow ai b r with
                | [] => []
                | x :: r' => x :: mulrows a' b r'
                end
  end.
(** polynomialField.go:66-80.  Two empty slices make the Go code panic (negative length);
    [pmul_checked] has that panic, [pmul] is the computation otherwise. *)
Definition pmul (a b : list Z) : list Z :=
  mulrows a b (zeros (length a + length b - 1)).
Definition pmul_checked (a b : list Z) : option (list Z) :=
  match a, b with [], [] => None | _, _ => Some (pmul a b) end.

(** Loop of Div, polynomialField.go:99-107; the fuel [length rem] suffices when b is not
    empty because each round drops one coefficient ([None] for an empty b is the panic
    of b[len(b)-1]; the same panic is hit before fuel runs out). *)
Fixpoint pdiv_loop (fuel : nat) (b r rem : list Z) : option (list Z * list Z) :=
  if Nat.leb (length b) (length rem) then
    match fuel with
    | O => None
    | S f =>
      match b, rem with
      | [], _ | _, [] => None
      | _, _ =>
        match fdiv q (top rem) (top b) with
        | None => None
        | Some l =>
          let pos := (length rem - length b)%nat in
          pdiv_loop f b (set_nth pos l r)
            (removelast (psub rem (pmul b (zeros pos ++ [l]))))
        end
      end
    end
  else Some (r, rem).
(** polynomialField.go:95-109 *)
Definition pdiv (a b : list Z) : option (list Z * list Z) :=
  if Nat.leb (length b) (length a + 1)
  then pdiv_loop (length a) b (zeros (length a + 1 - length b)) a
  else None.

(** polynomialField.go:246-252 *)
Definition pmul_scalar (p : list Z) (w : Z) : list Z := map (fun c => fmul q w c) p.

(** polynomialField.go:253-260; [None] when w is longer than the list of polynomials.
    (Mul([w_i], p_i) never has two empty operands.) *)
Fixpoint plinear_combine (ps : list (list Z)) (w : list Z) : option (list (list Z)) :=
  match w, ps with
  | [], _ => Some []
  | _ :: _, [] => None
  | c :: w', p :: ps' =>
      match plinear_combine ps' w' with
      | Some r => Some (pmul [c] p :: r)
      | None => None
      end
  end.

(** polynomialField.go:261-267 *)
Definition padd_polynomials (ps : list (list Z)) : list Z := fold_left padd ps [].

(** polynomialField.go:181-192: loop i = 1 .. len-1 from [0;1]. *)
Definition domain_poly (n : nat) : list Z :=
  fold_left (fun d i => pmul d [fneg q (Z.of_nat i); 1]) (seq 1 (n - 1)) [0; 1].

(** The factor (k-0)..(k-(k-1)) * (k-(k+1))..(k-(n-1)), polynomialField.go:156-166 and
    206-213 (and sparsePolynomial.go:142-149). *)
Definition lag_fac (k n : nat) : Z :=
  fold_left (fun acc i => fmul q acc (Z.of_nat k - Z.of_nat i)) (seq (S k) (n - S k))
    (fold_left (fun acc i => fmul q acc (Z.of_nat k - Z.of_nat i)) (seq 0 k) 1).

(** Product of (x - i) for i <> k, i < n, starting from the constant c,
    polynomialField.go:170-176 and 216-221. *)
Definition lag_prod (k n : nat) (c : Z) : list Z :=
  fold_left (fun r i => if Nat.eqb i k then r else pmul r [- Z.of_nat i; 1]) (seq 0 n) [c].

(** polynomialField.go:154-178 *)
Definition new_pol_zero_at (k n : nat) (height : Z) : option (list Z) :=
  match fdiv q height (lag_fac k n) with
  | Some hf => Some (lag_prod k n hf)
  | None => None
  end.

(** The map [basesClassic], finiteField.go:40: most recent binding first. *)
Definition cache := list ((nat * nat) * list Z).
Fixpoint cache_get (c : cache) (k n : nat) : option (list Z) :=
  match c with
  | [] => None
  | ((k', n'), v) :: c' => if Nat.eqb k k' && Nat.eqb n n' then Some v else cache_get c' k n
  end.

(** The computation of a basis polynomial on a cache miss, polynomialField.go:205-223. *)
Definition lag_base_fresh (k n : nat) : option (list Z) :=
  match finv q (lag_fac k n) with
  | Some hf => Some (pmul_scalar (lag_prod k n 1) hf)
  | None => None
  end.
(** polynomialField.go:200-224 *)
Definition lag_base (c : cache) (k n : nat) : option (list Z * cache) :=
  match cache_get c k n with
  | Some v => Some (v, c)
  | None => match lag_base_fresh k n with
            | Some r => Some (r, ((k, n), r) :: c)
            | None => None
            end
  end.
(** Loop of polynomialField.go:235-241 over the data points from index i. *)
Fixpoint lag_loop (c : cache) (n i : nat) (data polynom : list Z) : option (list Z * cache) :=
  match data with
  | [] => Some (polynom, c)
  | v :: data' =>
      if v =? 0 then lag_loop c n (S i) data' polynom
      else match lag_base c i n with
           | None => None
           | Some (b, c') => lag_loop c' n (S i) data' (padd polynom (pmul_scalar b v))
           end
  end.
(** polynomialField.go:197-244 *)
Definition lagrange (c : cache) (data : list Z) : option (list Z * cache) :=
  lag_loop c (length data) 0 data (zeros (length data)).
End Poly.

(** polynomialField.go:10-21.  Entries that are never assigned stay nil ([None] entries);
    a row longer than the first, or no row at all, panics.  Simplified: the double loop of
    assignments r[x][y] = matrix[y][x] is given by its result. *)
Definition transpose (m : list (list Z)) : option (list (list (option Z))) :=
  match m with
  | [] => None
  | row0 :: _ =>
      if forallb (fun row => Nat.leb (length row) (length row0)) m
      then Some (map (fun x => map (fun row => nth_error row x) m) (seq 0 (length row0)))
      else None
  end.

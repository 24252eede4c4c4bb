(** Independent specifications for field elements and coefficient lists. *)
Require Import ZArith List.
Require Import Verif.Cong.
Import ListNotations.
Open Scope Z_scope.

(** Sum of a list of integers. *)
Fixpoint zsum (l : list Z) : Z :=
  match l with [] => 0 | x :: t => x + zsum t end.

(** Product of a list of integers. *)
Fixpoint zprod (l : list Z) : Z :=
  match l with [] => 1 | x :: t => x * zprod t end.

(** Value of the polynomial with coefficient list [v] at [x], over the integers:
    sum of v_i * x^i. *)
Definition poly_at (v : list Z) (x : Z) : Z :=
  zsum (map (fun i => nth i v 0 * x ^ Z.of_nat i) (seq 0 (length v))).

(** i-th coefficient (0 beyond the end). *)
Definition coef (v : list Z) (i : nat) : Z := nth i v 0.

(** Inner product of two vectors. *)
Definition dot (l r : list Z) : Z :=
  zsum (map (fun i => nth i l 0 * nth i r 0) (seq 0 (length l))).

(** All entries are canonical representatives. *)
Definition reduced (q : Z) (l : list Z) : Prop := Forall (fun x => 0 <= x < q) l.

(** k-th coefficient of the product of two polynomials (convolution). *)
Definition conv (a b : list Z) (k : nat) : Z :=
  zsum (map (fun i => coef a i * coef b (k - i)) (seq 0 (S k))).

(** Same polynomial modulo q: all coefficients congruent. *)
Definition peq (q : Z) (a b : list Z) : Prop := forall k, coef a k ==[q] coef b k.

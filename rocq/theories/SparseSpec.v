(** Specification of polynomials as coefficient functions. *)
Require Import ZArith NArith List.
Require Import Verif.Cong Verif.FqSpec.
Import ListNotations.
Open Scope Z_scope.

(** k-th coefficient of the product of two coefficient functions. *)
Definition fconv (f g : nat -> Z) (k : nat) : Z :=
  zsum (map (fun i => f i * g (k - i)%nat) (seq 0 (S k))).

(** Value at x of the polynomial with coefficients f 0 .. f (n-1). *)
Definition fval (f : nat -> Z) (n : nat) (x : Z) : Z :=
  zsum (map (fun i => f i * x ^ Z.of_nat i) (seq 0 n)).

(** All coefficients from n on are zero. *)
Definition below (f : nat -> Z) (n : nat) : Prop := forall k, (n <= k)%nat -> f k = 0.

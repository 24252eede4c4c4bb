(** The fields of the pairing, built with the extensions of Ext.v. *)
Require Import ZArith NArith Verif.Cong Verif.Ext Verif.FqModel Verif.TowerModel.
Open Scope Z_scope.

(** Z/p, Z/p[i]/(i^2+1), Fp2[tau]/(tau^3-xi) with xi = i+9, Fp6[omega]/(omega^2-tau). *)
Definition FP : cring := zmod P.
Definition FP2 : cring := quad FP (-1).
Definition xi : FP2 := (1, 9).
Definition FP6 : cring := cubic FP2 xi.
Definition tau : FP6 := croot FP2 xi.
Definition FP12 : cring := quad FP6 tau.

(** Every element is zero or has an inverse. *)
Definition is_field (R : cring) : Prop :=
  ~ (c1 : R) =! c0 /\ forall a : R, a =! c0 \/ exists b, a *! b =! c1.

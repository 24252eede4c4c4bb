(** What factor lists and gates mean, independently of the compiler. *)
Require Import ZArith Bool String List.
Require Import Verif.Cong Verif.FactorModel.
Import ListNotations.
Open Scope Z_scope.

(** An assignment gives every wire (by name) an integer. *)
Definition assignment := string -> Z.
(** A number stands for itself, anything else for coefficient times wire. *)
Definition fac_val (w : assignment) (f : factor) : Z :=
  match ttyp (ftok f) with TNumber => mult f | _ => mult f * w (ident (ftok f)) end.
Fixpoint lin (w : assignment) (f : factors) : Z :=
  match f with [] => 0 | x :: f' => fac_val w x + lin w f' end.

(** The equation a gate stands for; [gx k] is the X coordinate of k times the generator. *)
Definition gate_holds (q : Z) (gx : Z -> Z) (w : assignment) (g : gate) : Prop :=
  match gtyp g with
  | GMul => lin w (gleft g) * lin w (gright g) ==[q] lin w (gout g)
  | GAdd => lin w (gleft g) ==[q] lin w (gout g)
  | GEqual => lin w (gleft g) ==[q] lin w (gright g)
  | GBase => gx (lin w (gexp g) mod q) ==[q] w (gid g)
  | GBit => w (gid g) * (w (gid g) - 1) ==[q] 0
  | GSum => lin w (gleft g) ==[q] w (ident (grep g))
  | GReturnMul => False
  end.
Definition all_hold (q : Z) (gx : Z -> Z) (w : assignment) (gs : list gate) : Prop :=
  Forall (gate_holds q gx w) gs.

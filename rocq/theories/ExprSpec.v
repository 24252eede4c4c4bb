(** Meaning of expressions, as a relation between an expression and its value mod q. *)
Require Import ZArith Bool Ascii String List.
Require Import Verif.Cong Verif.FqModel Verif.FactorModel Verif.FactorSpec Verif.ExprModel.
Import ListNotations.
Open Scope Z_scope.

(** A quotient is any v with v * divisor = dividend. *)
Inductive means (q : Z) (gx : Z -> Z) (w : assignment) : expr -> Z -> Prop :=
| means_num : forall s z v, set_string10 s = Some z -> v ==[q] z -> means q gx w (ENum s) v
| means_var : forall x v, v ==[q] w x -> means q gx w (EVar x) v
| means_add : forall l r a b v, means q gx w l a -> means q gx w r b -> v ==[q] a + b -> means q gx w (EBin "+" l r) v
| means_sub : forall l r a b v, means q gx w l a -> means q gx w r b -> v ==[q] a - b -> means q gx w (EBin "-" l r) v
| means_mul : forall l r a b v, means q gx w l a -> means q gx w r b -> v ==[q] a * b -> means q gx w (EBin "*" l r) v
| means_div : forall l r a b v, means q gx w l a -> means q gx w r b -> v * b ==[q] a -> means q gx w (EBin "/" l r) v
| means_base : forall e a v, means q gx w e a -> v ==[q] gx (a mod q) -> means q gx w (EBase e) v.

(** No divisor in the expression is zero. *)
Fixpoint divisors_ok (q : Z) (gx : Z -> Z) (w : assignment) (e : expr) : Prop :=
  match e with
  | EBin op l r => divisors_ok q gx w l /\ divisors_ok q gx w r /\
                   (op = "/"%string -> ~ means q gx w r 0)
  | EBase e1 => divisors_ok q gx w e1
  | _ => True
  end.

(** Variables of an expression. *)
Fixpoint vars (e : expr) : list string :=
  match e with
  | ENum _ => []
  | EVar x => [x]
  | EBin _ l r => vars l ++ vars r
  | EBase e1 => vars e1
  end.

(** Two submitted gates that may share one identifier: the same kind and the same operands, the
    two multiplied sides in either order. *)
Definition same_gate (g1 g2 : gate) : Prop :=
  gtyp g1 = gtyp g2 /\ gexp g1 = gexp g2 /\ gout g1 = gout g2 /\
  (gleft g1 = gleft g2 /\ gright g1 = gright g2 \/ gleft g1 = gright g2 /\ gright g1 = gleft g2).
Definition no_collision (tr : list gate) : Prop :=
  forall g1 g2, In g1 tr -> In g2 tr -> gid g1 = gid g2 -> same_gate g1 g2.

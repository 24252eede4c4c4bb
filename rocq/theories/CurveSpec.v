(** Curves y^2 = x^3 + b over a field, the chord and tangent law, and what it means for Jacobian
    coordinates to represent a point. *)
Require Import ZArith Verif.Ext.

Section Curve.
Variable R : cring.
Variable b : R.
(** [None] is the point at infinity. *)
Definition apoint : Type := option (R * R).
Definition on_curve (p : apoint) : Prop :=
  match p with None => True | Some (x, y) => y *! y =! x *! x *! x +! b end.
Definition apoint_eq (p r : apoint) : Prop :=
  match p, r with
  | None, None => True
  | Some (x, y), Some (x', y') => x =! x' /\ y =! y'
  | _, _ => False
  end.
Definition opposite (p : apoint) : apoint := match p with None => None | Some (x, y) => Some (x, -! y) end.
(** s is the slope of the line through the two points, the tangent if they are equal. *)
Definition slope (s x1 y1 x2 y2 : R) : Prop :=
  (~ x1 =! x2 /\ s *! (x2 -! x1) =! y2 -! y1) \/
  (x1 =! x2 /\ y1 =! y2 /\ ~ y1 =! -! y2 /\ s *! (y1 +! y1) =! (c1 +! c1 +! c1) *! (x1 *! x1)).
(** The line meets the curve in a third point; the sum is its mirror image. *)
Definition ct_sum (p r s : apoint) : Prop :=
  match p, r with
  | None, _ => apoint_eq s r
  | _, None => apoint_eq s p
  | Some (x1, y1), Some (x2, y2) =>
      (x1 =! x2 /\ y1 =! -! y2 /\ s = None) \/
      exists m x3 y3, slope m x1 y1 x2 y2 /\ s = Some (x3, y3) /\
        x3 =! m *! m -! x1 -! x2 /\ y3 =! m *! (x1 -! x3) -! y1
  end.
(** (X, Y, Z) stands for (X/Z^2, Y/Z^3), and for infinity when Z is 0. *)
Definition represents (X Y Z : R) (p : apoint) : Prop :=
  match p with
  | None => Z =! c0
  | Some (x, y) => ~ Z =! c0 /\ X =! x *! (Z *! Z) /\ Y =! y *! (Z *! Z *! Z)
  end.
(** s = p + ... + p, n times. *)
Inductive multiple (p : apoint) : nat -> apoint -> Prop :=
| multiple_0 : multiple p 0 None
| multiple_S n s t : multiple p n s -> ct_sum s p t -> multiple p (S n) t.
End Curve.
Arguments on_curve {R}. Arguments apoint_eq {R}. Arguments opposite {R}. Arguments slope {R}. Arguments ct_sum {R}.
Arguments represents {R}. Arguments multiple {R}. Arguments multiple_0 {R}. Arguments multiple_S {R}.

(** ** Encodings as byte strings: fixed width, most significant byte first. *)
Require Import List.
Import ListNotations.
Open Scope Z_scope.
Definition is_byte (b : Z) : Prop := 0 <= b < 256.
Fixpoint be_value (l : list Z) : Z := match l with [] => 0 | b :: l => b * 256 ^ Z.of_nat (length l) + be_value l end.
(** m is made of one 32 byte field for each number of xs, and the number in it is the residue of x
    modulo q in 0 .. q-1. *)
Fixpoint encodes (q : Z) (m : list Z) (xs : list Z) : Prop :=
  match xs with
  | [] => m = []
  | x :: xs => exists f m', m = f ++ m' /\ length f = 32%nat /\ Forall is_byte f /\ be_value f = x mod q /\ encodes q m' xs
  end.

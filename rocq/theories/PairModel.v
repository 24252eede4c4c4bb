(** Model of the Miller loop of pairing/optate.go and of Pair and PairingCheck in pairing/bn256.go.
    Conventions as in CurveModel.v; scratch objects are always written before they are read. *)
Require Import ZArith Bool List.
Require Import Verif.FqModel Verif.TowerModel Verif.CurveModel.
Import ListNotations.
Open Scope Z_scope.

(** optate.go:7-83: the coefficients a, b, c of the line and the new point. *)
Definition line_add (r p : tpoint) (q : cpoint) (r2 : gfp2) : gfp2 * gfp2 * gfp2 * tpoint :=
  let B := g2_mul (tx p) (tt r) in
  let D := g2_add (ty p) (tz r) in
  let D := g2_square D in
  let D := g2_sub D r2 in
  let D := g2_sub D (tt r) in
  let D := g2_mul D (tt r) in
  let H := g2_sub B (tx r) in
  let I := g2_square H in
  let E := g2_add I I in
  let E := g2_add E E in
  let J := g2_mul H E in
  let L1 := g2_sub D (ty r) in
  let L1 := g2_sub L1 (ty r) in
  let V := g2_mul (tx r) E in
  let x := g2_square L1 in
  let x := g2_sub x J in
  let x := g2_sub x V in
  let x := g2_sub x V in
  let z := g2_add (tz r) H in
  let z := g2_square z in
  let z := g2_sub z (tt r) in
  let z := g2_sub z I in
  let t := g2_sub V x in
  let t := g2_mul t L1 in
  let t2 := g2_mul (ty r) J in
  let t2 := g2_add t2 t2 in
  let y := g2_sub t t2 in
  let tt' := g2_square z in
  let t := g2_add (ty p) z in
  let t := g2_square t in
  let t := g2_sub t r2 in
  let t := g2_sub t tt' in
  let t2 := g2_mul L1 (tx p) in
  let t2 := g2_add t2 t2 in
  let a := g2_sub t2 t in
  let c := g2_mul_scalar z (cy q) in
  let c := g2_add c c in
  let b := g2_sub g2_zero L1 in
  let b := g2_mul_scalar b (cx q) in
  let b := g2_add b b in
  (a, b, c, TP x y z tt').
(** optate.go:85-152 *)
Definition line_double (r : tpoint) (q : cpoint) : gfp2 * gfp2 * gfp2 * tpoint :=
  let A := g2_square (tx r) in
  let B := g2_square (ty r) in
  let C := g2_square B in
  let D := g2_add (tx r) B in
  let D := g2_square D in
  let D := g2_sub D A in
  let D := g2_sub D C in
  let D := g2_add D D in
  let E := g2_add A A in
  let E := g2_add E A in
  let G := g2_square E in
  let x := g2_sub G D in
  let x := g2_sub x D in
  let z := g2_add (ty r) (tz r) in
  let z := g2_square z in
  let z := g2_sub z B in
  let z := g2_sub z (tt r) in
  let y := g2_sub D x in
  let y := g2_mul y E in
  let t := g2_add C C in
  let t := g2_add t t in
  let t := g2_add t t in
  let y := g2_sub y t in
  let tt' := g2_square z in
  let t := g2_mul E (tt r) in
  let t := g2_add t t in
  let b := g2_sub g2_zero t in
  let b := g2_mul_scalar b (cx q) in
  let a := g2_add (tx r) E in
  let a := g2_square a in
  let a := g2_sub a A in
  let a := g2_sub a G in
  let t := g2_add B B in
  let t := g2_add t t in
  let a := g2_sub a t in
  let c := g2_mul z (tt r) in
  let c := g2_add c c in
  let c := g2_mul_scalar c (cy q) in
  (a, b, c, TP x y z tt').
(** optate.go:154-182 *)
Definition mul_line (ret : gfp12) (a b c : gfp2) : gfp12 :=
  let a2 : gfp6 := (g2_zero, a, b) in
  let a2 := g6_mul a2 (fst ret) in
  let t3 := g6_mul_scalar (snd ret) c in
  let t := g2_add b c in
  let t2 : gfp6 := (g2_zero, a, t) in
  let x := g6_add (fst ret) (snd ret) in
  let y := t3 in
  let x := g6_mul x t2 in
  let x := g6_sub x a2 in
  let x := g6_sub x y in
  let a2 := g6_mul_tau a2 in
  let y := g6_add y a2 in
  (x, y).
(** optate.go:184-188 *)
Definition sixuPlus2NAF : list Z :=
  [0; 0; 0; 1; 0; 1; 0; -1; 0; 0; 1; -1; 0; 0; 1; 0;
   0; 1; 1; 0; -1; 0; 0; 1; 0; -1; 0; 0; 0; 0; 1; 1;
   1; 0; 0; -1; 0; 0; 1; 0; 0; 0; 0; 0; -1; 0; 0; 1;
   1; 0; 0; -1; 0; 0; 0; 1; 1; 0; -1; 0; 0; 1; 0; 1; 1].
(** One round of the loop of optate.go:213-242 with digit [d]; [first] says i is the first index. *)
Definition miller_round (aA minusA : tpoint) (bA : cpoint) (r2 : gfp2) (first : bool) (st : gfp12 * tpoint) (d : Z) : gfp12 * tpoint :=
  let (ret, r) := st in
  let '(a, b, c, newR) := line_double r bA in
  let ret := if first then ret else g12_square ret in
  let ret := mul_line ret a b c in
  let r := newR in
  if d =? 1 then let '(a, b, c, newR) := line_add r aA bA r2 in (mul_line ret a b c, newR)
  else if d =? -1 then let '(a, b, c, newR) := line_add r minusA bA r2 in (mul_line ret a b c, newR)
  else (ret, r).
(** optate.go:258-264 and 272-276 *)
Definition frob_q1 (aA : tpoint) : tpoint :=
  TP (g2_mul (g2_conj (tx aA)) xiToPMinus1Over3) (g2_mul (g2_conj (ty aA)) xiToPMinus1Over2) g2_one g2_one.
Definition minus_q2 (aA : tpoint) : tpoint :=
  TP (g2_mul_scalar (tx aA) xiToPSquaredMinus1Over3) (ty aA) g2_one g2_one.
(** optate.go:204-303 with the affine points and the digits after the leading one, highest first. *)
Definition miller_loop (aA : tpoint) (bA : cpoint) (digits : list Z) : gfp12 :=
  let minusA := t_negative aA in
  let r2 := g2_square (ty aA) in
  let st := match digits with
            | [] => (g12_one, aA)
            | d :: ds => fold_left (miller_round aA minusA bA r2 false) ds (miller_round aA minusA bA r2 true (g12_one, aA) d)
            end in
  let (ret, r) := st in
  let q1 := frob_q1 aA in
  let minusQ2 := minus_q2 aA in
  let '(a, b, c, r) := line_add r q1 bA (g2_square (ty q1)) in
  let ret := mul_line ret a b c in
  let '(a, b, c, r) := line_add r minusQ2 bA (g2_square (ty minusQ2)) in
  mul_line ret a b c.
(** optate.go:190-303; [s1] and [s2] are what the two calls of MakeAffine find in scratch integers. *)
Definition miller (s1 s2 : Z) (q : tpoint) (p : cpoint) : gfp12 :=
  miller_loop (t_make_affine s1 q) (c_make_affine s2 p) (tl (rev sixuPlus2NAF)).
(** optate.go:388-397; [s3] is the scratch integer of the inversion in finalExponentiation. *)
Definition optimal_ate (s1 s2 s3 : Z) (a : tpoint) (b : cpoint) : gfp12 :=
  let ret := final_exponentiation s3 (miller s1 s2 a b) in
  if t_is_infinity a || c_is_infinity b then g12_one else ret.
(** bn256.go:430-433 *)
Definition pair (s1 s2 s3 : Z) (g1 : cpoint) (g2 : tpoint) : gfp12 := optimal_ate s1 s2 s3 g2 g1.
(** bn256.go:435-453: [None] is the panic when b is shorter than a. *)
Fixpoint pairing_check_loop (s1 s2 : Z) (acc : gfp12) (a : list cpoint) (b : list tpoint) : option gfp12 :=
  match a, b with
  | [], _ => Some acc
  | _ :: _, [] => None
  | p :: a, q :: b =>
      if c_is_infinity p || t_is_infinity q then pairing_check_loop s1 s2 acc a b
      else pairing_check_loop s1 s2 (g12_mul acc (miller s1 s2 q p)) a b
  end.
Definition pairing_check (s1 s2 s3 : Z) (a : list cpoint) (b : list tpoint) : option bool :=
  match pairing_check_loop s1 s2 g12_one a b with
  | None => None
  | Some acc => Some (g12_is_one (final_exponentiation s3 acc))
  end.

(** The group GT (bn256.go:321-345, 415-428): written additively, computed multiplicatively. The receiver is
    a fresh object; [st] is the scratch integer of the inversion. *)
Definition gt_scalar_mult (a : gfp12) (k : Z) : gfp12 := g12_exp a k.
Definition gt_add (a b : gfp12) : gfp12 := g12_mul a b.
Definition gt_neg (st : Z) (a : gfp12) : gfp12 := g12_invert st a.
Definition zero_gt : gfp12 := g12_zero.
Definition one_gt : gfp12 := g12_one.

(** Model of pairing/gfp2.go, gfp6.go, gfp12.go and of the constants in pairing/constants.go.
    A [*big.Int] is a [Z]; reductions happen exactly where the code calls Mod.
    Simplified: methods are functions from the arguments to the new value of the receiver.  Every
    method modelled here computes into fresh or pooled temporaries and reads each argument
    coordinate before the receiver coordinate it could share is written, so the result does not
    depend on whether receiver and arguments coincide.  The pool (bn256.go:454-487) only hands out
    storage; the one value read before it is written is the [inv] of gfP2.Invert, here [st]. *)
Require Import ZArith Bool List.
Require Import Verif.FqModel.
Import ListNotations.
Open Scope Z_scope.

(** constants.go:17 *)
Definition bn_u : Z := 4965661367192848881.

(** gfp2.go:17-19: x i + y, as (x, y). *)
Definition gfp2 : Type := Z * Z.
(** gfp2.go:48-52, 42-46 *)
Definition g2_one : gfp2 := (0, 1).
Definition g2_zero : gfp2 := (0, 0).
(** gfp2.go:54-61 *)
Definition zmin (a : Z) : Z := if (a <? 0) || (P <=? a) then a mod P else a.
Definition g2_minimal (a : gfp2) : gfp2 := (zmin (fst a), zmin (snd a)).
(** gfp2.go:63-65 *)
Definition g2_is_zero (a : gfp2) : bool := (fst a =? 0) && (snd a =? 0).
(** gfp2.go:67-73: the words of y are those of |y|. *)
Definition g2_is_one (a : gfp2) : bool := (fst a =? 0) && (Z.abs (snd a) =? 1).
(** gfp2.go:75-79 *)
Definition g2_conj (a : gfp2) : gfp2 := (- fst a, snd a).
(** gfp2.go:81-85 *)
Definition g2_neg (a : gfp2) : gfp2 := (- fst a, - snd a).
(** gfp2.go:87-91 *)
Definition g2_add (a b : gfp2) : gfp2 := (fst a + fst b, snd a + snd b).
(** gfp2.go:93-97 *)
Definition g2_sub (a b : gfp2) : gfp2 := (fst a - fst b, snd a - snd b).
(** gfp2.go:99-103 *)
Definition g2_double (a : gfp2) : gfp2 := (Z.shiftl (fst a) 1, Z.shiftl (snd a) 1).
(** gfp2.go:129-146 *)
Definition g2_mul (a b : gfp2) : gfp2 :=
  let tx := (fst a * snd b + fst b * snd a) mod P in
  let ty := snd a * snd b - fst a * fst b in
  (tx, ty mod P).
(** gfp2.go:148-152 *)
Definition g2_mul_scalar (a : gfp2) (b : Z) : gfp2 := (fst a * b, snd a * b).
(** gfp2.go:155-172 *)
Definition g2_mul_xi (a : gfp2) : gfp2 :=
  (Z.shiftl (fst a) 3 + fst a + snd a, Z.shiftl (snd a) 3 + snd a - fst a).
(** gfp2.go:174-193 *)
Definition g2_square (a : gfp2) : gfp2 :=
  let t1 := snd a - fst a in
  let t2 := fst a + snd a in
  let ty := (t1 * t2) mod P in
  (Z.shiftl (fst a * snd a) 1 mod P, ty).
(** gfp2.go:195-219; ModInverse leaves the pooled [st] when there is no inverse. *)
Definition g2_invert (st : Z) (a : gfp2) : gfp2 :=
  let t := snd a * snd a + fst a * fst a in
  let inv := match mod_inverse t P with Some i => i | None => st end in
  ((- fst a * inv) mod P, (snd a * inv) mod P).

(** The square-and-multiply loops: [for i := k.BitLen()-1; i >= 0; i--], [k.Bit(i)] being the
    i-th bit of the two's complement of k. *)
Definition bits_down (k : Z) (n : nat) : list bool := map (fun i => Z.testbit k (Z.of_nat i)) (rev (seq 0 n)).
(** gfp2.go:105-125 *)
Definition g2_exp (a : gfp2) (k : Z) : gfp2 :=
  fold_left (fun sum b => let t := g2_square sum in if b : bool then g2_mul t a else t)
    (bits_down k (Z.to_nat (bitlen k))) g2_one.

(** constants.go:26,29,32,35,38,41,44 *)
Definition xiToPMinus1Over6 : gfp2 := (16469823323077808223889137241176536799009286646108169935659301613961712198316, 8376118865763821496583973867626364092589906065868298776909617916018768340080).
Definition xiToPMinus1Over3 : gfp2 := (10307601595873709700152284273816112264069230130616436755625194854815875713954, 21575463638280843010398324269430826099269044274347216827212613867836435027261).
Definition xiToPMinus1Over2 : gfp2 := (3505843767911556378687030309984248845540243509899259641013678093033130930403, 2821565182194536844548159561693502659359617185244120367078079554186484126554).
Definition xiToPSquaredMinus1Over3 : Z := 21888242871839275220042445260109153167277707414472061641714758635765020556616.
Definition xiTo2PSquaredMinus2Over3 : Z := 2203960485148121921418603742825762020974279258880205651966.
Definition xiToPSquaredMinus1Over6 : Z := 21888242871839275220042445260109153167277707414472061641714758635765020556617.
Definition xiTo2PMinus2Over3 : gfp2 := (19937756971775647987995932169929341994314640652964949448313374472400716661030, 2581911344467009335267311115468803099551665605076196740867805258568234346338).

(** gfp6.go:17-19: x tau^2 + y tau + z, as (x, y, z). *)
Definition gfp6 : Type := gfp2 * gfp2 * gfp2.
Definition g6x (a : gfp6) : gfp2 := fst (fst a).
Definition g6y (a : gfp6) : gfp2 := snd (fst a).
Definition g6z (a : gfp6) : gfp2 := snd a.
(** gfp6.go:42-54 *)
Definition g6_zero : gfp6 := (g2_zero, g2_zero, g2_zero).
Definition g6_one : gfp6 := (g2_zero, g2_zero, g2_one).
(** gfp6.go:56-60 *)
Definition g6_minimal (a : gfp6) : gfp6 := (g2_minimal (g6x a), g2_minimal (g6y a), g2_minimal (g6z a)).
(** gfp6.go:62-68 *)
Definition g6_is_zero (a : gfp6) : bool := g2_is_zero (g6x a) && g2_is_zero (g6y a) && g2_is_zero (g6z a).
Definition g6_is_one (a : gfp6) : bool := g2_is_zero (g6x a) && g2_is_zero (g6y a) && g2_is_one (g6z a).
(** gfp6.go:70-75 *)
Definition g6_neg (a : gfp6) : gfp6 := (g2_neg (g6x a), g2_neg (g6y a), g2_neg (g6z a)).
(** gfp6.go:77-85 *)
Definition g6_frobenius (a : gfp6) : gfp6 :=
  (g2_mul (g2_conj (g6x a)) xiTo2PMinus2Over3, g2_mul (g2_conj (g6y a)) xiToPMinus1Over3, g2_conj (g6z a)).
(** gfp6.go:88-95 *)
Definition g6_frobenius2 (a : gfp6) : gfp6 :=
  (g2_mul_scalar (g6x a) xiTo2PSquaredMinus2Over3, g2_mul_scalar (g6y a) xiToPSquaredMinus1Over3, g6z a).
(** gfp6.go:97-116 *)
Definition g6_add (a b : gfp6) : gfp6 := (g2_add (g6x a) (g6x b), g2_add (g6y a) (g6y b), g2_add (g6z a) (g6z b)).
Definition g6_sub (a b : gfp6) : gfp6 := (g2_sub (g6x a) (g6x b), g2_sub (g6y a) (g6y b), g2_sub (g6z a) (g6z b)).
Definition g6_double (a : gfp6) : gfp6 := (g2_double (g6x a), g2_double (g6y a), g2_double (g6z a)).
(** gfp6.go:118-172 *)
Definition g6_mul (a b : gfp6) : gfp6 :=
  let v0 := g2_mul (g6z a) (g6z b) in
  let v1 := g2_mul (g6y a) (g6y b) in
  let v2 := g2_mul (g6x a) (g6x b) in
  let t0 := g2_add (g6x a) (g6y a) in
  let t1 := g2_add (g6x b) (g6y b) in
  let tz := g2_mul t0 t1 in
  let tz := g2_sub tz v1 in
  let tz := g2_sub tz v2 in
  let tz := g2_mul_xi tz in
  let tz := g2_add tz v0 in
  let t0 := g2_add (g6y a) (g6z a) in
  let t1 := g2_add (g6y b) (g6z b) in
  let ty := g2_mul t0 t1 in
  let ty := g2_sub ty v0 in
  let ty := g2_sub ty v1 in
  let t0 := g2_mul_xi v2 in
  let ty := g2_add ty t0 in
  let t0 := g2_add (g6x a) (g6z a) in
  let t1 := g2_add (g6x b) (g6z b) in
  let tx := g2_mul t0 t1 in
  let tx := g2_sub tx v0 in
  let tx := g2_add tx v1 in
  let tx := g2_sub tx v2 in
  (tx, ty, tz).
(** gfp6.go:174-179 *)
Definition g6_mul_scalar (a : gfp6) (b : gfp2) : gfp6 := (g2_mul (g6x a) b, g2_mul (g6y a) b, g2_mul (g6z a) b).
(** gfp6.go:181-186 *)
Definition g6_mul_gfp (a : gfp6) (b : Z) : gfp6 := (g2_mul_scalar (g6x a) b, g2_mul_scalar (g6y a) b, g2_mul_scalar (g6z a) b).
(** gfp6.go:189-199 *)
Definition g6_mul_tau (a : gfp6) : gfp6 := (g6y a, g6z a, g2_mul_xi (g6x a)).
(** gfp6.go:201-239 *)
Definition g6_square (a : gfp6) : gfp6 :=
  let v0 := g2_square (g6z a) in
  let v1 := g2_square (g6y a) in
  let v2 := g2_square (g6x a) in
  let c0 := g2_add (g6x a) (g6y a) in
  let c0 := g2_square c0 in
  let c0 := g2_sub c0 v1 in
  let c0 := g2_sub c0 v2 in
  let c0 := g2_mul_xi c0 in
  let c0 := g2_add c0 v0 in
  let c1 := g2_add (g6y a) (g6z a) in
  let c1 := g2_square c1 in
  let c1 := g2_sub c1 v0 in
  let c1 := g2_sub c1 v1 in
  let xiV2 := g2_mul_xi v2 in
  let c1 := g2_add c1 xiV2 in
  let c2 := g2_add (g6x a) (g6z a) in
  let c2 := g2_square c2 in
  let c2 := g2_sub c2 v0 in
  let c2 := g2_add c2 v1 in
  let c2 := g2_sub c2 v2 in
  (c2, c1, c0).
(** gfp6.go:241-296 *)
Definition g6_invert (st : Z) (a : gfp6) : gfp6 :=
  let A := g2_square (g6z a) in
  let t1 := g2_mul (g6x a) (g6y a) in
  let t1 := g2_mul_xi t1 in
  let A := g2_sub A t1 in
  let B := g2_square (g6x a) in
  let B := g2_mul_xi B in
  let t1 := g2_mul (g6y a) (g6z a) in
  let B := g2_sub B t1 in
  let C := g2_square (g6y a) in
  let t1 := g2_mul (g6x a) (g6z a) in
  let C := g2_sub C t1 in
  let F := g2_mul C (g6y a) in
  let F := g2_mul_xi F in
  let t1 := g2_mul A (g6z a) in
  let F := g2_add F t1 in
  let t1 := g2_mul B (g6x a) in
  let t1 := g2_mul_xi t1 in
  let F := g2_add F t1 in
  let F := g2_invert st F in
  (g2_mul C F, g2_mul B F, g2_mul A F).

(** gfp12.go:17-19: x omega + y, as (x, y). *)
Definition gfp12 : Type := gfp6 * gfp6.
(** gfp12.go:40-50 *)
Definition g12_zero : gfp12 := (g6_zero, g6_zero).
Definition g12_one : gfp12 := (g6_zero, g6_one).
(** gfp12.go:52-55 *)
Definition g12_minimal (a : gfp12) : gfp12 := (g6_minimal (fst a), g6_minimal (snd a)).
(** gfp12.go:57-65: the element is made minimal first. *)
Definition g12_is_zero (a : gfp12) : bool := let e := g12_minimal a in g6_is_zero (fst e) && g6_is_zero (snd e).
Definition g12_is_one (a : gfp12) : bool := let e := g12_minimal a in g6_is_zero (fst e) && g6_is_one (snd e).
(** gfp12.go:67-71: the receiver's new value; the method returns its argument. *)
Definition g12_conj (a : gfp12) : gfp12 := (g6_neg (fst a), snd a).
(** gfp12.go:73-77 *)
Definition g12_neg (a : gfp12) : gfp12 := (g6_neg (fst a), g6_neg (snd a)).
(** gfp12.go:80-85 *)
Definition g12_frobenius (a : gfp12) : gfp12 :=
  (g6_mul_scalar (g6_frobenius (fst a)) xiToPMinus1Over6, g6_frobenius (snd a)).
(** gfp12.go:88-93 *)
Definition g12_frobenius2 (a : gfp12) : gfp12 :=
  (g6_mul_gfp (g6_frobenius2 (fst a)) xiToPSquaredMinus1Over6, g6_frobenius2 (snd a)).
(** gfp12.go:95-105 *)
Definition g12_add (a b : gfp12) : gfp12 := (g6_add (fst a) (fst b), g6_add (snd a) (snd b)).
Definition g12_sub (a b : gfp12) : gfp12 := (g6_sub (fst a) (fst b), g6_sub (snd a) (snd b)).
(** gfp12.go:107-125 *)
Definition g12_mul (a b : gfp12) : gfp12 :=
  let tx := g6_mul (fst a) (snd b) in
  let t := g6_mul (fst b) (snd a) in
  let tx := g6_add tx t in
  let ty := g6_mul (snd a) (snd b) in
  let t := g6_mul (fst a) (fst b) in
  let t := g6_mul_tau t in
  (tx, g6_add ty t).
(** gfp12.go:127-131: multiplies the receiver [e], not the argument [a]. *)
Definition g12_mul_scalar (e a : gfp12) (b : gfp6) : gfp12 := (g6_mul (fst e) b, g6_mul (snd e) b).
(** gfp12.go:155-178 *)
Definition g12_square (a : gfp12) : gfp12 :=
  let v0 := g6_mul (fst a) (snd a) in
  let t := g6_mul_tau (fst a) in
  let t := g6_add (snd a) t in
  let ty := g6_add (fst a) (snd a) in
  let ty := g6_mul ty t in
  let ty := g6_sub ty v0 in
  let t := g6_mul_tau v0 in
  let ty := g6_sub ty t in
  (g6_double v0, ty).
(** gfp12.go:133-153 *)
Definition g12_exp (a : gfp12) (k : Z) : gfp12 :=
  fold_left (fun sum b => let t := g12_square sum in if b : bool then g12_mul t a else t)
    (bits_down k (Z.to_nat (bitlen k))) g12_one.
(** gfp12.go:180-200 *)
Definition g12_invert (st : Z) (a : gfp12) : gfp12 :=
  let t1 := g6_square (fst a) in
  let t2 := g6_square (snd a) in
  let t1 := g6_mul_tau t1 in
  let t1 := g6_sub t2 t1 in
  let t2 := g6_invert st t1 in
  let e := (g6_neg (fst a), snd a) in
  g12_mul_scalar e e t2.

(** optate.go:308-386; s1 is the pooled value that Invert may leave. *)
Definition final_exponentiation (s1 : Z) (a : gfp12) : gfp12 :=
  let t1 := (g6_neg (fst a), snd a) in
  let inv := g12_invert s1 a in
  let t1 := g12_mul t1 inv in
  let t2 := g12_frobenius2 t1 in
  let t1 := g12_mul t1 t2 in
  let fp := g12_frobenius t1 in
  let fp2 := g12_frobenius2 t1 in
  let fp3 := g12_frobenius fp2 in
  let fu := g12_exp t1 bn_u in
  let fu2 := g12_exp fu bn_u in
  let fu3 := g12_exp fu2 bn_u in
  let y3 := g12_frobenius fu in
  let fu2p := g12_frobenius fu2 in
  let fu3p := g12_frobenius fu3 in
  let y2 := g12_frobenius2 fu2 in
  let y0 := g12_mul fp fp2 in
  let y0 := g12_mul y0 fp3 in
  let y1 := g12_conj t1 in
  let y5 := g12_conj fu2 in
  let y3 := g12_conj y3 in
  let y4 := g12_mul fu fu2p in
  let y4 := g12_conj y4 in
  let y6 := g12_mul fu3 fu3p in
  let y6 := g12_conj y6 in
  let t0 := g12_square y6 in
  let t0 := g12_mul t0 y4 in
  let t0 := g12_mul t0 y5 in
  let t1 := g12_mul y3 y5 in
  let t1 := g12_mul t1 t0 in
  let t0 := g12_mul t0 y2 in
  let t1 := g12_square t1 in
  let t1 := g12_mul t1 t0 in
  let t1 := g12_square t1 in
  let t0 := g12_mul t1 y1 in
  let t1 := g12_mul t1 y0 in
  let t0 := g12_square t0 in
  g12_mul t0 t1.

(** The operations of the tower compute the ring operations. *)
Require Import ZArith NArith Znumtheory Setoid Morphisms Ring Ring_theory Bool Lia List.
Require Import Verif.Cong Verif.Ext Verif.FqModel Verif.FqProofs Verif.Pocklington Verif.TowerModel Verif.TowerSpec.
Import ListNotations.
Open Scope Z_scope.
Opaque P.

Lemma P_pos : 0 < P. Proof. reflexivity. Qed.

(** gfP2 *)
Ltac coords2 := cbn [car FP2 quad ceq cmul cadd csub copp c0 c1 FP zmod]; unfold quad_eq, quad_mul, quad_add, quad_sub, quad_opp; cbn [fst snd car FP zmod ceq cmul cadd csub copp c0 c1].
Lemma g2_add_ok (a b : FP2) : g2_add a b =[FP2]= a +! b. Proof. reflexivity. Qed.
Lemma g2_sub_ok (a b : FP2) : g2_sub a b =[FP2]= a -! b. Proof. reflexivity. Qed.
Lemma g2_neg_ok (a : FP2) : g2_neg a =[FP2]= -! a. Proof. reflexivity. Qed.
Lemma g2_double_ok (a : FP2) : g2_double a =[FP2]= a +! a.
Proof. unfold g2_double. rewrite !Z.shiftl_mul_pow2 by lia. coords2. split; apply cong_eq; ring. Qed.
Lemma g2_mul_ok (a b : FP2) : g2_mul a b =[FP2]= a *! b.
Proof. unfold g2_mul. coords2. split; rewrite cong_mod; apply cong_eq; ring. Qed.
Lemma g2_square_ok (a : FP2) : g2_square a =[FP2]= a *! a.
Proof. unfold g2_square. rewrite Z.shiftl_mul_pow2 by lia. coords2. split; rewrite cong_mod; apply cong_eq; ring. Qed.
Lemma g2_mul_xi_ok (a : FP2) : g2_mul_xi a =[FP2]= xi *! a.
Proof. unfold g2_mul_xi. rewrite !Z.shiftl_mul_pow2 by lia. coords2. unfold xi. cbn [fst snd]. split; apply cong_eq; ring. Qed.
Lemma g2_mul_scalar_ok (a : FP2) (b : Z) : g2_mul_scalar a b =[FP2]= a *! qemb FP (-1) b.
Proof. unfold g2_mul_scalar, qemb. coords2. split; apply cong_eq; ring. Qed.
Lemma zmin_ok a : zmin a ==[P] a.
Proof. unfold zmin. destruct (_ || _)%bool; [apply cong_mod|reflexivity]. Qed.
Lemma zmin_range a : 0 <= zmin a < P.
Proof.
  unfold zmin. destruct (Z.ltb_spec a 0), (Z.leb_spec P a); cbn [orb]; try (apply Z.mod_pos_bound; reflexivity). lia.
Qed.
Lemma g2_minimal_ok (a : FP2) : g2_minimal a =[FP2]= a.
Proof. unfold g2_minimal. split; apply zmin_ok. Qed.

#[export] Instance g2_add_m : Proper (@ceq FP2 ==> @ceq FP2 ==> @ceq FP2) g2_add.
Proof. intros a b H a' b' H'. rewrite !g2_add_ok. now rewrite H, H'. Qed.
#[export] Instance g2_sub_m : Proper (@ceq FP2 ==> @ceq FP2 ==> @ceq FP2) g2_sub.
Proof. intros a b H a' b' H'. rewrite !g2_sub_ok. now rewrite H, H'. Qed.
#[export] Instance g2_mul_m : Proper (@ceq FP2 ==> @ceq FP2 ==> @ceq FP2) g2_mul.
Proof. intros a b H a' b' H'. rewrite !g2_mul_ok. now rewrite H, H'. Qed.
#[export] Instance g2_square_m : Proper (@ceq FP2 ==> @ceq FP2) g2_square.
Proof. intros a b H. rewrite !g2_square_ok. now rewrite H. Qed.
#[export] Instance g2_mul_xi_m : Proper (@ceq FP2 ==> @ceq FP2) g2_mul_xi.
Proof. intros a b H. rewrite !g2_mul_xi_ok. now rewrite H. Qed.

(** gfP6.  Abstract ring, so that [ring] works on atoms. *)
Section Cub.
Variable R : cring.
Add Ring Rr : (c_ring R) (setoid (c_equiv R) (c_ext R)).
Variable x : R.
Lemma karatsuba_z (a1 a2 a3 b1 b2 b3 : R) :
  x *! ((a1 +! a2) *! (b1 +! b2) -! a2 *! b2 -! a1 *! b1) +! a3 *! b3 =! a3 *! b3 +! x *! (a1 *! b2 +! a2 *! b1).
Proof. ring. Qed.
Lemma karatsuba_y (a1 a2 a3 b1 b2 b3 : R) :
  (a2 +! a3) *! (b2 +! b3) -! a3 *! b3 -! a2 *! b2 +! x *! (a1 *! b1) =! a2 *! b3 +! a3 *! b2 +! x *! (a1 *! b1).
Proof. ring. Qed.
Lemma karatsuba_x (a1 a2 a3 b1 b2 b3 : R) :
  (a1 +! a3) *! (b1 +! b3) -! a3 *! b3 +! a2 *! b2 -! a1 *! b1 =! a1 *! b3 +! a2 *! b2 +! a3 *! b1.
Proof. ring. Qed.
(** Norm of the cubic extension. *)
Definition cnorm (a : cubic R x) : R :=
  pr3 R a *! pr3 R a *! pr3 R a +! x *! (pr2 R a *! pr2 R a *! pr2 R a) +! x *! x *! (pr1 R a *! pr1 R a *! pr1 R a)
  -! (c1 +! c1 +! c1) *! (x *! (pr1 R a *! pr2 R a *! pr3 R a)).
Definition cadj (a : cubic R x) : cubic R x :=
  (pr2 R a *! pr2 R a -! pr1 R a *! pr3 R a, x *! (pr1 R a *! pr1 R a) -! pr2 R a *! pr3 R a, pr3 R a *! pr3 R a -! x *! (pr1 R a *! pr2 R a)).
Lemma cadj_ok a : a *! cadj a =! cemb R x (cnorm a).
Proof. unfold cadj, cnorm, cemb. cbn. unfold cub_eq, cub_mul, pr1, pr2, pr3; cbn. repeat split; ring. Qed.
Definition qnorm (c : R) (a : quad R c) : R := snd a *! snd a -! c *! (fst a *! fst a).
Lemma qnorm_ok c (a : quad R c) : a *! ((-! fst a, snd a) : quad R c) =! qemb R c (qnorm c a).
Proof. unfold qnorm, qemb. cbn. unfold quad_eq, quad_mul; cbn. split; ring. Qed.
Lemma quad_square c (a : quad R c) :
  ((fst a *! snd a +! fst a *! snd a, (fst a +! snd a) *! (snd a +! c *! fst a) -! fst a *! snd a -! c *! (fst a *! snd a)) : quad R c) =! a *! a.
Proof. cbn. unfold quad_eq, quad_mul; cbn. split; ring. Qed.
Lemma cmul_root (a : cubic R x) : ((pr2 R a, pr3 R a, x *! pr1 R a) : cubic R x) =! croot R x *! a.
Proof. cbn. unfold cub_eq, cub_mul, pr1, pr2, pr3; cbn. repeat split; ring. Qed.
Lemma cmul_emb (a : cubic R x) (b : R) : ((pr1 R a *! b, pr2 R a *! b, pr3 R a *! b) : cubic R x) =! a *! cemb R x b.
Proof. cbn. unfold cub_eq, cub_mul, pr1, pr2, pr3; cbn. repeat split; ring. Qed.
Lemma qmul_emb c (a : quad R c) (b : R) : ((fst a *! b, snd a *! b) : quad R c) =! a *! qemb R c b.
Proof. cbn. unfold quad_eq, quad_mul; cbn. repeat split; ring. Qed.
Lemma adj_comp (a : cubic R x) : x *! ((pr2 R a *! pr2 R a -! pr1 R a *! pr3 R a) *! pr2 R a) +! (pr3 R a *! pr3 R a -! x *! (pr1 R a *! pr2 R a)) *! pr3 R a
   +! x *! ((x *! (pr1 R a *! pr1 R a) -! pr2 R a *! pr3 R a) *! pr1 R a) =! cnorm a.
Proof. unfold cnorm. ring. Qed.
End Cub.

Lemma g6_add_ok (a b : FP6) : g6_add a b =[FP6]= a +! b. Proof. reflexivity. Qed.
Lemma g6_sub_ok (a b : FP6) : g6_sub a b =[FP6]= a -! b. Proof. reflexivity. Qed.
Lemma g6_neg_ok (a : FP6) : g6_neg a =[FP6]= -! a. Proof. reflexivity. Qed.
Lemma g6_double_ok (a : FP6) : g6_double a =[FP6]= a +! a.
Proof. split; [|split]; apply g2_double_ok. Qed.
Lemma g6_mul_ok (a b : FP6) : g6_mul a b =[FP6]= a *! b.
Proof.
  destruct a as [[a1 a2] a3], b as [[b1 b2] b3]. unfold g6_mul, g6x, g6y, g6z. cbn [fst snd]. cbv zeta.
  split; [|split]; cbn [pr1 pr2 pr3 fst snd cmul FP6 cubic]; unfold cub_mul; cbn [pr1 pr2 pr3 fst snd].
  - rewrite g2_sub_ok, g2_add_ok, g2_sub_ok, !g2_mul_ok, !g2_add_ok. apply (karatsuba_x FP2).
  - rewrite g2_add_ok, !g2_sub_ok, g2_mul_xi_ok, !g2_mul_ok, !g2_add_ok. apply (karatsuba_y FP2).
  - rewrite g2_add_ok, g2_mul_xi_ok, !g2_sub_ok, !g2_mul_ok, !g2_add_ok. apply (karatsuba_z FP2).
Qed.
Lemma g6_square_ok (a : FP6) : g6_square a =[FP6]= a *! a.
Proof.
  destruct a as [[a1 a2] a3]. unfold g6_square, g6x, g6y, g6z. cbn [fst snd]. cbv zeta.
  split; [|split]; cbn [pr1 pr2 pr3 fst snd cmul FP6 cubic]; unfold cub_mul; cbn [pr1 pr2 pr3 fst snd].
  - rewrite g2_sub_ok, g2_add_ok, g2_sub_ok, !g2_square_ok, !g2_add_ok. apply (karatsuba_x FP2).
  - rewrite g2_add_ok, !g2_sub_ok, g2_mul_xi_ok, !g2_square_ok, !g2_add_ok. apply (karatsuba_y FP2).
  - rewrite g2_add_ok, g2_mul_xi_ok, !g2_sub_ok, !g2_square_ok, !g2_add_ok. apply (karatsuba_z FP2).
Qed.
Lemma g6_mul_tau_ok (a : FP6) : g6_mul_tau a =[FP6]= tau *! a.
Proof.
  transitivity ((pr2 FP2 a, pr3 FP2 a, xi *! pr1 FP2 a) : FP6); [|apply (cmul_root FP2 xi)].
  split; [reflexivity|split; [reflexivity|]]. apply g2_mul_xi_ok.
Qed.
Lemma g6_mul_scalar_ok (a : FP6) (b : FP2) : g6_mul_scalar a b =[FP6]= a *! cemb FP2 xi b.
Proof. rewrite <- (cmul_emb FP2 xi). split; [|split]; apply g2_mul_ok. Qed.
Lemma g6_mul_gfp_ok (a : FP6) (b : Z) : g6_mul_gfp a b =[FP6]= a *! cemb FP2 xi (qemb FP (-1) b).
Proof. rewrite <- (cmul_emb FP2 xi). split; [|split]; apply g2_mul_scalar_ok. Qed.
Lemma g6_minimal_ok (a : FP6) : g6_minimal a =[FP6]= a.
Proof. split; [|split]; apply g2_minimal_ok. Qed.

Lemma g12_add_ok (a b : FP12) : g12_add a b =[FP12]= a +! b. Proof. reflexivity. Qed.
Lemma g12_sub_ok (a b : FP12) : g12_sub a b =[FP12]= a -! b. Proof. reflexivity. Qed.
Lemma g12_neg_ok (a : FP12) : g12_neg a =[FP12]= -! a. Proof. reflexivity. Qed.
Lemma g12_mul_ok (a b : FP12) : g12_mul a b =[FP12]= a *! b.
Proof.
  destruct a as [a1 a2], b as [b1 b2]. unfold g12_mul. cbv zeta. cbn [fst snd].
  split; cbn [fst snd cmul FP12 quad]; unfold quad_mul; cbn [fst snd].
  - rewrite g6_add_ok, !g6_mul_ok. apply cadd_morph; [reflexivity|]. apply (Rmul_comm (c_ring FP6)).
  - rewrite g6_add_ok, g6_mul_tau_ok, !g6_mul_ok. reflexivity.
Qed.
Lemma g12_square_ok (a : FP12) : g12_square a =[FP12]= a *! a.
Proof.
  etransitivity; [|apply (quad_square FP6 tau)]. unfold g12_square. cbv zeta. split; cbn [fst snd].
  - rewrite g6_double_ok, !g6_mul_ok. reflexivity.
  - rewrite !g6_sub_ok, (g6_mul_ok _ (g6_add _ _)), !g6_add_ok, !g6_mul_tau_ok, !g6_mul_ok. reflexivity.
Qed.
Lemma g12_minimal_ok (a : FP12) : g12_minimal a =[FP12]= a.
Proof. split; apply g6_minimal_ok. Qed.
Lemma g12_mul_scalar_ok (e : FP12) a (b : FP6) : g12_mul_scalar e a b =[FP12]= e *! qemb FP6 tau b.
Proof. etransitivity; [|apply (qmul_emb FP6 tau)]. split; apply g6_mul_ok. Qed.

(** Square and multiply. *)
Section ExpLoop.
Variable R : cring.
Add Ring Rr : (c_ring R) (setoid (c_equiv R) (c_ext R)).
Variables (sq : R -> R) (mu : R -> R -> R).
Hypothesis Hsq : forall a, sq a =! a *! a.
Hypothesis Hmu : forall a b, mu a b =! a *! b.
Lemma bits_down_S k n : bits_down k (S n) = Z.testbit k (Z.of_nat n) :: bits_down k n.
Proof. unfold bits_down. rewrite seq_S, rev_app_distr. reflexivity. Qed.
Lemma exp_loop_ok a k n e s : s =! cpow a e ->
  fold_left (fun sum b => let t := sq sum in if b : bool then mu t a else t) (bits_down k n) s
  =! cpow a (e * 2 ^ N.of_nat n + Z.to_N (k mod 2 ^ Z.of_nat n)).
Proof.
  revert e s. induction n as [|n IH]; intros e s Hs.
  - cbn [bits_down seq rev map fold_left]. change (2 ^ Z.of_nat 0) with 1. rewrite Z.mod_1_r. cbn [Z.to_N]. rewrite N.mul_1_r, N.add_0_r. exact Hs.
  - rewrite bits_down_S. cbn [fold_left]. cbv zeta.
    assert (M : k mod 2 ^ Z.of_nat (S n) = k mod 2 ^ Z.of_nat n + Z.b2z (Z.testbit k (Z.of_nat n)) * 2 ^ Z.of_nat n).
    { rewrite Nat2Z.inj_succ, Z.pow_succ_r by lia. rewrite (Z.mul_comm 2), Z.rem_mul_r by lia.
      rewrite Z.testbit_spec' by lia. ring. }
    assert (Hm := Z.mod_pos_bound k (2 ^ Z.of_nat n) ltac:(apply Z.pow_pos_nonneg; lia)).
    assert (Hp : 0 < 2 ^ Z.of_nat n) by (apply Z.pow_pos_nonneg; lia).
    assert (E2 : Z.to_N (2 ^ Z.of_nat n) = (2 ^ N.of_nat n)%N) by (rewrite Z2N.inj_pow by lia; now rewrite <- nat_N_Z, N2Z.id).
    destruct (Z.testbit k (Z.of_nat n)); cbn [Z.b2z] in M; rewrite M.
    + rewrite (IH (2 * e + 1)%N).
      * replace ((2 * e + 1) * 2 ^ N.of_nat n + Z.to_N (k mod 2 ^ Z.of_nat n))%N
          with (e * 2 ^ N.of_nat (S n) + Z.to_N (k mod 2 ^ Z.of_nat n + 1 * 2 ^ Z.of_nat n))%N; [reflexivity|].
        rewrite Z2N.inj_add by lia. rewrite Z.mul_1_l, E2, Nat2N.inj_succ, N.pow_succ_r'. lia.
      * rewrite Hmu, Hsq, Hs. rewrite <- (cpow_1 R a) at 3. rewrite <- !cpow_add. replace (2 * e + 1)%N with (e + e + 1)%N by lia. reflexivity.
    + rewrite (IH (2 * e)%N).
      * replace (2 * e * 2 ^ N.of_nat n + Z.to_N (k mod 2 ^ Z.of_nat n))%N
          with (e * 2 ^ N.of_nat (S n) + Z.to_N (k mod 2 ^ Z.of_nat n + 0 * 2 ^ Z.of_nat n))%N; [reflexivity|].
        rewrite Z.mul_0_l, Z.add_0_r, Nat2N.inj_succ, N.pow_succ_r'. lia.
      * rewrite Hsq, Hs, <- cpow_add. replace (2 * e)%N with (e + e)%N by lia. reflexivity.
Qed.
End ExpLoop.
Lemma bitlen_bound k : 0 <= k -> 0 <= k < 2 ^ bitlen k.
Proof.
  intros H. split; auto. unfold bitlen. destruct (Z.eqb_spec k 0) as [->|N0]; [reflexivity|].
  rewrite Z.abs_eq by lia. apply Z.log2_spec; lia.
Qed.
Lemma bitlen_nonneg k : 0 <= bitlen k.
Proof. unfold bitlen. destruct (k =? 0); [lia|]. assert (H := Z.log2_nonneg (Z.abs k)). lia. Qed.
Lemma g2_exp_ok (a : FP2) k : 0 <= k -> g2_exp a k =[FP2]= cpow a (Z.to_N k).
Proof.
  intros H. unfold g2_exp. rewrite (exp_loop_ok FP2 g2_square g2_mul g2_square_ok g2_mul_ok a k _ 0); [|reflexivity].
  rewrite Z2Nat.id by apply bitlen_nonneg. rewrite Z.mod_small by now apply bitlen_bound. reflexivity.
Qed.
Lemma g12_exp_ok (a : FP12) k : 0 <= k -> g12_exp a k =[FP12]= cpow a (Z.to_N k).
Proof.
  intros H. unfold g12_exp. rewrite (exp_loop_ok FP12 g12_square g12_mul g12_square_ok g12_mul_ok a k _ 0); [|reflexivity].
  rewrite Z2Nat.id by apply bitlen_nonneg. rewrite Z.mod_small by now apply bitlen_bound. reflexivity.
Qed.

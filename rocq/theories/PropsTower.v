(** C50, C62, C63: the extension fields, Frobenius, the final exponentiation. *)
Require Import ZArith NArith Znumtheory Setoid Bool List Lia.
Require Import Verif.Cong Verif.Ext Verif.FqModel Verif.FqProofs Verif.Pocklington Verif.TowerModel Verif.TowerSpec Verif.TowerProofs Verif.FieldProofs Verif.FrobProofs Verif.FrobProofs2 Verif.FinalProofs.
Import ListNotations.
Open Scope Z_scope.
Opaque P.

(** gfP2, for all integer representatives. *)
Theorem C50_gfp2 (a b : FP2) (s st k : Z) :
  g2_add a b =[FP2]= a +! b /\ g2_sub a b =[FP2]= a -! b /\ g2_neg a =[FP2]= -! a /\ g2_double a =[FP2]= a +! a /\
  g2_mul a b =[FP2]= a *! b /\ g2_square a =[FP2]= a *! a /\ g2_mul_xi a =[FP2]= xi *! a /\
  g2_mul_scalar a s =[FP2]= a *! qemb FP (-1) s /\
  (0 <= k -> g2_exp a k =[FP2]= cpow a (Z.to_N k)) /\
  (g2_minimal a =[FP2]= a /\ 0 <= fst (g2_minimal a) < P /\ 0 <= snd (g2_minimal a) < P) /\
  (~ a =[FP2]= c0 -> a *! (g2_invert st a : FP2) =! c1).
Proof.
  exact (conj (g2_add_ok a b) (conj (g2_sub_ok a b) (conj (g2_neg_ok a) (conj (g2_double_ok a) (conj (g2_mul_ok a b) (conj (g2_square_ok a) (conj (g2_mul_xi_ok a)
    (conj (g2_mul_scalar_ok a s) (conj (g2_exp_ok a k) (conj (conj (g2_minimal_ok a) (conj (zmin_range _) (zmin_range _))) (g2_invert_ok st a))))))))))).
Qed.
Print Assumptions C50_gfp2.
(** gfP6; the root tau with tau^3 = xi. *)
Theorem C50_gfp6 (a b : FP6) (c : FP2) (s st : Z) :
  g6_add a b =[FP6]= a +! b /\ g6_sub a b =[FP6]= a -! b /\ g6_neg a =[FP6]= -! a /\ g6_double a =[FP6]= a +! a /\
  g6_mul a b =[FP6]= a *! b /\ g6_square a =[FP6]= a *! a /\ g6_mul_tau a =[FP6]= tau *! a /\
  g6_mul_scalar a c =[FP6]= a *! cemb FP2 xi c /\ g6_mul_gfp a s =[FP6]= a *! cemb FP2 xi (qemb FP (-1) s) /\
  g6_minimal a =[FP6]= a /\
  (~ a =[FP6]= c0 -> a *! (g6_invert st a : FP6) =! c1) /\
  tau *! tau *! tau =[FP6]= cemb FP2 xi xi.
Proof.
  exact (conj (g6_add_ok a b) (conj (g6_sub_ok a b) (conj (g6_neg_ok a) (conj (g6_double_ok a) (conj (g6_mul_ok a b) (conj (g6_square_ok a) (conj (g6_mul_tau_ok a)
    (conj (g6_mul_scalar_ok a c) (conj (g6_mul_gfp_ok a s) (conj (g6_minimal_ok a) (conj (g6_invert_ok st a) (croot_cube FP2 xi)))))))))))).
Qed.
Print Assumptions C50_gfp6.
(** gfP12; the root omega with omega^2 = tau.  MulScalar multiplies its receiver. *)
Theorem C50_gfp12 (a b : FP12) (c : FP6) (st k : Z) :
  g12_add a b =[FP12]= a +! b /\ g12_sub a b =[FP12]= a -! b /\ g12_neg a =[FP12]= -! a /\
  g12_mul a b =[FP12]= a *! b /\ g12_square a =[FP12]= a *! a /\
  g12_mul_scalar a b c =[FP12]= a *! qemb FP6 tau c /\
  (0 <= k -> g12_exp a k =[FP12]= cpow a (Z.to_N k)) /\
  g12_minimal a =[FP12]= a /\
  (~ a =[FP12]= c0 -> a *! (g12_invert st a : FP12) =! c1) /\
  qroot FP6 tau *! qroot FP6 tau =[FP12]= qemb FP6 tau tau.
Proof.
  exact (conj (g12_add_ok a b) (conj (g12_sub_ok a b) (conj (g12_neg_ok a) (conj (g12_mul_ok a b) (conj (g12_square_ok a)
    (conj (g12_mul_scalar_ok a b c) (conj (g12_exp_ok a k) (conj (g12_minimal_ok a) (conj (g12_invert_ok st a) (qroot_sq FP6 tau)))))))))).
Qed.
Print Assumptions C50_gfp12.
(** The three extensions are fields: the defining polynomials have no root. *)
Theorem C50_fields : is_field FP /\ is_field FP2 /\ is_field FP6 /\ is_field FP12.
Proof. exact (conj FP_field (conj FP2_field (conj FP6_field FP12_field))). Qed.
Print Assumptions C50_fields.
(** IsZero and IsOne of gfP12 decide equality with 0 and 1. *)
Lemma zmin_0 a : zmin a = 0 <-> a ==[P] 0.
Proof.
  assert (R := zmin_range a). split; intros H.
  - rewrite <- (zmin_ok a), H. reflexivity.
  - rewrite <- (zmin_ok a) in H. apply cong_mod_iff in H; [|lia]. rewrite Z.mod_0_l, Z.mod_small in H by lia. exact H.
Qed.
Lemma zmin_1 a : Z.abs (zmin a) = 1 <-> a ==[P] 1.
Proof.
  assert (R := zmin_range a). assert (P1 := P_one). split; intros H.
  - rewrite <- (zmin_ok a). replace (zmin a) with 1 by lia. reflexivity.
  - rewrite <- (zmin_ok a) in H. apply cong_mod_iff in H; [|lia]. rewrite (Z.mod_small 1), Z.mod_small in H by lia. lia.
Qed.
Lemma g2_zero_dec (a : FP2) : g2_is_zero (g2_minimal a) = true <-> a =[FP2]= c0.
Proof.
  unfold g2_is_zero, g2_minimal. cbn [fst snd]. rewrite andb_true_iff, !Z.eqb_eq, !zmin_0. reflexivity.
Qed.
Lemma g2_one_dec (a : FP2) : g2_is_one (g2_minimal a) = true <-> a =[FP2]= c1.
Proof.
  unfold g2_is_one, g2_minimal. cbn [fst snd]. rewrite andb_true_iff, !Z.eqb_eq, zmin_0, zmin_1. reflexivity.
Qed.
Theorem C50_decide (a : FP12) :
  (g12_is_zero a = true <-> a =[FP12]= c0) /\ (g12_is_one a = true <-> a =[FP12]= c1).
Proof.
  destruct a as [[[x y] z] [[x' y'] z']]. unfold g12_is_zero, g12_is_one, g12_minimal, g6_is_zero, g6_is_one, g6_minimal, g6x, g6y, g6z. cbn [fst snd].
  rewrite !andb_true_iff, !g2_zero_dec, g2_one_dec.
  split; split.
  - intros [[[A B] C] [[D E] F]]. exact (conj (conj A (conj B C)) (conj D (conj E F))).
  - intros [(A & B & C) (D & E & F)]. exact (conj (conj (conj A B) C) (conj (conj D E) F)).
  - intros [[[A B] C] [[D E] F]]. exact (conj (conj A (conj B C)) (conj D (conj E F))).
  - intros [(A & B & C) (D & E & F)]. exact (conj (conj (conj A B) C) (conj (conj D E) F)).
Qed.
Print Assumptions C50_decide.
(** A product and an inverse of concrete elements with unreduced and negative coordinates. *)
Definition ex12 : gfp12 := (((1, 2), (3, -4), (5, 6)), ((-7, 8), (9, P + 10), (11, 12))).
Example C50_case : g12_is_one (g12_mul ex12 (g12_invert 5 ex12)) = true /\ g12_is_zero ex12 = false /\
  g2_mul (1, 2) (3, -4) = (2, P - 11).
Proof. vm_compute. split; [|split]; reflexivity. Qed.
(** Invert is not defined at zero: whatever the pool leaves, the result is zero. *)
Theorem C50_invert_zero st (a : FP2) : a =[FP2]= c0 -> g2_invert st a =[FP2]= c0.
Proof.
  destruct a as [x y]. intros [H1 H2]. cbn in H1, H2. unfold g2_invert. cbn [fst snd].
  generalize (match mod_inverse (y * y + x * x) P with Some i => i | None => st end). intros w. split.
  - change ((- x * w) mod P ==[P] 0). rewrite cong_mod, H1. reflexivity.
  - change ((y * w) mod P ==[P] 0). rewrite cong_mod, H2. reflexivity.
Qed.
Print Assumptions C50_invert_zero.

(** C62: Frobenius, FrobeniusP2 and Conjugate are the powers p, p^2 and p^6. *)
Theorem C62_frobenius2 (a : FP2) : g2_conj a =[FP2]= cpow a (Z.to_N P).
Proof. rewrite <- pN_def. symmetry. apply frobenius2. Qed.
Print Assumptions C62_frobenius2.
Theorem C62_frobenius6 (a : FP6) : g6_frobenius a =[FP6]= cpow a (Z.to_N P).
Proof. rewrite <- pN_def. symmetry. apply frobenius6. Qed.
Print Assumptions C62_frobenius6.
Theorem C62_frobenius12 (a : FP12) :
  g12_frobenius a =[FP12]= cpow a (Z.to_N P) /\ g12_frobenius2 a =[FP12]= cpow a (Z.to_N P ^ 2) /\
  g12_conj a =[FP12]= cpow a (Z.to_N P ^ 6) /\ a =[FP12]= cpow a (Z.to_N P ^ 12).
Proof.
  rewrite <- pN_def.
  exact (conj (symmetry (frobenius12 a)) (conj (symmetry (frobenius12_2 a)) (conj (symmetry (frobenius12_6 a)) (symmetry (frobenius12_12 a))))).
Qed.
Print Assumptions C62_frobenius12.
Example C62_case : g12_minimal (g12_frobenius2 ex12) = g12_minimal (g12_frobenius (g12_frobenius ex12)) /\
  g12_minimal (g12_frobenius ex12) <> g12_minimal ex12.
Proof. split; [vm_compute; reflexivity|]. intros H. assert (H' := f_equal (fun x => fst (fst (fst (fst x)))) H). vm_compute in H'. discriminate. Qed.

(** C63: finalExponentiation is the power (p^12 - 1) / Order, for every element and every state of
    the pool. *)
Theorem C63_final_exponentiation s1 (a : FP12) :
  final_exponentiation s1 a =[FP12]= cpow a ((Z.to_N P ^ 12 - 1) / Z.to_N Order).
Proof. rewrite <- pN_def. apply final_exponentiation_ok. Qed.
Print Assumptions C63_final_exponentiation.
(** So its values are Order-th roots of unity, and it is multiplicative. *)
Theorem C63_order s1 (a : FP12) : ~ a =[FP12]= c0 -> cpow (final_exponentiation s1 a : FP12) (Z.to_N Order) =[FP12]= c1.
Proof. apply final_order. Qed.
Print Assumptions C63_order.
Theorem C63_multiplicative s1 s2 s3 (a b : FP12) :
  final_exponentiation s1 (g12_mul a b) =[FP12]= (final_exponentiation s2 a : FP12) *! final_exponentiation s3 b.
Proof. apply final_mul. Qed.
Print Assumptions C63_multiplicative.
Example C63_case : ~ (ex12 : FP12) =[FP12]= c0.
Proof. intros H. apply (proj1 (C50_decide ex12)) in H. vm_compute in H. discriminate. Qed.

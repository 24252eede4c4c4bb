(** Frobenius maps, the fields of the tower, inversion and the final exponentiation. *)
Require Import ZArith NArith Znumtheory Setoid Morphisms Ring Ring_theory Bool Lia List.
Require Import Verif.Cong Verif.Ext Verif.FqModel Verif.FqProofs Verif.Pocklington Verif.TowerModel Verif.TowerSpec Verif.TowerProofs Verif.FieldProofs.
Import ListNotations.
Open Scope Z_scope.

Lemma P_mod6 : P = 6 * ((P - 1) / 6) + 1. Proof. vm_compute. reflexivity. Qed.
Lemma P_mod4 : P = 2 * (2 * ((P - 3) / 4) + 1) + 1. Proof. vm_compute. reflexivity. Qed.
(** p and (p-1)/6 as sealed constants: conversion must not unfold powers of this size. *)
Lemma sealed : { pk : N * N | fst pk = Z.to_N P /\ snd pk = Z.to_N ((P - 1) / 6) }.
Proof. now exists (Z.to_N P, Z.to_N ((P - 1) / 6)). Qed.
Definition pN : N := fst (proj1_sig sealed).
Definition k6 : N := snd (proj1_sig sealed).
Lemma pN_def : pN = Z.to_N P. Proof. exact (proj1 (proj2_sig sealed)). Qed.
Lemma k6_def : k6 = Z.to_N ((P - 1) / 6). Proof. exact (proj2 (proj2_sig sealed)). Qed.
Lemma pN_6 : pN = (6 * k6 + 1)%N. Proof. rewrite pN_def, k6_def. vm_compute. reflexivity. Qed.
Lemma pN_3 : pN = (1 + 3 * (2 * k6))%N. Proof. rewrite pN_6. lia. Qed.
Lemma pN_2 : pN = (1 + 2 * (3 * k6))%N. Proof. rewrite pN_6. lia. Qed.
Lemma pN_odd : exists j, (3 * k6 = 2 * j + 1)%N.
Proof. exists (Z.to_N ((P - 3) / 4)). rewrite k6_def. vm_compute. reflexivity. Qed.
Lemma xi_k6_exp : g2_minimal (g2_exp (1, 9) ((P - 1) / 6)) = xiToPMinus1Over6.
Proof. vm_compute. reflexivity. Qed.
Lemma P_k6 : 0 <= (P - 1) / 6. Proof. vm_compute. discriminate. Qed.
Lemma xi_k6 : cpow xi k6 =[FP2]= xiToPMinus1Over6.
Proof. rewrite k6_def, <- xi_k6_exp, g2_minimal_ok. symmetry. apply g2_exp_ok, P_k6. Qed.
Lemma pN_Z : Z.of_N pN = P. Proof. rewrite pN_def. vm_compute. reflexivity. Qed.
Lemma pN_nat : N.of_nat (Z.to_nat P) = pN. Proof. rewrite pN_def. apply Z_nat_N. Qed.
Lemma P_nat : Z.of_nat (Z.to_nat P) = P. Proof. apply Z2Nat.id. vm_compute. discriminate. Qed.

(** The constants of constants.go against powers of the first. *)
Definition eq2b (a b : gfp2) : bool := ((fst a - fst b) mod P =? 0) && ((snd a - snd b) mod P =? 0).
Lemma eq2b_ok (a b : FP2) : eq2b a b = true -> a =! b.
Proof.
  unfold eq2b. intros H. apply andb_prop in H. destruct H as [A B]. apply Z.eqb_eq in A, B.
  split; apply cong_sub_0; apply cong_0_iff; apply Z.mod_divide; auto; vm_compute; discriminate.
Qed.
Lemma const3 : xiToPMinus1Over3 =[FP2]= g2_mul xiToPMinus1Over6 xiToPMinus1Over6.
Proof. apply eq2b_ok. vm_compute. reflexivity. Qed.
Lemma const2 : xiToPMinus1Over2 =[FP2]= g2_mul xiToPMinus1Over3 xiToPMinus1Over6.
Proof. apply eq2b_ok. vm_compute. reflexivity. Qed.
Lemma const23 : xiTo2PMinus2Over3 =[FP2]= g2_mul xiToPMinus1Over3 xiToPMinus1Over3.
Proof. apply eq2b_ok. vm_compute. reflexivity. Qed.
Lemma constP6 : qemb FP (-1) xiToPSquaredMinus1Over6 =[FP2]= g2_mul xiToPMinus1Over6 (g2_conj xiToPMinus1Over6).
Proof. apply eq2b_ok. vm_compute. reflexivity. Qed.
Lemma constP3 : qemb FP (-1) xiToPSquaredMinus1Over3 =[FP2]= g2_mul xiToPMinus1Over3 (g2_conj xiToPMinus1Over3).
Proof. apply eq2b_ok. vm_compute. reflexivity. Qed.
Lemma constP23 : qemb FP (-1) xiTo2PSquaredMinus2Over3 =[FP2]= g2_mul xiTo2PMinus2Over3 (g2_conj xiTo2PMinus2Over3).
Proof. apply eq2b_ok. vm_compute. reflexivity. Qed.
Lemma cube6 : xiToPSquaredMinus1Over6 * xiToPSquaredMinus1Over6 * xiToPSquaredMinus1Over6 ==[P] -1.
Proof. apply cong_sub_0, cong_0_iff, Z.mod_divide; vm_compute; [discriminate|reflexivity]. Qed.
Lemma sq6 : xiToPSquaredMinus1Over3 ==[P] xiToPSquaredMinus1Over6 * xiToPSquaredMinus1Over6.
Proof. apply cong_sub_0, cong_0_iff, Z.mod_divide; vm_compute; [discriminate|reflexivity]. Qed.
Lemma sq3 : xiTo2PSquaredMinus2Over3 ==[P] xiToPSquaredMinus1Over3 * xiToPSquaredMinus1Over3.
Proof. apply cong_sub_0, cong_0_iff, Z.mod_divide; vm_compute; [discriminate|reflexivity]. Qed.
Lemma not_one3 : ~ xiToPSquaredMinus1Over3 ==[P] 1.
Proof. intros H. apply cong_mod_iff in H; vm_compute in H; discriminate. Qed.
Lemma minus_one : ~ -1 ==[P] 1.
Proof. intros H. apply cong_mod_iff in H; vm_compute in H; discriminate. Qed.
Opaque P xiToPMinus1Over6 xiToPMinus1Over3 xiToPMinus1Over2 xiTo2PMinus2Over3 xiToPSquaredMinus1Over6 xiToPSquaredMinus1Over3 xiTo2PSquaredMinus2Over3.


(** The base field. *)
Lemma FP_field : is_field FP.
Proof.
  split; [apply (cong_1_0 P prime_P)|]. intros a. destruct (cong_dec P a 0) as [H|H]; [left; exact H|right].
  apply (cong_unit P prime_P a H).
Qed.
Lemma FP_pow (a : Z) n : cpow (a : FP) n =[FP]= a ^ Z.of_N n.
Proof.
  induction n as [|n IH] using N.peano_ind; [reflexivity|]. rewrite cpow_succ, IH. cbn. rewrite N2Z.inj_succ, Z.pow_succ_r by apply N2Z.is_nonneg. reflexivity.
Qed.
Lemma P_one : 1 < P. Proof. destruct prime_P. assumption. Qed.
Lemma FP_fermat (a : Z) : cpow (a : FP) pN =[FP]= a.
Proof.
  assert (HP := P_one). rewrite FP_pow, pN_Z. cbn [ceq FP zmod].
  destruct (cong_dec P a 0) as [H|H].
  - rewrite (cong_pow P _ _ P H), Z.pow_0_l by lia. now symmetry.
  - replace P with (Z.succ (P - 1)) at 2 by lia. rewrite Z.pow_succ_r by lia. rewrite (fermat P a prime_P H). apply cong_eq; ring.
Qed.
Lemma FP_char : times (Z.to_nat P) (c1 : FP) =! c0.
Proof.
  assert (E : forall n, times n (c1 : FP) = Z.of_nat n).
  { induction n as [|n IH]; [reflexivity|]. rewrite Nat2Z.inj_succ. cbn [times]. rewrite IH. change (1 + Z.of_nat n = Z.succ (Z.of_nat n)). lia. }
  rewrite E, P_nat. cbn. apply cong_0_iff. apply Z.divide_refl.
Qed.

(** Raising to the p-th power is additive in each of the rings. *)
Lemma frob_add (R : cring) (a b : R) : times (Z.to_nat P) (c1 : R) =! c0 -> cpow (a +! b) pN =! cpow a pN +! cpow b pN.
Proof.
  intros H. assert (F := freshman R a b (Z.to_nat P)). unfold pn in F. rewrite pN_nat in F. apply F; auto. rewrite P_nat. exact prime_P.
Qed.
Lemma FP2_char : times (Z.to_nat P) (c1 : FP2) =! c0.
Proof. etransitivity; [apply qemb_times|]. etransitivity; [apply qemb_eq, FP_char|]. reflexivity. Qed.
Lemma FP6_char : times (Z.to_nat P) (c1 : FP6) =! c0.
Proof. etransitivity; [apply cemb_times|]. etransitivity; [apply cemb_eq, FP2_char|]. reflexivity. Qed.
Lemma FP12_char : times (Z.to_nat P) (c1 : FP12) =! c0.
Proof. etransitivity; [apply qemb_times|]. etransitivity; [apply qemb_eq, FP6_char|]. reflexivity. Qed.

Lemma e2_pow (a : FP) n : cpow (qemb FP (-1) a : FP2) n =! qemb FP (-1) (cpow a n).
Proof. symmetry. apply qemb_pow. Qed.
Lemma e6_pow (a : FP2) n : cpow (cemb FP2 xi a : FP6) n =! cemb FP2 xi (cpow a n).
Proof. symmetry. apply cemb_pow. Qed.
Lemma e12_pow (a : FP6) n : cpow (qemb FP6 tau a : FP12) n =! qemb FP6 tau (cpow a n).
Proof. symmetry. apply qemb_pow. Qed.
Lemma e2_mul (a b : FP) : qemb FP (-1) (a *! b) =[FP2]= qemb FP (-1) a *! qemb FP (-1) b.
Proof. apply qemb_mul. Qed.
Lemma e6_mul (a b : FP2) : cemb FP2 xi (a *! b) =[FP6]= cemb FP2 xi a *! cemb FP2 xi b.
Proof. apply cemb_mul. Qed.
Lemma e12_mul (a b : FP6) : qemb FP6 tau (a *! b) =[FP12]= qemb FP6 tau a *! qemb FP6 tau b.
Proof. apply qemb_mul. Qed.
#[export] Instance e2_m : Proper (@ceq FP ==> @ceq FP2) (qemb FP (-1)).
Proof. intros a b H. now apply qemb_eq. Qed.
#[export] Instance e6_m : Proper (@ceq FP2 ==> @ceq FP6) (cemb FP2 xi).
Proof. intros a b H. now apply cemb_eq. Qed.
#[export] Instance e12_m : Proper (@ceq FP6 ==> @ceq FP12) (qemb FP6 tau).
Proof. intros a b H. now apply qemb_eq. Qed.

(** Fp2: the p-th power is the conjugate. *)
Lemma i_pow : cpow (qroot FP (-1)) pN =[FP2]= -! qroot FP (-1).
Proof.
  destruct pN_odd as [j J]. rewrite pN_2, J, cpow_add, cpow_1, cpow_mul.
  assert (E2 : cpow (qroot FP (-1)) 2 =[FP2]= qemb FP (-1) (-1)) by (etransitivity; [apply cpow_2|apply qroot_sq]).
  rewrite E2. assert (E : cpow (qemb FP (-1) (-1)) (2 * j + 1) =[FP2]= qemb FP (-1) (-1)).
  { rewrite e2_pow, cpow_add, cpow_1, cpow_mul, cpow_2.
    change ((-1 : FP) *! (-1)) with 1. change (1 : FP) with (c1 : FP). rewrite cpow_one. split; apply cong_eq; reflexivity. }
  rewrite E. split; apply cong_eq; reflexivity.
Qed.
Section Alg.
Variable R : cring.
Add Ring Rr : (c_ring R) (setoid (c_equiv R) (c_ext R)).
Lemma alg6 (A B C T X : R) : A *! (T *! X *! (T *! X)) +! B *! (T *! X) +! C =! A *! (X *! X) *! (T *! T) +! B *! X *! T +! C.
Proof. ring. Qed.
Lemma alg12 (A B T X : R) : A *! X *! T +! B =! A *! (T *! X) +! B.
Proof. ring. Qed.
End Alg.
Lemma frobenius2 (a : FP2) : cpow a pN =[FP2]= g2_conj a.
Proof.
  transitivity (cpow (qemb FP (-1) (fst a) *! qroot FP (-1) +! qemb FP (-1) (snd a) : FP2) pN).
  { apply cpow_morph; auto. apply (quad_split FP (-1)). }
  rewrite (frob_add FP2) by apply FP2_char. rewrite cpow_distr. rewrite (e2_pow (fst a)), (e2_pow (snd a)), i_pow.
  rewrite (FP_fermat (fst a)), (FP_fermat (snd a)). unfold g2_conj. destruct a as [x y]. split; apply cong_eq; cbn; ring.
Qed.
#[export] Instance g2_conj_m : Proper (@ceq FP2 ==> @ceq FP2) g2_conj.
Proof. intros a b [H1 H2]. split; cbn; auto. now rewrite H1. Qed.
Lemma g2_conj_mul (a b : FP2) : g2_conj (a *! b) =[FP2]= (g2_conj a : FP2) *! g2_conj b.
Proof. destruct a, b. unfold g2_conj. coords2. split; apply cong_eq; ring. Qed.
Lemma g2_conj_conj (a : FP2) : g2_conj (g2_conj a) =[FP2]= a.
Proof. destruct a as [x y]. unfold g2_conj. coords2. split; apply cong_eq; [apply Z.opp_involutive|reflexivity]. Qed.
Lemma FP2_field : is_field FP2.
Proof.
  apply (quad_field FP FP_field). intros t H.
  assert (E : cpow (t : FP) pN =! t *! (-1 : FP)).
  { destruct pN_odd as [j J]. rewrite pN_2, J, cpow_add, cpow_1, cpow_mul, cpow_2, H.
    apply cmul_morph; [reflexivity|]. rewrite cpow_add, cpow_1, cpow_mul, cpow_2. change ((-1 : FP) *! (-1)) with (c1 : FP). rewrite cpow_one. reflexivity. }
  rewrite FP_fermat in E. cbn in E. assert (T : t ==[P] 0 \/ ~ t ==[P] 0) by (destruct (cong_dec P t 0); auto).
  destruct T as [T|T]; [cbn in H; rewrite T in H; cbn in H; apply (cong_1_0 P prime_P); transitivity (0 - (-1)); [reflexivity|]; rewrite <- H; reflexivity|].
  apply minus_one. symmetry. apply (cong_cancel P prime_P t); auto. rewrite <- E. apply cong_eq; ring.
Qed.

(** Fp6 *)
Lemma tau_3 : cpow tau 3 =[FP6]= cemb FP2 xi xi.
Proof. etransitivity; [|apply croot_cube]. change 3%N with (2 + 1)%N. rewrite cpow_add, cpow_2, cpow_1. reflexivity. Qed.
Lemma tau_k n : cpow tau (3 * n) =[FP6]= cemb FP2 xi (cpow xi n).
Proof. rewrite cpow_mul, tau_3. apply e6_pow. Qed.
Lemma xi_2k6 : cpow xi (2 * k6) =[FP2]= xiToPMinus1Over3.
Proof. rewrite N.mul_comm, cpow_mul, xi_k6, cpow_2, const3, g2_mul_ok. reflexivity. Qed.
Lemma xi_3k6 : cpow xi (3 * k6) =[FP2]= xiToPMinus1Over2.
Proof. replace (3 * k6)%N with (2 * k6 + k6)%N by lia. rewrite cpow_add, xi_k6, xi_2k6, const2, g2_mul_ok. reflexivity. Qed.
Lemma tau_pow : cpow tau pN =[FP6]= tau *! cemb FP2 xi xiToPMinus1Over3.
Proof. rewrite pN_3, cpow_add, cpow_1, tau_k. rewrite xi_2k6. reflexivity. Qed.
Lemma frobenius6 (a : FP6) : cpow a pN =[FP6]= g6_frobenius a.
Proof.
  transitivity (cpow (cemb FP2 xi (pr1 FP2 a) *! (tau *! tau) +! cemb FP2 xi (pr2 FP2 a) *! tau +! cemb FP2 xi (pr3 FP2 a) : FP6) pN).
  { apply cpow_morph; auto. apply (cub_split FP2 xi). }
  rewrite !(frob_add FP6) by apply FP6_char. rewrite !cpow_distr. rewrite (e6_pow (pr1 FP2 a)), (e6_pow (pr2 FP2 a)), (e6_pow (pr3 FP2 a)), tau_pow.
  rewrite !frobenius2.
  transitivity (cemb FP2 xi ((g2_conj (pr1 FP2 a) : FP2) *! ((xiToPMinus1Over3 : FP2) *! xiToPMinus1Over3)) *! (tau *! tau)
     +! cemb FP2 xi ((g2_conj (pr2 FP2 a) : FP2) *! xiToPMinus1Over3) *! tau +! cemb FP2 xi (g2_conj (pr3 FP2 a)) : FP6).
  { rewrite !e6_mul. apply (alg6 FP6). }
  unfold g6_frobenius. symmetry. etransitivity; [apply (cub_split FP2 xi)|].
  change (croot FP2 xi) with tau. cbn [pr1 pr2 pr3 fst snd].
  rewrite (cemb_eq FP2 xi (g2_mul (g2_conj (g6x a)) xiTo2PMinus2Over3) ((g2_conj (pr1 FP2 a) : FP2) *! ((xiToPMinus1Over3 : FP2) *! xiToPMinus1Over3))).
  2:{ rewrite g2_mul_ok, const23, g2_mul_ok. reflexivity. }
  rewrite (cemb_eq FP2 xi (g2_mul (g2_conj (g6y a)) xiToPMinus1Over3) ((g2_conj (pr2 FP2 a) : FP2) *! xiToPMinus1Over3)).
  2:{ apply g2_mul_ok. }
  reflexivity.
Qed.
(** Fp12 *)
Lemma omega_pow : cpow (qroot FP6 tau) pN =[FP12]= qroot FP6 tau *! qemb FP6 tau (cemb FP2 xi xiToPMinus1Over6).
Proof.
  rewrite pN_2, cpow_add, cpow_1. apply cmul_morph; [reflexivity|]. rewrite cpow_mul.
  assert (E : cpow (qroot FP6 tau) 2 =[FP12]= qemb FP6 tau tau) by (etransitivity; [apply cpow_2|apply qroot_sq]).
  rewrite E. rewrite e12_pow, tau_k, xi_k6. reflexivity.
Qed.
Lemma frobenius12 (a : FP12) : cpow a pN =[FP12]= g12_frobenius a.
Proof.
  transitivity (cpow (qemb FP6 tau (fst a) *! qroot FP6 tau +! qemb FP6 tau (snd a) : FP12) pN).
  { apply cpow_morph; auto. apply (quad_split FP6 tau). }
  rewrite (frob_add FP12) by apply FP12_char. rewrite cpow_distr. rewrite (e12_pow (fst a)), (e12_pow (snd a)), omega_pow.
  rewrite !frobenius6.
  unfold g12_frobenius. symmetry. etransitivity; [apply (quad_split FP6 tau)|]. cbn [fst snd].
  rewrite g6_mul_scalar_ok, e12_mul. apply (alg12 FP12).
Qed.

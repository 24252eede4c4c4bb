(** The maps of GF(p^12) the pairing uses: conjugation, Frobenius, final exponentiation, and the
    embeddings of the curve over GF(p) and of the twist over GF(p^2). *)
Require Import ZArith NArith Setoid Morphisms Ring Ring_theory Bool Lia Znumtheory.
Require Import Verif.Cong Verif.Ext Verif.FqModel Verif.FqProofs Verif.Pocklington Verif.TowerModel Verif.TowerSpec Verif.TowerProofs Verif.FieldProofs Verif.FrobProofs
  Verif.FrobProofs2 Verif.FinalProofs Verif.CurveModel Verif.CurveSpec Verif.JacProofs Verif.AssocProofs Verif.CurveGroup Verif.CurveProofs
  Verif.OrderProofs Verif.LineProofs Verif.BilinProofs Verif.HomProofs.
Open Scope Z_scope.

Section Gen.
Variable R : cring.
Add Ring Rr : (c_ring R) (setoid (c_equiv R) (c_ext R)).
Variable c : R.
Lemma qemb_add a b : qemb R c (a +! b) =! qemb R c a +! qemb R c b.
Proof. cbn. unfold quad_eq, quad_add; cbn. split; ring. Qed.
Lemma qemb_opp a : qemb R c (-! a) =! -! qemb R c a.
Proof. cbn. unfold quad_eq, quad_opp; cbn. split; ring. Qed.
Lemma qemb_inj a b : qemb R c a =! qemb R c b -> a =! b.
Proof. now intros [_ H]. Qed.
Lemma cemb_add a b : cemb R c (a +! b) =! cemb R c a +! cemb R c b.
Proof. cbn. unfold cub_eq, cub_add, pr1, pr2, pr3; cbn. repeat split; ring. Qed.
Lemma cemb_opp a : cemb R c (-! a) =! -! cemb R c a.
Proof. cbn. unfold cub_eq, cub_opp, pr1, pr2, pr3; cbn. repeat split; ring. Qed.
Lemma cemb_inj a b : cemb R c a =! cemb R c b -> a =! b.
Proof. intros (_ & _ & H). exact H. Qed.
(** x t + y to - x t + y *)
Definition qconj (a : quad R c) : quad R c := (-! fst a, snd a).
Lemma qconj_m : Proper (@ceq (quad R c) ==> @ceq (quad R c)) qconj.
Proof. intros [x y] [x' y'] [A B]. cbn in *. split; cbn; [now rewrite A|exact B]. Qed.
Lemma qconj_add a b : qconj (a +! b) =! qconj a +! qconj b.
Proof. destruct a, b. cbn. unfold quad_eq, qconj, quad_add; cbn. split; ring. Qed.
Lemma qconj_mul a b : qconj (a *! b) =! qconj a *! qconj b.
Proof. destruct a, b. cbn. unfold quad_eq, qconj, quad_mul; cbn. split; ring. Qed.
Lemma qconj_opp a : qconj (-! a) =! -! qconj a.
Proof. destruct a. cbn. unfold quad_eq, qconj, quad_opp; cbn. split; ring. Qed.
Lemma qconj_conj a : qconj (qconj a) =! a.
Proof. destruct a. cbn. unfold quad_eq, qconj; cbn. split; ring. Qed.
Lemma qconj_emb a : qconj (qemb R c a) =! qemb R c a.
Proof. cbn. unfold quad_eq, qconj; cbn. split; ring. Qed.
Lemma qconj_root : qconj (qroot R c) =! -! qroot R c.
Proof. cbn. unfold quad_eq, qconj, quad_opp; cbn. split; ring. Qed.
Lemma alg_c3 (o e : R) (s : R -> R) : True. Proof. exact I. Qed.
Lemma alg_w3 (w t : R) : w *! w =! t -> w *! w *! w *! w *! w *! w =! t *! t *! t.
Proof. intros <-. ring. Qed.
Lemma alg_sgy (w e : R) : (-! w) *! (-! w) *! (-! w) *! e =! -! (w *! w *! w *! e). Proof. ring. Qed.
Lemma alg_sgx (w e : R) : (-! w) *! (-! w) *! e =! w *! w *! e. Proof. ring. Qed.
Lemma alg_frx (w g e : R) : (w *! g) *! (w *! g) *! e =! w *! w *! (g *! g *! e). Proof. ring. Qed.
Lemma alg_fry (w g e : R) : (w *! g) *! (w *! g) *! (w *! g) *! e =! w *! w *! w *! (g *! g *! g *! e). Proof. ring. Qed.
Lemma alg_11x (e : R) : c1 *! c1 *! e =! e. Proof. ring. Qed.
Lemma alg_11y (e : R) : c1 *! c1 *! c1 *! e =! e. Proof. ring. Qed.
Lemma alg_1p6 (e : R) : c1 *! c1 *! c1 *! c1 *! c1 *! c1 *! e =! e. Proof. ring. Qed.
Lemma opp_0 (e : R) : e =! c0 -> -! e =! c0. Proof. intros ->. ring. Qed.
End Gen.

(** ** Embeddings. *)
Definition e2 (a : FP2) : FP12 := qemb FP6 tau (cemb FP2 xi a).
Definition e1 (a : FP) : FP12 := e2 (qemb FP (-1) a).
Lemma e2_m : Proper (@ceq FP2 ==> @ceq FP12) e2.
Proof. intros a b H. unfold e2. apply qemb_eq, cemb_eq, H. Qed.
Lemma e2_add a b : e2 (a +! b) =! e2 a +! e2 b.
Proof. unfold e2. etransitivity; [|apply qemb_add]. apply qemb_eq, cemb_add. Qed.
Lemma e2_mul' a b : e2 (a *! b) =! e2 a *! e2 b.
Proof. unfold e2. etransitivity; [|apply qemb_mul]. apply qemb_eq, cemb_mul. Qed.
Lemma e2_opp a : e2 (-! a) =! -! e2 a.
Proof. unfold e2. etransitivity; [|apply qemb_opp]. apply qemb_eq, cemb_opp. Qed.
Lemma e2_1 : e2 c1 =! c1. Proof. reflexivity. Qed.
Lemma e2_inj a b : e2 a =! e2 b -> a =! b.
Proof. intros H. apply qemb_inj, cemb_inj in H. exact H. Qed.
#[export] Existing Instance e2_m.
Lemma e1_m : Proper (@ceq FP ==> @ceq FP12) e1.
Proof. intros a b H. unfold e1. apply e2_m, qemb_eq, H. Qed.
Lemma e1_add a b : e1 (a +! b) =! e1 a +! e1 b.
Proof. unfold e1. rewrite <- e2_add. apply e2_m, qemb_add. Qed.
Lemma e1_mul a b : e1 (a *! b) =! e1 a *! e1 b.
Proof. unfold e1. rewrite <- e2_mul'. apply e2_m, qemb_mul. Qed.
Lemma e1_opp a : e1 (-! a) =! -! e1 a.
Proof. unfold e1. rewrite <- e2_opp. apply e2_m, qemb_opp. Qed.
Lemma e1_1 : e1 c1 =! c1. Proof. reflexivity. Qed.
Lemma e1_inj a b : e1 a =! e1 b -> a =! b.
Proof. intros H. apply e2_inj, qemb_inj in H. exact H. Qed.
#[export] Existing Instance e1_m.
Lemma e2_0 : e2 c0 =! c0. Proof. reflexivity. Qed.
Lemma e2_nz a : ~ a =! c0 -> ~ e2 a =! c0.
Proof. intros N H. apply N, e2_inj. exact H. Qed.

(** ** Decidable equality and inverses. *)
Definition eqp (a b : Z) : bool := (a - b) mod P =? 0.
Lemma eqp_ok a b : eqp a b = true <-> a ==[P] b.
Proof.
  unfold eqp. rewrite Z.eqb_eq. split; intros H.
  - apply Z.mod_divide in H; [exact H|discriminate].
  - apply Z.mod_divide; [discriminate|exact H].
Qed.
Definition eq2f (a b : FP2) : bool := eqp (fst a) (fst b) && eqp (snd a) (snd b).
Lemma eq2f_ok (a b : FP2) : eq2f a b = true <-> a =! b.
Proof. unfold eq2f. rewrite andb_true_iff, !eqp_ok. reflexivity. Qed.
Definition eq6f (a b : FP6) : bool := eq2f (fst (fst a)) (fst (fst b)) && (eq2f (snd (fst a)) (snd (fst b)) && eq2f (snd a) (snd b)).
Lemma eq6f_ok (a b : FP6) : eq6f a b = true <-> a =! b.
Proof. unfold eq6f. rewrite !andb_true_iff, !eq2f_ok. reflexivity. Qed.
Definition eq12f (a b : FP12) : bool := eq6f (fst a) (fst b) && eq6f (snd a) (snd b).
Lemma eq12f_ok (a b : FP12) : eq12f a b = true <-> a =! b.
Proof. unfold eq12f. rewrite !andb_true_iff, !eq6f_ok. reflexivity. Qed.
Definition inv12 : FP12 -> FP12 := g12_invert 0.
Lemma inv12_ok a : ~ a =! c0 -> a *! inv12 a =! c1. Proof. apply g12_invert_ok. Qed.
Definition inv2 : FP2 -> FP2 := g2_invert 0.
Lemma inv2_ok a : ~ a =! c0 -> a *! inv2 a =! c1. Proof. apply g2_invert_ok. Qed.
Definition inv1 (a : FP) : FP := match mod_inverse a P with Some i => i | None => 0 end.
Lemma inv1_ok a : ~ a =! c0 -> a *! inv1 a =! c1.
Proof.
  intros N. change (a * inv1 a ==[P] 1). unfold inv1. assert (S := mod_inverse_spec a P P_one). destruct (mod_inverse a P) as [i|]; [tauto|].
  exfalso. apply S. apply Zgcd_1_rel_prime. apply rel_prime_sym, prime_rel_prime; [exact prime_P|]. intros D. apply N. now apply cong_0_iff.
Qed.

(** ** Conjugation, Frobenius, exponentiation. *)
Definition sg : FP12 -> FP12 := qconj FP6 tau.
Lemma sg_conj (a : FP12) : g12_conj a =[FP12]= sg a. Proof. reflexivity. Qed.
Definition fr (a : FP12) : FP12 := cpow a pN.
Lemma fr_m : Proper (@ceq FP12 ==> @ceq FP12) fr. Proof. intros a b H. unfold fr. now rewrite H. Qed.
Lemma fr_add a b : fr (a +! b) =! fr a +! fr b. Proof. apply (frob_add FP12), FP12_char. Qed.
Lemma fr_mul a b : fr (a *! b) =! fr a *! fr b. Proof. apply cpow_distr. Qed.
Lemma fr_1 : fr c1 =! c1. Proof. apply cpow_one. Qed.
Section Opp.
Variable R : cring.
Add Ring Rr : (c_ring R) (setoid (c_equiv R) (c_ext R)).
Lemma add_opp_uniq (a b z : R) : z =! c0 -> a +! b =! z -> a =! -! b.
Proof. intros E H. transitivity ((a +! b) -! b); [ring|]. rewrite H, E. ring. Qed.
Lemma add_opp_0 (a : R) : -! a +! a =! c0. Proof. ring. Qed.
End Opp.
Lemma pN_nz : pN <> 0%N. Proof. rewrite pN_6. lia. Qed.
Lemma fr_opp a : fr (-! a) =! -! fr a.
Proof.
  apply (add_opp_uniq FP12 _ _ (fr c0)); [apply cpow_zero, pN_nz|]. rewrite <- fr_add. apply fr_m. apply (add_opp_0 FP12).
Qed.
(** The exponent is kept abstract. *)
Lemma sealed_E : { e : N | e = ((pN ^ 12 - 1) / Z.to_N Order)%N }. Proof. now exists ((pN ^ 12 - 1) / Z.to_N Order)%N. Qed.
Definition eN : N := proj1_sig sealed_E.
Lemma eN_def : eN = ((pN ^ 12 - 1) / Z.to_N Order)%N. Proof. exact (proj2_sig sealed_E). Qed.
Definition E (a : FP12) : FP12 := cpow a eN.
Lemma E_m : Proper (@ceq FP12 ==> @ceq FP12) E. Proof. intros a b H. unfold E. now rewrite H. Qed.
Lemma E_mul a b : E (a *! b) =! E a *! E b. Proof. apply cpow_distr. Qed.
Lemma E_final s a : final_exponentiation s a =[FP12]= E a.
Proof. unfold E. rewrite eN_def. apply final_exponentiation_ok. Qed.
Lemma pow_pred (R : cring) (F : is_field R) (a : R) (n : N) : n <> 0%N -> ~ a =! c0 -> cpow a n =! a -> cpow a (n - 1) =! c1.
Proof.
  intros N0 N H. apply (f_cancel R F a _ _ N). rewrite <- cpow_succ. replace (N.succ (n - 1)) with n by lia.
  rewrite H. symmetry. apply (cmul_1 R).
Qed.
Lemma E_fix a : sg a =! a -> ~ a =! c0 -> E a =! c1.
Proof.
  intros S N. unfold E. rewrite eN_def, full_exponent. rewrite !cpow_mul.
  assert (H : cpow a (pN ^ 6) =! a) by (rewrite frobenius12_6; exact S).
  rewrite (pow_pred FP12 FP12_field a (pN ^ 6) ltac:(apply N.pow_nonzero, pN_nz) N H). now rewrite !cpow_one.
Qed.
Lemma qN_nz : Z.to_N Order <> 0%N. Proof. discriminate. Qed.
Lemma E_q a : ~ a =! c0 -> cpow (E a) (Z.to_N Order) =! c1.
Proof. intros N. unfold E. rewrite <- (cpow_morph FP12 _ _ (E_final 0 a) _ _ eq_refl). now apply final_order. Qed.
Lemma fr_E a : E (fr a) =! cpow (E a) pN.
Proof. unfold E, fr. rewrite <- !cpow_mul. now rewrite N.mul_comm. Qed.
(** Elements of the subfields. *)
Lemma sg_e2 a : sg (e2 a) =! e2 a. Proof. apply qconj_emb. Qed.
Lemma E_e2 a : ~ a =! c0 -> E (e2 a) =! c1.
Proof. intros N. apply E_fix; [apply sg_e2|now apply e2_nz]. Qed.
Lemma e2_cpow (a : FP2) n : cpow (e2 a) n =! e2 (cpow a n).
Proof. unfold e2. rewrite e12_pow. apply qemb_eq. apply e6_pow. Qed.
Lemma fr_e2 a : fr (e2 a) =! e2 (g2_conj a).
Proof. unfold fr. rewrite e2_cpow. apply e2_m, frobenius2. Qed.
Lemma fr_e1 a : fr (e1 a) =! e1 a.
Proof. unfold e1. rewrite fr_e2. apply e2_m. split; [exists 0; reflexivity|reflexivity]. Qed.
Lemma sg_e1 a : sg (e1 a) =! e1 a. Proof. apply sg_e2. Qed.
Definition omega : FP12 := qroot FP6 tau.
Lemma sg_omega : sg omega =! -! omega. Proof. apply qconj_root. Qed.
Definition gam : FP2 := xiToPMinus1Over6.
Lemma fr_omega : fr omega =! omega *! e2 gam. Proof. exact omega_pow. Qed.
Lemma omega_6 : omega *! omega *! omega *! omega *! omega *! omega =! e2 xi.
Proof.
  rewrite (alg_w3 FP12 omega (qemb FP6 tau tau)) by apply qroot_sq. unfold e2. rewrite <- !e12_mul. apply qemb_eq. apply croot_cube.
Qed.
Lemma omega_nz : ~ omega =! c0.
Proof. intros [(_ & _ & _ & H) _]. revert H. change (~ 1 ==[P] 0). now apply small_nz. Qed.
Lemma FP12_two : ~ (c1 : FP12) +! c1 =! c0.
Proof. intros (_ & _ & _ & _ & H). revert H. change (~ 1 + 1 ==[P] 0). now apply small_nz. Qed.
Lemma FP12_three : ~ (c1 : FP12) +! c1 +! c1 =! c0.
Proof. intros (_ & _ & _ & _ & H). revert H. change (~ 1 + 1 + 1 ==[P] 0). now apply small_nz. Qed.
Definition b12 : FP12 := e1 3.
Lemma FP12_b : ~ b12 =! c0.
Proof. intros (_ & _ & _ & _ & H). revert H. change (~ 3 ==[P] 0). now apply small_nz. Qed.
Lemma twist_b : omega *! omega *! omega *! omega *! omega *! omega *! e2 twistB =! b12.
Proof.
  rewrite omega_6, <- e2_mul'. apply e2_m. etransitivity; [symmetry; apply g2_mul_ok|]. apply eq2b_ok. vm_compute. reflexivity.
Qed.
(** The Frobenius map on the twist. *)
Lemma conj_m : Proper (@ceq FP2 ==> @ceq FP2) g2_conj.
Proof. intros a b [A B]. split; [change (- fst a ==[P] - fst b); change (fst a ==[P] fst b) in A; now rewrite A|exact B]. Qed.
Lemma conj_add (a b : FP2) : g2_conj (a +! b) =[FP2]= (g2_conj a : FP2) +! g2_conj b.
Proof. split; [change (- (fst a + fst b) ==[P] - fst a + - fst b); apply cong_eq; ring|reflexivity]. Qed.
Lemma conj_opp (a : FP2) : g2_conj (-! a) =[FP2]= -! (g2_conj a : FP2).
Proof. split; reflexivity. Qed.
Lemma conj_1 : g2_conj (c1 : FP2) =[FP2]= c1. Proof. split; [exists 0; reflexivity|reflexivity]. Qed.
Lemma conj_inj (a b : FP2) : g2_conj a =[FP2]= g2_conj b -> a =! b.
Proof. intros H. rewrite <- (g2_conj_conj a), <- (g2_conj_conj b). now apply conj_m. Qed.
Lemma gam_nz : ~ gam =! c0.
Proof. intros [H _]. revert H. change (~ fst xiToPMinus1Over6 ==[P] 0). now apply small_nz. Qed.
Lemma gam_2 : xiToPMinus1Over3 =[FP2]= gam *! gam. Proof. rewrite const3. apply g2_mul_ok. Qed.
Lemma gam_3 : xiToPMinus1Over2 =[FP2]= gam *! gam *! gam.
Proof. rewrite const2, (g2_mul_ok _ _). apply (cmul_morph FP2); [apply gam_2|reflexivity]. Qed.

Definition psi : apoint FP2 -> apoint FP12 := hom FP2 FP12 e2 omega.
Definition emb : apoint FP -> apoint FP12 := hom FP FP12 e1 c1.
Definition frob : apoint FP2 -> apoint FP2 := hom FP2 FP2 g2_conj gam.
Lemma psi_frob p : apoint_eq (frp FP12 fr (psi p)) (psi (frob p)).
Proof.
  destruct p as [[x y]|]; [|exact I]. cbn [psi hom frp frob]. unfold hx, hy. split.
  - rewrite !fr_mul, fr_omega, fr_e2, !e2_mul'. apply (alg_frx FP12).
  - rewrite !fr_mul, fr_omega, fr_e2, !e2_mul'. apply (alg_fry FP12).
Qed.
Lemma emb_frob p : apoint_eq (frp FP12 fr (emb p)) (emb p).
Proof.
  destruct p as [[x y]|]; [|exact I]. cbn [emb hom frp]. unfold hx, hy. split; rewrite !fr_mul, fr_1, !fr_e1; reflexivity.
Qed.
Lemma psi_sum p r s : ct_sum p r s -> ct_sum (psi p) (psi r) (psi s).
Proof. apply hom_sum; [exact e2_m|exact e2_add|exact e2_mul'|exact e2_opp|exact e2_1|exact e2_inj|exact FP12_field|exact omega_nz]. Qed.
Lemma psi_m p p' : apoint_eq p p' -> apoint_eq (psi p) (psi p'). Proof. apply hom_m; exact e2_m. Qed.
Lemma psi_on p : E2 p -> on_curve b12 (psi p).
Proof. apply (hom_on FP2 FP12 e2 e2_m e2_add e2_mul' omega twistB b12). exact twist_b. Qed.
Lemma emb_sum p r s : ct_sum p r s -> ct_sum (emb p) (emb r) (emb s).
Proof. apply hom_sum; [exact e1_m|exact e1_add|exact e1_mul|exact e1_opp|exact e1_1|exact e1_inj|exact FP12_field|exact (proj1 FP12_field)]. Qed.
Lemma emb_m p p' : apoint_eq p p' -> apoint_eq (emb p) (emb p'). Proof. apply hom_m; exact e1_m. Qed.
Lemma emb_on p : E1 p -> on_curve b12 (emb p).
Proof. apply (hom_on FP FP12 e1 e1_m e1_add e1_mul c1 3 b12). apply (alg_1p6 FP12). Qed.
Lemma frob_sum p r s : ct_sum p r s -> ct_sum (frob p) (frob r) (frob s).
Proof. apply hom_sum; [exact conj_m|exact conj_add|exact g2_conj_mul|exact conj_opp|exact conj_1|exact conj_inj|exact FP2_field|exact gam_nz]. Qed.
Lemma frob_multiple p n s : multiple p n s -> multiple (frob p) n (frob s).
Proof. apply hom_multiple; [exact conj_m|exact conj_add|exact g2_conj_mul|exact conj_opp|exact conj_1|exact conj_inj|exact FP2_field|exact gam_nz]. Qed.

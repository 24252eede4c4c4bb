(** The bilinear map behind the pairing, on multiples of the generators. *)
Require Import ZArith NArith Setoid Morphisms Ring Ring_theory Bool Lia Znumtheory List.
Require Import Verif.Cong Verif.Ext Verif.FqModel Verif.FqProofs Verif.Pocklington Verif.TowerModel Verif.TowerSpec Verif.TowerProofs Verif.FieldProofs Verif.FrobProofs
  Verif.FrobProofs2 Verif.FinalProofs Verif.CurveModel Verif.CurveSpec Verif.JacProofs Verif.AssocProofs Verif.CurveGroup Verif.CurveProofs
  Verif.OrderCheck Verif.OrderProofs Verif.LineProofs Verif.BilinProofs Verif.HomProofs Verif.PairField Verif.FrobCert.
Import ListNotations.
Open Scope Z_scope.
#[local] Existing Instance apoint_equiv.

(** Multiples of the generators. *)
Definition q1 : Z -> apoint FP := zmul FP inv1 eqp G1 Order.
Definition q2 : Z -> apoint FP2 := zmul FP2 inv2 eq2f G2 Order.
Lemma G1_nz : G1 <> None. Proof. discriminate. Qed.
Lemma G2_nz : G2 <> None. Proof. discriminate. Qed.
Lemma Order_odd : Z.odd Order = true. Proof. reflexivity. Qed.
Lemma q1_on i : E1 (q1 i). Proof. exact (zmul_on FP FP_field 3 inv1 inv1_ok eqp eqp_ok G1 G1_on Order i). Qed.
Lemma q2_on i : E2 (q2 i). Proof. exact (zmul_on FP2 FP2_field twistB inv2 inv2_ok eq2f eq2f_ok G2 G2_on Order i). Qed.
Lemma q1_sum i j : ct_sum (q1 i) (q1 j) (q1 (i + j)).
Proof. exact (zmul_sum FP FP_field FP_two FP_three 3 FP_b inv1 inv1_ok eqp eqp_ok G1 G1_on Order prime_Order order_G1 G1_nz i j). Qed.
Lemma q2_sum i j : ct_sum (q2 i) (q2 j) (q2 (i + j)).
Proof. exact (zmul_sum FP2 FP2_field FP2_two FP2_three twistB FP2_b inv2 inv2_ok eq2f eq2f_ok G2 G2_on Order prime_Order order_G2 G2_nz i j). Qed.
Lemma q1_y i x y : q1 i = Some (x, y) -> ~ y =[FP]= c0.
Proof. exact (zmul_y FP FP_field FP_two FP_three 3 FP_b inv1 inv1_ok eqp eqp_ok G1 G1_on Order prime_Order order_G1 G1_nz i x y Order_odd). Qed.
Lemma q2_y i x y : q2 i = Some (x, y) -> ~ y =[FP2]= c0.
Proof. exact (zmul_y FP2 FP2_field FP2_two FP2_three twistB FP2_b inv2 inv2_ok eq2f eq2f_ok G2 G2_on Order prime_Order order_G2 G2_nz i x y Order_odd). Qed.
Lemma q1_cong i j : apoint_eq (q1 i) (q1 j) <-> i ==[Order] j.
Proof. exact (zmul_cong FP FP_field FP_two FP_three 3 FP_b inv1 inv1_ok eqp eqp_ok G1 G1_on Order prime_Order order_G1 G1_nz i j). Qed.
Lemma q2_cong i j : apoint_eq (q2 i) (q2 j) <-> i ==[Order] j.
Proof. exact (zmul_cong FP2 FP2_field FP2_two FP2_three twistB FP2_b inv2 inv2_ok eq2f eq2f_ok G2 G2_on Order prime_Order order_G2 G2_nz i j). Qed.
Lemma q1_none i : q1 i = None <-> i ==[Order] 0.
Proof. exact (zmul_none FP FP_field FP_two FP_three 3 FP_b inv1 inv1_ok eqp eqp_ok G1 G1_on Order prime_Order order_G1 G1_nz i). Qed.
Lemma q2_none i : q2 i = None <-> i ==[Order] 0.
Proof. exact (zmul_none FP2 FP2_field FP2_two FP2_three twistB FP2_b inv2 inv2_ok eq2f eq2f_ok G2 G2_on Order prime_Order order_G2 G2_nz i). Qed.
Lemma q1_multiple n s : multiple G1 n s <-> apoint_eq s (q1 (Z.of_nat n)).
Proof. exact (multiple_zmul FP FP_field FP_two FP_three 3 FP_b inv1 inv1_ok eqp eqp_ok G1 G1_on Order prime_Order order_G1 G1_nz n s). Qed.
Lemma q2_multiple n s : multiple G2 n s <-> apoint_eq s (q2 (Z.of_nat n)).
Proof. exact (multiple_zmul FP2 FP2_field FP2_two FP2_three twistB FP2_b inv2 inv2_ok eq2f eq2f_ok G2 G2_on Order prime_Order order_G2 G2_nz n s). Qed.
Lemma q2_opp i : apoint_eq (q2 (- i)) (opposite (q2 i)).
Proof. exact (zmul_opp FP2 FP2_field FP2_two FP2_three twistB FP2_b inv2 inv2_ok eq2f eq2f_ok G2 G2_on Order prime_Order order_G2 G2_nz i). Qed.
Lemma q2_repr i : multiple G2 (Z.to_nat (i mod Order)) (q2 i).
Proof. exact (zmul_multiple FP2 FP2_field twistB inv2 inv2_ok eq2f eq2f_ok G2 G2_on Order i). Qed.

Lemma q2_multiple' (k : Z) s : 0 <= k -> multiple G2 (N.to_nat (Z.to_N k)) s -> apoint_eq s (q2 k).
Proof. intros K H. apply q2_multiple in H. now rewrite Z_N_nat, Z2Nat.id in H. Qed.
Lemma q2_diff : apoint_eq (q2 (P - Order)) (q2 P).
Proof. exact (proj2 (q2_cong (P - Order) P) (ex_intro _ (-1) (eq_refl (- Order)))). Qed.

(** The Frobenius map multiplies by P. *)
Lemma frob_G2 : apoint_eq (frob G2) (q2 P).
Proof.
  assert (H : multiple G2 (N.to_nat (Z.to_N (P - Order))) (Some pi_G2)).
  { change (Some pi_G2) with (Some (fst pi_G2, snd pi_G2)). apply good2.
    apply (run_ok FP2 twistB FP2_field FP2_two FP2_three FP2_b dbl2 add2 dbl2_ok add2_ok G2 G2_on cert_pi (1%N, (tx twistGen, ty twistGen)) [(1%N, (tx twistGen, ty twistGen))]).
    - apply good_1.
    - constructor; [apply good_1|constructor].
    - exact cert_pi_ok. }
  apply q2_multiple' in H; [|discriminate].
  transitivity (Some pi_G2 : apoint FP2).
  - change (Some pi_G2) with (Some (fst pi_G2, snd pi_G2)). unfold frob, G2. cbn [hom apoint_eq]. unfold hx, hy. split.
    + rewrite <- gam_2. etransitivity; [symmetry; apply g2_mul_ok|]. apply eq2b_ok. vm_compute. reflexivity.
    + rewrite <- gam_3. etransitivity; [symmetry; apply g2_mul_ok|]. apply eq2b_ok. vm_compute. reflexivity.
  - etransitivity; [exact H|exact q2_diff].
Qed.
Lemma frob_q2 i : apoint_eq (frob (q2 i)) (q2 (P * i)).
Proof.
  assert (M := frob_multiple _ _ _ (q2_repr i)).
  assert (K : multiple G2 (Z.to_nat P) (frob G2)).
  { apply q2_multiple. rewrite P_nat. apply frob_G2. }
  assert (H := mult_mul FP2 FP2_field FP2_two FP2_three twistB FP2_b G2 _ _ _ _ G2_on K M).
  apply q2_multiple in H. rewrite H. apply q2_cong. rewrite Nat2Z.inj_mul, P_nat, Z2Nat.id by (apply Z.mod_pos_bound; reflexivity).
  rewrite cong_mod. apply cong_eq. ring.
Qed.

Definition pt (i : Z) : apoint FP12 := psi (q2 i).
Lemma sg_m : Proper (@ceq FP12 ==> @ceq FP12) sg. Proof. apply qconj_m. Qed.
Lemma sg_add x y : sg (x +! y) =! sg x +! sg y. Proof. apply qconj_add. Qed.
Lemma sg_mul x y : sg (x *! y) =! sg x *! sg y. Proof. apply qconj_mul. Qed.
Lemma sg_opp x : sg (-! x) =! -! sg x. Proof. apply qconj_opp. Qed.
Lemma sg_sg x : sg (sg x) =! x. Proof. apply qconj_conj. Qed.
Lemma sg_1 : sg c1 =! c1. Proof. apply (sg_e2 c1). Qed.
Lemma hx_nz (x : FP2) : ~ x =! c0 -> ~ hy FP2 FP12 e2 omega x =! c0.
Proof.
  intros N. unfold hy. apply (nz_mul FP12 FP12_field); [|now apply e2_nz].
  apply (nz_mul FP12 FP12_field); [apply (nz_mul FP12 FP12_field)|]; exact omega_nz.
Qed.
Lemma pt_anti i : anti FP12 b12 sg (pt i).
Proof.
  split; [apply psi_on, q2_on|]. unfold pt. destruct (q2 i) as [[x y]|] eqn:Q; [|exact I]. cbn [psi hom]. split; [|split].
  - unfold hx. rewrite !sg_mul, sg_omega, sg_e2. apply (alg_sgx FP12).
  - unfold hy. rewrite !sg_mul, sg_omega, sg_e2. apply (alg_sgy FP12).
  - apply hx_nz. exact (q2_y i x y Q).
Qed.
Lemma pt_sum i j : ct_sum (pt i) (pt j) (pt (i + j)). Proof. apply psi_sum, q2_sum. Qed.
Lemma pt_0 : pt 0 = None. Proof. reflexivity. Qed.
Lemma ord_N : Z.of_N (Z.to_N Order) = Order. Proof. reflexivity. Qed.
Lemma pt_q i j : (exists k, i - j = k * Z.of_N (Z.to_N Order)) -> apoint_eq (pt i) (pt j).
Proof. intros [k H]. apply psi_m, q2_cong. exists k. rewrite H, ord_N. ring. Qed.
Lemma pt_fr i : apoint_eq (pt (Z.of_N pN * i)) (frp FP12 fr (pt i)).
Proof. rewrite pN_Z. unfold pt. rewrite psi_frob. apply psi_m. symmetry. apply frob_q2. Qed.

(** 6u+2 *)
Lemma sealed_n0 : { n : N | n = Z.to_N (6 * bn_u + 2) }. Proof. now exists (Z.to_N (6 * bn_u + 2)). Qed.
Definition n0 : N := proj1_sig sealed_n0.
Lemma n0_def : n0 = Z.to_N (6 * bn_u + 2). Proof. exact (proj2_sig sealed_n0). Qed.
Lemma n0_exp : exists k, (n0 + pN + pN * pN * pN = pN * pN + Z.to_N Order * k)%N.
Proof.
  rewrite n0_def, pN_def. exists ((Z.to_N (6 * bn_u + 2) + Z.to_N P + Z.to_N P * Z.to_N P * Z.to_N P - Z.to_N P * Z.to_N P) / Z.to_N Order)%N.
  vm_compute. reflexivity.
Qed.

(** The value of the pairing of p and j times the generator of G2. *)
Definition mpair (p : apoint FP) (j : Z) : FP12 := milp FP12 inv12 eq12f E pt pN n0 (emb p) j.
Lemma emb_rational p : E1 p -> match p with None => True | Some (_, y) => ~ y =[FP]= c0 end -> rational FP12 b12 sg fr (emb p).
Proof.
  intros O Y. assert (OE := emb_on p O). assert (FE := emb_frob p). destruct p as [[x y]|]; [|exact I]. cbn [emb hom rational frp] in *.
  split; [split; [exact OE|split; [|split]]|exact FE].
  - unfold hx. rewrite !sg_mul, sg_1, sg_e1. reflexivity.
  - unfold hy. rewrite !sg_mul, sg_1, sg_e1. reflexivity.
  - unfold hy. intros H. rewrite (alg_11y FP12) in H. apply Y. apply e1_inj. exact H.
Qed.
Lemma q1_rational i : rational FP12 b12 sg fr (emb (q1 i)).
Proof.
  apply emb_rational; [apply q1_on|]. destruct (q1 i) as [[x y]|] eqn:Q; [|exact I]. exact (q1_y i x y Q).
Qed.
Lemma mpair_add_r i j k : mpair (q1 i) j *! mpair (q1 i) k =! mpair (q1 i) (j + k).
Proof.
  exact (milp_add_r FP12 FP12_field FP12_two FP12_three b12 FP12_b inv12 inv12_ok eq12f eq12f_ok sg sg_m sg_add sg_mul sg_opp sg_sg sg_1
    E E_m E_mul E_fix pt pt_anti pt_sum pt_0 (Z.to_N Order) pN n0 n0_exp E_q pt_q fr fr_m fr_add fr_mul fr_opp fr_1 fr_E pt_fr qN_nz (emb (q1 i)) j k (q1_rational i)).
Qed.
Lemma mpair_add_l i k j : mpair (q1 i) j *! mpair (q1 k) j =! mpair (q1 (i + k)) j.
Proof.
  exact (milp_add_l FP12 FP12_field FP12_two b12 inv12 inv12_ok eq12f eq12f_ok sg sg_m sg_add sg_mul sg_opp sg_sg sg_1
    E E_m E_mul E_fix pt pt_anti pt_sum pt_0 (Z.to_N Order) pN n0 n0_exp E_q pt_q fr fr_m fr_add fr_mul fr_opp fr_1 fr_E pt_fr qN_nz
    (emb (q1 i)) (emb (q1 k)) (emb (q1 (i + k))) j (q1_rational i) (q1_rational k) (q1_rational (i + k)) (emb_sum _ _ _ (q1_sum i k))).
Qed.
Lemma mpair_0_l j : mpair (q1 0) j =! c1. Proof. reflexivity. Qed.
Lemma mpair_0_r p : mpair p 0 =! c1.
Proof.
  unfold mpair. destruct (emb p) as [[x y]|]; [|reflexivity]. cbn [milp].
  exact (mil_0 FP12 FP12_field inv12 eq12f eq12f_ok sg sg_1 E E_m E_fix pt pt_sum pt_0 pN n0 x y).
Qed.
(** Bilinearity. *)
Section Pow.
Variable R : cring.
Add Ring Rr : (c_ring R) (setoid (c_equiv R) (c_ext R)).
Lemma hom_pow (f : Z -> R) : f 0 =! c1 -> (forall i j, f i *! f j =! f (i + j)) -> forall n : nat, f (Z.of_nat n) =! cpow (f 1) (N.of_nat n).
Proof.
  intros f0 fa n. induction n as [|n IH]; [rewrite cpow_0; exact f0|].
  rewrite Nat2N.inj_succ, cpow_succ, <- IH, fa. replace (1 + Z.of_nat n) with (Z.of_nat (S n)) by lia. reflexivity.
Qed.
End Pow.
Lemma mpair_bilinear (i j : nat) : mpair (q1 (Z.of_nat i)) (Z.of_nat j) =! cpow (mpair (q1 1) 1) (N.of_nat i * N.of_nat j).
Proof.
  rewrite (hom_pow FP12 (fun i => mpair (q1 i) (Z.of_nat j)) (mpair_0_l _) (fun a c => mpair_add_l a c _) i).
  rewrite (hom_pow FP12 (fun j => mpair (q1 1) j) (mpair_0_r _) (fun a c => mpair_add_r 1 a c) j).
  now rewrite N.mul_comm, cpow_mul.
Qed.

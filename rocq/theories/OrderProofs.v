(** The order of the generators, and that the points of the first curve are the multiples of its
    generator. *)
Require Import ZArith NArith Znumtheory Bool List Lia Setoid Morphisms.
Require Import Verif.Cong Verif.Ext Verif.FqModel Verif.Pocklington Verif.TowerModel Verif.TowerSpec Verif.TowerProofs Verif.FieldProofs
  Verif.FrobProofs Verif.CurveModel Verif.CurveSpec Verif.JacProofs Verif.AssocProofs Verif.CurveGroup Verif.CurveProofs
  Verif.OrderCheck Verif.OrderCert1 Verif.OrderCert2.
Import ListNotations.
Open Scope Z_scope.

Section Order.
Variable R : cring.
Hypothesis F : is_field R.
Hypothesis two : ~ (c1 : R) +! c1 =! c0.
Hypothesis three : ~ (c1 : R) +! c1 +! c1 =! c0.
Variable b : R.
Hypothesis nonsing : ~ b =! c0.
Local Existing Instance apoint_equiv.
Local Notation on := (on_curve b).

Lemma cancel_l (p r r' s : apoint R) : on p -> on r -> on r' -> ct_sum p r s -> ct_sum p r' s -> apoint_eq r r'.
Proof.
  intros P1 P2 P3 H H'. apply sum_comm in H, H'.
  apply (sum_cancel R F two three b nonsing) in H; auto. apply (sum_cancel R F two three b nonsing) in H'; auto.
  exact (sum_unique R F _ _ _ _ H H').
Qed.
Variable g : apoint R.
Hypothesis Og : on g.
Lemma mult_pred k s : 0 < k -> multiple g (N.to_nat (Z.to_N (k - 1))) s -> ct_sum s g None -> multiple g (Z.to_nat k) None.
Proof.
  intros K H E. rewrite Z_N_nat in H. replace (Z.to_nat k) with (S (Z.to_nat (k - 1))) by lia. now apply (multiple_S g _ s).
Qed.
Variable q : Z.
Hypothesis Pq : prime q.
Hypothesis Hq : multiple g (Z.to_nat q) None.
Hypothesis Ng : g <> None.
Lemma mult_none_mul n m : multiple g n None -> multiple g (m * n) None.
Proof. intros H. apply (mult_mul R F two three b nonsing g n m None None); auto. induction m; [constructor|]. econstructor; [exact IHm|]. exact I. Qed.
Lemma q_pos : 1 < q. Proof. destruct Pq; auto. Qed.
Lemma order_div n : multiple g n None <-> (q | Z.of_nat n).
Proof.
  assert (Q := q_pos). split.
  - intros H. destruct (Zdivide_dec q (Z.of_nat n)) as [D|D]; auto. exfalso.
    assert (RP : rel_prime (Z.of_nat n) q) by (apply rel_prime_sym, prime_rel_prime; auto).
    assert (Nn : (0 < n)%nat) by (destruct n; [exfalso; apply D; exists 0; reflexivity|lia]).
    destruct (rel_prime_bezout _ _ RP) as [x y E].
    (* a n = 1 + c q with a, c not negative *)
    set (a := x mod q). assert (Ha := Z.mod_pos_bound x q ltac:(lia)). fold a in Ha.
    assert (Ea : (a * Z.of_nat n) mod q = 1).
    { unfold a. rewrite Z.mul_mod_idemp_l by lia. replace (x * Z.of_nat n) with (1 + (- y) * q) by lia. rewrite Z.mod_add by lia. apply Z.mod_1_l. lia. }
    set (c := (a * Z.of_nat n) / q). assert (Ec : a * Z.of_nat n = q * c + 1) by (rewrite <- Ea; apply Z.div_mod; lia).
    assert (Hc : 0 <= c) by (apply Z.div_pos; [apply Z.mul_nonneg_nonneg; lia|lia]).
    assert (A := mult_none_mul n (Z.to_nat a) H). assert (B := mult_none_mul (Z.to_nat q) (Z.to_nat c) Hq).
    replace (Z.to_nat a * n)%nat with (Z.to_nat c * Z.to_nat q + 1)%nat in A by (apply Nat2Z.inj; rewrite Nat2Z.inj_add, !Nat2Z.inj_mul, !Z2Nat.id by lia; lia).
    assert (C := mult_add_inv R F two three b nonsing g _ 1 None g None Og B (mult_1 R g) A).
    cbn in C. destruct g as [[? ?]|]; [contradiction|congruence].
  - intros [k E]. assert (K : 0 <= k) by nia. replace n with (Z.to_nat k * Z.to_nat q)%nat by (apply Nat2Z.inj; rewrite Nat2Z.inj_mul, !Z2Nat.id by lia; lia).
    now apply mult_none_mul.
Qed.
(** Multiples agree exactly when their factors do modulo q. *)
Lemma mult_cong n m s t : multiple g n s -> multiple g m t -> (apoint_eq s t <-> Z.of_nat n ==[q] Z.of_nat m).
Proof.
  assert (W : forall n d s t, multiple g n s -> multiple g (n + d) t -> (apoint_eq s t <-> Z.of_nat n ==[q] Z.of_nat (n + d))).
  { clear n m s t. intros n d s t H H'. destruct (mult_ex R F two b g d Og) as [v V].
    assert (S := mult_add_inv R F two three b nonsing g n d s v t Og H V H').
    assert (Os := mult_on R F b g n s Og H). assert (Ov := mult_on R F b g d v Og V).
    assert (D : multiple g d None <-> apoint_eq s t).
    { split.
      - intros N. assert (E := mult_unique R F g d v None V N). destruct v as [[? ?]|]; [contradiction|]. apply (sum_inf_r R) in S. now symmetry.
      - intros E. apply (mult_eq R g d v); auto. apply (cancel_l s v None s); auto; [exact I| |apply (sum_inf_r R); reflexivity]. apply (sum_eq R s v t s); auto. now symmetry. }
    rewrite <- D, order_div. rewrite Nat2Z.inj_add. split.
    - intros [k ->]. unfold cong. exists (- k). ring.
    - intros [k E]. exists (- k). lia. }
  intros H H'. destruct (le_ge_dec n m) as [L|L].
  - replace m with (n + (m - n))%nat in * by lia. now apply W.
  - replace n with (m + (n - m))%nat in * by lia. assert (X := W m (n - m)%nat t s H' H).
    split; intros Y; symmetry; apply X; now symmetry.
Qed.
End Order.

(** ** The generators. *)
Definition G1 : apoint FP := Some (1, 2).
Definition G2 : apoint FP2 := Some (tx twistGen, ty twistGen).
Lemma G1_on : E1 G1. Proof. change (2 * 2 ==[P] 1 * 1 * 1 + 3). apply cong_eq. reflexivity. Qed.
Lemma G2_on : E2 G2.
Proof.
  unfold E2, G2. cbn [on_curve]. rewrite <- (mul2_ok (ty twistGen) (ty twistGen)).
  assert (E : ((tx twistGen : FP2) *! tx twistGen *! tx twistGen) =[FP2]= mul2 (g2_mul (tx twistGen) (tx twistGen)) (tx twistGen)).
  { rewrite (mul2_ok _ _). apply (cmul_morph FP2); [|reflexivity]. symmetry. apply g2_mul_ok. }
  rewrite E. split.
  - change (fst (mul2 (ty twistGen) (ty twistGen)) ==[P] fst (mul2 (g2_mul (tx twistGen) (tx twistGen)) (tx twistGen)) + fst twistB).
    apply cong_mod_iff; [discriminate|]. vm_compute. reflexivity.
  - change (snd (mul2 (ty twistGen) (ty twistGen)) ==[P] snd (mul2 (g2_mul (tx twistGen) (tx twistGen)) (tx twistGen)) + snd twistB).
    apply cong_mod_iff; [discriminate|]. vm_compute. reflexivity.
Qed.
Lemma good1 (n : N) (x y : Z) (g : apoint FP) : good FP g (n, (x, y)) -> multiple g (N.to_nat n) (Some (x, y)).
Proof. exact (fun H => H). Qed.
Lemma good2 (n : N) (x y : gfp2) (g : apoint FP2) : good FP2 g (n, (x, y)) -> multiple g (N.to_nat n) (Some (x, y)).
Proof. exact (fun H => H). Qed.
Lemma good_1 (R : cring) (x y : R) : good R (Some (x, y)) (1%N, (x, y)).
Proof. unfold good. cbn [fst snd]. change (N.to_nat 1) with 1%nat. apply mult_1. Qed.
Lemma order_G1 : multiple G1 (Z.to_nat Order) None.
Proof.
  apply (mult_pred FP G1 Order (Some (1, P - 2))); [reflexivity| |].
  - apply good1.
    apply (run_ok FP 3 FP_field FP_two FP_three FP_b dbl1 add1 dbl1_ok add1_ok G1 G1_on cert_g1 (1%N, (1, 2)) [(1%N, (1, 2))]).
    + apply good_1.
    + constructor; [apply good_1|constructor].
    + exact cert_g1_ok.
  - left. split; [reflexivity|]. split; [|reflexivity]. change (P - 2 ==[P] - (2)). exists 1. reflexivity.
Qed.
Lemma order_G2 : multiple G2 (Z.to_nat Order) None.
Proof.
  apply (mult_pred FP2 G2 Order (Some (tx twistGen, neg2 (ty twistGen)))); [reflexivity| |].
  - apply good2.
    apply (run_ok FP2 twistB FP2_field FP2_two FP2_three FP2_b dbl2 add2 dbl2_ok add2_ok G2 G2_on cert_g2 (1%N, (tx twistGen, ty twistGen)) [(1%N, (tx twistGen, ty twistGen))]).
    + apply good_1.
    + constructor; [apply good_1|constructor].
    + exact cert_g2_ok.
  - left. split; [reflexivity|]. split; [|reflexivity]. split; exists 1; reflexivity.
Qed.

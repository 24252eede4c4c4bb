(** Pair and PairingCheck in terms of multiples of the generators. *)
Require Import ZArith NArith Setoid Morphisms Ring Ring_theory Bool Lia Znumtheory List.
Require Import Verif.Cong Verif.Ext Verif.FqModel Verif.FqProofs Verif.Pocklington Verif.TowerModel Verif.TowerSpec Verif.TowerProofs Verif.FieldProofs Verif.FrobProofs
  Verif.FrobProofs2 Verif.FinalProofs Verif.CurveModel Verif.CurveSpec Verif.JacProofs Verif.AssocProofs Verif.CurveGroup Verif.CurveProofs
  Verif.OrderCheck Verif.OrderProofs Verif.LineProofs Verif.BilinProofs Verif.HomProofs Verif.PairField Verif.PairAlg Verif.PairModel Verif.MillerProofs Verif.MillerLoop.
Import ListNotations.
Open Scope Z_scope.
#[local] Existing Instance apoint_equiv.

(** The pairing of the generators. *)
Definition e_gen : FP12 := mpair (q1 1) 1.
Lemma e_pow (i j : nat) : mpair (q1 (Z.of_nat i)) (Z.of_nat j) =! cpow e_gen (N.of_nat i * N.of_nat j).
Proof. apply mpair_bilinear. Qed.
Lemma q1_eq_none i : apoint_eq (q1 i) None -> q1 i = None.
Proof. destruct (q1 i) as [[x y]|]; [intros []|reflexivity]. Qed.
Lemma mpair_none i j : q1 i = None -> mpair (q1 i) j =! c1.
Proof. intros H. rewrite H. reflexivity. Qed.
Lemma e_order : cpow e_gen (Z.to_N Order) =! c1.
Proof.
  assert (H := e_pow (Z.to_nat Order) 1). rewrite Z2Nat.id in H by discriminate. rewrite <- Z_N_nat, N2Nat.id in H. change (N.of_nat 1) with 1%N in H.
  rewrite N.mul_1_r in H. rewrite <- H. apply mpair_none. apply q1_none. exists 1. ring.
Qed.
Lemma e_mod n k : (exists d, n = k + Z.to_N Order * d)%N -> cpow e_gen n =! cpow e_gen k.
Proof.
  intros [d ->]. rewrite cpow_add, cpow_mul, e_order, cpow_one. rewrite (Rmul_comm (c_ring FP12)). apply (Rmul_1_l (c_ring FP12)).
Qed.
Lemma e_0 n : Z.of_N n ==[Order] 0 -> cpow e_gen n =! c1.
Proof.
  intros [d D]. transitivity (cpow e_gen 0); [|rewrite cpow_0; reflexivity]. apply e_mod. exists (Z.to_N d).
  assert (0 <= d) by (rewrite Z.sub_0_r in D; assert (0 < Order) by reflexivity; nia).
  apply N2Z.inj. rewrite N2Z.inj_add, N2Z.inj_mul. change (Z.of_N (Z.to_N Order)) with Order. rewrite (Z2N.id d) by assumption. change (Z.of_N 0) with 0. lia.
Qed.

(** t says z^2 when z is 1: what MakeAffine relies on when it returns early. *)
Definition t_ready (a : tpoint) : Prop := tz a = g2_one -> tt a = g2_one.

Lemma inf_cong1 n (p : apoint FP) : multiple G1 n p -> (p = None <-> Z.of_nat n ==[Order] 0).
Proof.
  intros M. apply q1_multiple in M. split; intros H.
  - subst p. apply q1_none, q1_eq_none. now symmetry.
  - apply q1_none in H. rewrite H in M. destruct p as [[x y]|]; [destruct M|reflexivity].
Qed.
Lemma inf_cong2 n (p : apoint FP2) : multiple G2 n p -> (p = None <-> Z.of_nat n ==[Order] 0).
Proof.
  intros M. apply q2_multiple in M. split; intros H.
  - subst p. apply q2_none. destruct (q2 (Z.of_nat n)) as [[x y]|]; [destruct M|reflexivity].
  - apply q2_none in H. rewrite H in M. destruct p as [[x y]|]; [destruct M|reflexivity].
Qed.
Lemma cong_mul_0_l a b : a ==[Order] 0 -> a * b ==[Order] 0. Proof. intros ->. reflexivity. Qed.
Lemma cong_mul_0_r a b : b ==[Order] 0 -> a * b ==[Order] 0. Proof. intros ->. apply cong_eq. ring. Qed.
Lemma e_mul_0 n m : Z.of_nat n ==[Order] 0 \/ Z.of_nat m ==[Order] 0 -> cpow e_gen (N.of_nat n * N.of_nat m) =! c1.
Proof.
  intros H. apply e_0. rewrite N2Z.inj_mul, !nat_N_Z. destruct H; [now apply cong_mul_0_l|now apply cong_mul_0_r].
Qed.

Lemma miller_mult s1 s2 (g1 : cpoint) (g2 : tpoint) p r n m : c_is g1 p -> t_is g2 r -> t_ready g2 -> multiple G1 n p -> multiple G2 m r ->
  p <> None -> r <> None -> E (miller s1 s2 g2 g1) =! cpow e_gen (N.of_nat n * N.of_nat m).
Proof.
  intros Hp Hr RD Mp Mr Np Nr. rewrite <- e_pow.
  apply (miller_ok s1 s2 g2 g1 _ _ p r); auto.
  - now apply q2_multiple.
  - intros H. apply Nr. now apply (inf_cong2 m).
  - now apply q1_multiple.
  - intros H. apply Np. now apply (inf_cong1 n).
Qed.
Theorem pair_value s1 s2 s3 (g1 : cpoint) (g2 : tpoint) p r n m : c_is g1 p -> t_is g2 r -> t_ready g2 -> multiple G1 n p -> multiple G2 m r ->
  pair s1 s2 s3 g1 g2 =[FP12]= cpow e_gen (N.of_nat n * N.of_nat m).
Proof.
  intros Hp Hr RD Mp Mr. unfold pair, optimal_ate. assert (I1 := inf_none _ _ Hp). assert (I2 := t_inf_none _ _ Hr).
  destruct (t_is_infinity g2) eqn:T; [|destruct (c_is_infinity g1) eqn:C]; cbn [orb].
  - symmetry. apply e_mul_0. right. apply (inf_cong2 m r Mr). now apply I2.
  - symmetry. apply e_mul_0. left. apply (inf_cong1 n p Mp). now apply I1.
  - rewrite E_final. apply (miller_mult s1 s2 g1 g2 p r); auto; intros H; [apply I1 in H|apply I2 in H]; congruence.
Qed.

(** ** PairingCheck *)
Definition pc_sum (ns ms : list nat) : N := fold_right (fun p acc => (N.of_nat (fst p) * N.of_nat (snd p) + acc)%N) 0%N (combine ns ms).
Lemma pairing_check_loop_ok s1 s2 (a : list cpoint) : forall (b : list tpoint) ns ms acc,
  Forall2 (fun g n => exists p, c_is g p /\ multiple G1 n p) a ns ->
  Forall2 (fun g m => exists p, t_is g p /\ t_ready g /\ multiple G2 m p) b ms ->
  (length a <= length b)%nat ->
  exists r, pairing_check_loop s1 s2 acc a b = Some r /\ E r =! E acc *! cpow e_gen (pc_sum ns ms).
Proof.
  induction a as [|g1 a IH]; intros b ns ms acc HA HB L.
  - inversion HA; subst. exists acc. split; [destruct b; reflexivity|]. change (pc_sum [] ms) with 0%N. rewrite cpow_0, (Rmul_comm (c_ring FP12)). symmetry. apply (Rmul_1_l (c_ring FP12)).
  - destruct b as [|g2 b]; [cbn in L; lia|]. inversion HA as [|? n ? ns' (p & Hp & Mp) HA']; subst. inversion HB as [|? m ? ms' (r & Hr & RD & Mr) HB']; subst.
    cbn [length] in L. cbn [pairing_check_loop].
    assert (PS : pc_sum (n :: ns') (m :: ms') = (N.of_nat n * N.of_nat m + pc_sum ns' ms')%N) by reflexivity.
    rewrite PS. assert (I1 := inf_none _ _ Hp). assert (I2 := t_inf_none _ _ Hr).
    assert (V : forall x : FP12, E x =! E acc *! cpow e_gen (N.of_nat n * N.of_nat m) ->
      exists r', pairing_check_loop s1 s2 x a b = Some r' /\ E r' =! E acc *! cpow e_gen (N.of_nat n * N.of_nat m + pc_sum ns' ms')).
    { intros x Hx. destruct (IH b ns' ms' x HA' HB' ltac:(lia)) as (r' & Er & Hr'). exists r'. split; [exact Er|].
      rewrite Hr', Hx, cpow_add. symmetry. apply (Rmul_assoc (c_ring FP12)). }
    assert (T1 : Z.of_nat n ==[Order] 0 \/ Z.of_nat m ==[Order] 0 -> E acc =! E acc *! cpow e_gen (N.of_nat n * N.of_nat m)).
    { intros H. rewrite (e_mul_0 n m H). rewrite (Rmul_comm (c_ring FP12)). symmetry. apply (Rmul_1_l (c_ring FP12)). }
    destruct (c_is_infinity g1) eqn:C; [|destruct (t_is_infinity g2) eqn:T]; cbn [orb].
    + apply V, T1. left. apply (inf_cong1 n p Mp). now apply I1.
    + apply V, T1. right. apply (inf_cong2 m r Mr). now apply I2.
    + apply V. rewrite (E_m _ _ (g12_mul_ok _ _)), E_mul. apply (cmul_morph FP12); [reflexivity|].
      apply (miller_mult s1 s2 g1 g2 p r); auto; intros H; [apply I1 in H|apply I2 in H]; congruence.
Qed.
Lemma pairing_check_short s1 s2 (a : list cpoint) : forall (b : list tpoint) acc, (length b < length a)%nat -> pairing_check_loop s1 s2 acc a b = None.
Proof.
  induction a as [|g1 a IH]; intros b acc L; [cbn in L; lia|]. destruct b as [|g2 b]; [reflexivity|]. cbn [length] in L.
  cbn [pairing_check_loop]. destruct (_ || _); apply IH; lia.
Qed.

(** If the pairing of the generators is not 1, its powers are 1 only for multiples of Order. *)
Lemma e_gen_iff n : ~ e_gen =! c1 -> (cpow e_gen n =! c1 <-> Z.of_N n ==[Order] 0).
Proof.
  intros NE. split; [|apply e_0]. intros H. destruct (cong_dec Order (Z.of_N n) 0) as [D|D]; auto. exfalso.
  assert (B : exists a b : nat, (Z.of_N n * Z.of_nat a = 1 + Order * Z.of_nat b)).
  { assert (RP : rel_prime (Z.of_N n) Order).
    { apply rel_prime_sym, prime_rel_prime; [exact prime_Order|]. intros K. apply D. now apply cong_0_iff. }
    destruct (rel_prime_bezout _ _ RP) as [u v UV].
    assert (0 < Order) by reflexivity. assert (0 < Z.of_N n).
    { destruct n; [|reflexivity]. exfalso. apply D. reflexivity. }
    assert (UM := Z.mod_pos_bound u Order ltac:(reflexivity)). assert (UD := Z.div_mod u Order ltac:(discriminate)).
    set (m := u mod Order) in *. set (k := u / Order) in *.
    exists (Z.to_nat m), (Z.to_nat (- v - k * Z.of_N n)). rewrite Z2Nat.id by lia.
    assert (EQ : Z.of_N n * m = 1 + Order * (- v - k * Z.of_N n)) by nia.
    rewrite Z2Nat.id; [exact EQ|]. assert (0 <= Z.of_N n * m) by nia.
    set (x := - v - k * Z.of_N n) in *. clearbody x. assert (1 < Order) by reflexivity. destruct (Z_lt_le_dec x 0); [|assumption].
    assert (Order * x <= - Order) by nia. lia. }
  destruct B as (a & b & AB). apply NE.
  assert (X : cpow e_gen (n * N.of_nat a) =! c1) by (rewrite cpow_mul, H; apply cpow_one).
  rewrite <- X. symmetry. transitivity (cpow e_gen 1); [|rewrite cpow_1; reflexivity]. apply e_mod. exists (N.of_nat b).
  apply N2Z.inj. rewrite N2Z.inj_add, !N2Z.inj_mul, !nat_N_Z. exact AB.
Qed.

(** C67-C69: the pairing, PairingCheck and the group GT. *)
Require Import ZArith NArith Znumtheory Setoid Morphisms Ring Ring_theory Bool List Lia.
Require Import Verif.Cong Verif.Ext Verif.FqModel Verif.Pocklington Verif.TowerModel Verif.TowerSpec Verif.TowerProofs Verif.FieldProofs
  Verif.FrobProofs Verif.FrobProofs2 Verif.FinalProofs Verif.PropsTower Verif.CurveModel Verif.CurveSpec Verif.JacProofs Verif.AssocProofs Verif.CurveGroup Verif.CurveProofs
  Verif.OrderProofs Verif.PointCount Verif.SerialProofs Verif.TwistCount Verif.PairField Verif.PairAlg Verif.PairModel Verif.PairProofs Verif.NdProofs Verif.PropsCurve.
Import ListNotations.
Open Scope Z_scope.
#[local] Existing Instance apoint_equiv.

(** ** C67 *)
(** There is one element e of order Order such that Pair of a multiple n of the generator of G1 and a multiple m of
    the generator of G2 is e^(n m), whatever coordinates represent them and whatever the scratch integers hold. *)
Theorem C67_value : exists e : FP12, cpow e (Z.to_N Order) =! c1 /\ ~ e =! c1 /\
  forall s1 s2 s3 (a : cpoint) (g : tpoint) p r n m, c_is a p -> t_is g r -> t_ready g -> multiple G1 n p -> multiple G2 m r ->
  pair s1 s2 s3 a g =[FP12]= cpow e (N.of_nat n * N.of_nat m).
Proof. exists e_gen. split; [exact e_order|]. split; [exact e_gen_nontrivial|]. exact pair_value. Qed.
Print Assumptions C67_value.
Lemma Order_nat_pos : (0 < Z.to_nat Order)%nat. Proof. assert (0 < Order) by reflexivity. lia. Qed.
(** Every point of the twist with Order times it at infinity is a multiple of the generator, in one way below Order. *)
Theorem C66_points_twist (p : apoint FP2) : in_G2 p ->
  exists k, 0 <= k < Order /\ multiple G2 (Z.to_nat k) p /\ forall j, 0 <= j < Order -> multiple G2 (Z.to_nat j) p -> j = k.
Proof.
  intros O. apply in_G2_multiple in O. apply (small_mult FP2 FP2_field FP2_two FP2_three twistB FP2_b G2 (Z.to_nat Order) p G2_on) in O;
    [|exact Order_nat_pos|exact order_G2].
  destruct O as (n & L & M). exists (Z.of_nat n).
  assert (L' : Z.of_nat n < Order) by (rewrite <- (Z2Nat.id Order) by discriminate; lia).
  split; [lia|]. rewrite Nat2Z.id. split; [exact M|]. intros j J N.
  assert (C := proj1 (mult_cong FP2 FP2_field FP2_two FP2_three twistB FP2_b G2 G2_on Order prime_Order order_G2 G2_nz _ _ _ _ N M) (reflexivity _)).
  rewrite Z2Nat.id in C by lia. apply (cong_canon_unique Order) in C; lia.
Qed.
Print Assumptions C66_points_twist.
Theorem C66_unmarshal_twist (st : tpoint) (rt : gfp2) (m : list Z) : Forall is_byte m -> (
  (exists e, g2_unmarshal st rt m = Some e) <-> exists k, 0 <= k < Order /\ m = g2_marshal (g2_base k)).
Proof.
  intros B. assert (U := g2_unmarshal_ok st rt m B). split.
  - intros [e E]. rewrite E in U. destruct U as (p & O & EN & C). destruct (C66_points_twist p O) as (k & K & M & _). exists k. split; [exact K|].
    destruct (base2 k) as (s & N & S); [lia|]. apply (enc2_fun _ _ p s EN (g2_marshal_ok _ _ S)). exact (mult_unique FP2 FP2_field G2 _ _ _ M N).
  - intros (k & K & ->). destruct (base2 k) as (s & N & S); [lia|].
    destruct (C64_round_trip st rt _ _ S) as (e & E & _); [|exists e; exact E]. apply in_G2_multiple. now exists (Z.to_nat k).
Qed.
Print Assumptions C66_unmarshal_twist.
Section Alg.
Variable R : cring.
Add Ring Rr : (c_ring R) (setoid (c_equiv R) (c_ext R)).
Lemma zero_l (a b : R) : a =! c1 *! c0 -> a *! b =! c0. Proof. intros ->. ring. Qed.
End Alg.
Lemma cong_n n m p r : multiple G1 n p -> multiple G1 m r -> (apoint_eq p r <-> Z.of_nat n ==[Order] Z.of_nat m).
Proof. intros M N. exact (mult_cong FP FP_field FP_two FP_three 3 FP_b G1 G1_on Order prime_Order order_G1 G1_nz _ _ _ _ M N). Qed.
Lemma pow_cong n m : cpow e_gen n =! cpow e_gen m <-> Z.of_N n ==[Order] Z.of_N m.
Proof.
  assert (W : forall n m, (n <= m)%N -> (cpow e_gen n =! cpow e_gen m <-> Z.of_N n ==[Order] Z.of_N m)).
  { clear n m. intros n m L. assert (D : exists d, m = (n + d)%N) by (exists (m - n)%N; lia). destruct D as [d ->].
    rewrite cpow_add. rewrite N2Z.inj_add.
    assert (X : cpow e_gen n =! cpow e_gen n *! cpow e_gen d <-> cpow e_gen d =! c1).
    { split; intros H.
      - assert (NZ : ~ cpow e_gen n =! c0).
        { intros Z0. assert (O := e_order). assert (K : cpow (cpow e_gen n) (Z.to_N Order) =! c1).
          { rewrite <- cpow_mul. rewrite N.mul_comm, cpow_mul, O, cpow_one. reflexivity. }
          rewrite Z0 in K. revert K. replace (Z.to_N Order) with (1 + (Z.to_N Order - 1))%N by reflexivity. rewrite cpow_add.
          intros K. apply (proj1 FP12_field). rewrite <- K. apply (zero_l FP12). symmetry. apply (Rmul_1_l (c_ring FP12)). }
        apply (f_cancel FP12 FP12_field (cpow e_gen n)); [exact NZ|]. rewrite <- H. symmetry. rewrite (Rmul_comm (c_ring FP12)). apply (Rmul_1_l (c_ring FP12)).
      - rewrite H. rewrite (Rmul_comm (c_ring FP12)). symmetry. apply (Rmul_1_l (c_ring FP12)). }
    rewrite X, (e_gen_iff d e_gen_nontrivial). split; intros H.
    - rewrite H. apply cong_eq. ring.
    - transitivity (Z.of_N n + Z.of_N d - Z.of_N n); [apply cong_eq; ring|]. rewrite <- H. apply cong_eq. ring. }
  destruct (N.le_ge_cases n m) as [L|L]; [now apply W|]. split; intros H; symmetry; apply (W m n L); now symmetry.
Qed.

(** The value does not depend on the scratch integers nor on the coordinates that represent the points. *)
Theorem C67_representation s1 s2 s3 u1 u2 u3 (a b : cpoint) (g h : tpoint) p p' r r' : c_is a p -> c_is b p' -> apoint_eq p p' ->
  t_is g r -> t_is h r' -> apoint_eq r r' -> t_ready g -> t_ready h -> in_G2 r ->
  gt_marshal (pair s1 s2 s3 a g) = gt_marshal (pair u1 u2 u3 b h).
Proof.
  intros A B P1 G H P2 RG RH I2. destruct (all_in_G p (c_is_on _ _ A)) as [n N]. apply in_G2_multiple in I2. destruct I2 as [m M].
  apply C54_marshal_injective. rewrite (pair_value s1 s2 s3 a g p r n m) by assumption. symmetry.
  apply (pair_value u1 u2 u3 b h p' r'); auto; [exact (mult_eq FP G1 n p p' N P1)|exact (mult_eq FP2 G2 m r r' M P2)].
Qed.
Print Assumptions C67_representation.
(** Bilinear: G1.Add and G2.Add in an argument become GT.Add of the values. *)
Theorem C67_add s1 s2 s3 (a b : cpoint) (g h : tpoint) (rt : gfp2) p p' r r' : c_is a p -> c_is b p' -> t_is g r -> t_is h r' ->
  in_G2 r -> in_G2 r' -> t_ready g -> t_ready h ->
  gt_marshal (pair s1 s2 s3 (c_add a b) g) = gt_marshal (gt_add (pair s1 s2 s3 a g) (pair s1 s2 s3 b g)) /\
  (t_ready (t_add rt g h) -> gt_marshal (pair s1 s2 s3 a (t_add rt g h)) = gt_marshal (gt_add (pair s1 s2 s3 a g) (pair s1 s2 s3 a h))).
Proof.
  intros A B G H I1 I2 RG RH. destruct (all_in_G p (c_is_on _ _ A)) as [n N]. destruct (all_in_G p' (c_is_on _ _ B)) as [n' N'].
  apply in_G2_multiple in I1, I2. destruct I1 as [m M]. destruct I2 as [m' M'].
  split; [|intros RS]; apply C54_marshal_injective; unfold gt_add; rewrite (g12_mul_ok _ _).
  - destruct (c_add_ok _ _ _ _ A B) as (v & V & C). assert (MV := mult_add FP FP_field FP_two FP_three 3 FP_b G1 _ _ p p' v G1_on N N' V).
    rewrite (pair_value _ _ _ _ _ _ _ _ _ C G RG MV M). rewrite (pair_value _ _ _ _ _ _ _ _ _ A G RG N M), (pair_value _ _ _ _ _ _ _ _ _ B G RG N' M).
    rewrite <- cpow_add. rewrite Nnat.Nat2N.inj_add, N.mul_add_distr_r. reflexivity.
  - destruct (t_add_ok rt _ _ _ _ G H) as (v & V & C). assert (MV := mult_add FP2 FP2_field FP2_two FP2_three twistB FP2_b G2 _ _ r r' v G2_on M M' V).
    rewrite (pair_value _ _ _ _ _ _ _ _ _ A C RS N MV). rewrite (pair_value _ _ _ _ _ _ _ _ _ A G RG N M), (pair_value _ _ _ _ _ _ _ _ _ A H RH N M').
    rewrite <- cpow_add. rewrite Nnat.Nat2N.inj_add, N.mul_add_distr_l. reflexivity.
Qed.
Print Assumptions C67_add.
(** A factor can be moved between the two arguments and out of the pairing. *)
Theorem C67_scalar s1 s2 s3 (a : cpoint) (g : tpoint) (k : Z) p r : 0 <= k -> c_is a p -> t_is g r -> in_G2 r -> t_ready g ->
  gt_marshal (pair s1 s2 s3 (g1_mul a k) g) = gt_marshal (gt_scalar_mult (pair s1 s2 s3 a g) k) /\
  (t_ready (g2_smul g k) -> gt_marshal (pair s1 s2 s3 a (g2_smul g k)) = gt_marshal (gt_scalar_mult (pair s1 s2 s3 a g) k)).
Proof.
  intros K A G I2 RG. destruct (all_in_G p (c_is_on _ _ A)) as [n N]. apply in_G2_multiple in I2. destruct I2 as [m M].
  assert (V : gt_scalar_mult (pair s1 s2 s3 a g) k =[FP12]= cpow e_gen (N.of_nat n * N.of_nat m * Z.to_N k)).
  { unfold gt_scalar_mult. rewrite (g12_exp_ok _ k K), cpow_mul. apply (cpow_morph FP12); [|reflexivity]. exact (pair_value _ _ _ _ _ _ _ _ _ A G RG N M). }
  assert (EN : forall k, N.of_nat (Z.to_nat k) = Z.to_N k) by (intros; now rewrite <- Z_N_nat, N2Nat.id).
  split; [|intros RS]; apply C54_marshal_injective; rewrite V.
  - destruct (c_mul_ok cscratch _ _ k K A) as (v & W & C). assert (MV := mult_mul FP FP_field FP_two FP_three 3 FP_b G1 _ _ p v G1_on N W).
    rewrite (pair_value _ _ _ _ _ _ _ _ _ C G RG MV M). rewrite Nnat.Nat2N.inj_mul, EN.
    replace (Z.to_N k * N.of_nat n * N.of_nat m)%N with (N.of_nat n * N.of_nat m * Z.to_N k)%N by lia. reflexivity.
  - destruct (t_mul_ok tscratch g2_zero _ _ k K G) as (v & W & C). assert (MV := mult_mul FP2 FP2_field FP2_two FP2_three twistB FP2_b G2 _ _ r v G2_on M W).
    rewrite (pair_value _ _ _ _ _ _ _ _ _ A C RS N MV). rewrite Nnat.Nat2N.inj_mul, EN.
    replace (N.of_nat n * (Z.to_N k * N.of_nat m))%N with (N.of_nat n * N.of_nat m * Z.to_N k)%N by lia. reflexivity.
Qed.
Print Assumptions C67_scalar.
Lemma prod_zero n m : Z.of_N (N.of_nat n * N.of_nat m) ==[Order] 0 <-> Z.of_nat n ==[Order] 0 \/ Z.of_nat m ==[Order] 0.
Proof.
  rewrite N2Z.inj_mul, !nat_N_Z. split.
  - apply (cong_integral Order prime_Order).
  - intros [E|E]; [now apply cong_mul_0_l|now apply cong_mul_0_r].
Qed.
(** Not degenerate: the value is one exactly if one of the points is at infinity; with a fixed second argument other
    than infinity different first arguments have different values. *)
Theorem C67_nondegenerate s1 s2 s3 (a b : cpoint) (g : tpoint) p p' r : c_is a p -> c_is b p' -> t_is g r -> in_G2 r -> t_ready g ->
  (gt_marshal (pair s1 s2 s3 a g) = gt_marshal one_gt <-> p = None \/ r = None) /\
  (r <> None -> (gt_marshal (pair s1 s2 s3 a g) = gt_marshal (pair s1 s2 s3 b g) <-> apoint_eq p p')).
Proof.
  intros A B G I2 RG. destruct (all_in_G p (c_is_on _ _ A)) as [n N]. destruct (all_in_G p' (c_is_on _ _ B)) as [n' N'].
  apply in_G2_multiple in I2. destruct I2 as [m M]. assert (VA := pair_value s1 s2 s3 _ _ _ _ _ _ A G RG N M). assert (VB := pair_value s1 s2 s3 _ _ _ _ _ _ B G RG N' M).
  split; [|intros NR]; rewrite C54_marshal_injective, VA.
  - change (one_gt : FP12) with (c1 : FP12). rewrite (e_gen_iff _ e_gen_nontrivial), prod_zero, (inf_cong1 n p N), (inf_cong2 m r M). reflexivity.
  - rewrite VB, pow_cong, (cong_n n n' p p' N N'). rewrite !N2Z.inj_mul, !nat_N_Z. split.
    + intros E. assert (Z0 : Z.of_nat m * (Z.of_nat n - Z.of_nat n') ==[Order] 0).
      { transitivity (Z.of_nat n * Z.of_nat m - Z.of_nat n' * Z.of_nat m); [apply cong_eq; ring|]. rewrite E. apply cong_eq. ring. }
      apply (cong_integral Order prime_Order) in Z0. destruct Z0 as [Z0|Z0]; [exfalso; apply NR; now apply (inf_cong2 m r M)|now apply cong_sub_0].
    + intros ->. reflexivity.
Qed.
Print Assumptions C67_nondegenerate.
(** With points as Unmarshal returns them no hypothesis is left: any accepted pair of strings stands for one pair of
    residues j, k, and the pairing is one exactly if j k is zero modulo Order. *)
Lemma unmarshal_ready st rt m e : g2_unmarshal st rt m = Some e -> t_ready e.
Proof.
  unfold g2_unmarshal. cbv zeta. destruct (negb _); [discriminate|]. destruct (P <=? _); [discriminate|]. destruct (P <=? _); [discriminate|].
  destruct (P <=? _); [discriminate|]. destruct (P <=? _); [discriminate|]. destruct (_ && _).
  - intros E. injection E as <-. intros X. discriminate X.
  - destruct (t_on_curve _ _ _); [|discriminate]. intros E. injection E as <-. intros _. reflexivity.
Qed.
Theorem C67_unmarshalled st rt s1 s2 s3 (m1 m2 : list Z) (a : cpoint) (g : tpoint) : Forall is_byte m1 -> Forall is_byte m2 ->
  g1_unmarshal m1 = Some a -> g2_unmarshal st rt m2 = Some g ->
  exists j k, 0 <= j < Order /\ 0 <= k < Order /\ m1 = g1_marshal (g1_base j) /\ m2 = g2_marshal (g2_base k) /\
  (gt_marshal (pair s1 s2 s3 a g) = gt_marshal one_gt <-> j * k ==[Order] 0) /\
  forall u1 u2 u3, gt_marshal (pair s1 s2 s3 a g) = gt_marshal (gt_scalar_mult (pair u1 u2 u3 curveGen twistGen) (j * k)).
Proof.
  intros F1 F2 U1 U2. assert (X1 := g1_unmarshal_ok m1 F1). rewrite U1 in X1. destruct X1 as (p & O1 & EN1 & C1).
  assert (X2 := g2_unmarshal_ok st rt m2 F2). rewrite U2 in X2. destruct X2 as (r & O2 & EN2 & C2).
  destruct (C66_points p O1) as (j & J & M1 & _). destruct (C66_points_twist r O2) as (k & K & M2 & _). exists j, k.
  split; [exact J|]. split; [exact K|]. assert (RG := unmarshal_ready _ _ _ _ U2).
  split. { destruct (base1 j) as (s & N & S); [lia|]. apply (enc1_fun _ _ p s EN1 (g1_marshal_ok _ _ S)). exact (mult_unique FP FP_field G1 _ _ _ M1 N). }
  split. { destruct (base2 k) as (s & N & S); [lia|]. apply (enc2_fun _ _ r s EN2 (g2_marshal_ok _ _ S)). exact (mult_unique FP2 FP2_field G2 _ _ _ M2 N). }
  assert (V := pair_value s1 s2 s3 _ _ _ _ _ _ C1 C2 RG M1 M2). split.
  - rewrite C54_marshal_injective, V. change (one_gt : FP12) with (c1 : FP12). rewrite (e_gen_iff _ e_gen_nontrivial).
    rewrite N2Z.inj_mul, !nat_N_Z, !Z2Nat.id by lia. reflexivity.
  - intros u1 u2 u3. apply C54_marshal_injective. rewrite V. unfold gt_scalar_mult. rewrite (g12_exp_ok _ (j * k)) by nia.
    assert (VG : pair u1 u2 u3 curveGen twistGen =[FP12]= e_gen).
    { assert (X := pair_value u1 u2 u3 curveGen twistGen G1 G2 1 1 gen1 gen2 (fun _ => eq_refl) (mult_1 FP G1) (mult_1 FP2 G2)).
      change (N.of_nat 1 * N.of_nat 1)%N with 1%N in X. rewrite X. apply (cpow_1 FP12). }
    assert (EN : forall k, N.of_nat (Z.to_nat k) = Z.to_N k) by (intros; now rewrite <- Z_N_nat, N2Nat.id). rewrite !EN.
    rewrite Z2N.inj_mul by lia. apply (cpow_morph FP12); [|reflexivity]. now symmetry.
Qed.
Print Assumptions C67_unmarshalled.
Lemma gen2_ready : t_ready twistGen. Proof. intros _. reflexivity. Qed.
Example C67_case : c_is curveGen G1 /\ t_is twistGen G2 /\ in_G2 G2 /\ t_ready twistGen /\
  gt_marshal (pair 0 0 0 curveGen twistGen) <> gt_marshal one_gt.
Proof.
  split; [exact gen1|]. split; [exact gen2|]. split; [exact G2_in|]. split; [exact gen2_ready|].
  intros H. apply (proj1 (C67_nondegenerate 0 0 0 curveGen curveGen twistGen G1 G1 G2 gen1 gen1 gen2 G2_in gen2_ready)) in H. destruct H; discriminate.
Qed.

(** ** C68: PairingCheck. *)
(** The residues a list of points stands for. *)
Definition points1 (a : list cpoint) (ns : list nat) : Prop := Forall2 (fun g n => exists p, c_is g p /\ multiple G1 n p) a ns.
Definition points2 (b : list tpoint) (ms : list nat) : Prop := Forall2 (fun g m => exists p, t_is g p /\ t_ready g /\ multiple G2 m p) b ms.
Fixpoint inner (ns ms : list nat) : Z :=
  match ns, ms with n :: ns, m :: ms => Z.of_nat n * Z.of_nat m + inner ns ms | _, _ => 0 end.
Lemma inner_sum ns : forall ms, Z.of_N (pc_sum ns ms) = inner ns ms.
Proof.
  induction ns as [|n ns IH]; intros ms; [reflexivity|]. destruct ms as [|m ms]; [reflexivity|].
  change (pc_sum (n :: ns) (m :: ms)) with (N.of_nat n * N.of_nat m + pc_sum ns ms)%N. rewrite N2Z.inj_add, IH, N2Z.inj_mul, !nat_N_Z. reflexivity.
Qed.
(** It panics if the second list is shorter, ignores what the second list has beyond the first, and otherwise says
    whether the sum of the products of the factors is zero modulo Order. *)
Theorem C68_check s1 s2 s3 (a : list cpoint) (b : list tpoint) (ns ms : list nat) : points1 a ns -> points2 b ms ->
  match pairing_check s1 s2 s3 a b with
  | None => (length b < length a)%nat
  | Some v => (length a <= length b)%nat /\ (v = true <-> inner ns ms ==[Order] 0)
  end.
Proof.
  intros A B. unfold pairing_check. destruct (le_lt_dec (length a) (length b)) as [L|L].
  2:{ rewrite (pairing_check_short s1 s2 a b g12_one L). exact L. }
  destruct (pairing_check_loop_ok s1 s2 a b ns ms g12_one A B L) as (r & E & V). rewrite E. split; [exact L|].
  assert (W : final_exponentiation s3 r =[FP12]= cpow e_gen (pc_sum ns ms)).
  { rewrite E_final, V. transitivity (c1 *! cpow e_gen (pc_sum ns ms)); [|apply (Rmul_1_l (c_ring FP12))].
    apply (cmul_morph FP12); [|reflexivity]. unfold PairField.E. change (g12_one : FP12) with (c1 : FP12). apply cpow_one. }
  rewrite (proj2 (C50_decide _)), W, (e_gen_iff _ e_gen_nontrivial), inner_sum. reflexivity.
Qed.
Print Assumptions C68_check.
(** The points P, -P with Q, Q; and P, P with Q, Q. *)
Lemma neg1_ok : c_is (c_negative curveGen) (opposite G1).
Proof. exact (c_negative_ok _ _ gen1). Qed.
Example C68_case : pairing_check 0 0 0 [curveGen; c_negative curveGen] [twistGen; twistGen] = Some true /\
  pairing_check 0 0 0 [curveGen; curveGen] [twistGen; twistGen] = Some false /\ pairing_check 0 0 0 [curveGen; curveGen] [twistGen] = None.
Proof.
  assert (P2 : points2 [twistGen; twistGen] [1%nat; 1%nat]).
  { repeat constructor; exists G2; (split; [exact gen2|]; split; [exact gen2_ready|exact (mult_1 FP2 G2)]). }
  assert (Q1 : exists p, c_is curveGen p /\ multiple G1 1 p) by (exists G1; split; [exact gen1|exact (mult_1 FP G1)]).
  split; [|split].
  - destruct (all_in_G _ (c_is_on _ _ neg1_ok)) as [n N].
    assert (X := C68_check 0 0 0 [curveGen; c_negative curveGen] [twistGen; twistGen] [1%nat; n] [1%nat; 1%nat]
      ltac:(constructor; [exact Q1|]; constructor; [|constructor]; exists (opposite G1); split; [exact neg1_ok|exact N]) P2).
    destruct (pairing_check _ _ _ _ _) as [v|]; [|cbn in X; lia]. destruct X as [_ X]. f_equal. apply X.
    assert (Z0 := mult_add FP FP_field FP_two FP_three 3 FP_b G1 1 n G1 (opposite G1) None G1_on (mult_1 FP G1) N (sum_opp FP G1)).
    apply (inf_cong1 (1 + n) None) in Z0. rewrite <- (proj1 Z0 eq_refl). apply cong_eq. cbn [inner]. lia.
  - assert (X := C68_check 0 0 0 [curveGen; curveGen] [twistGen; twistGen] [1%nat; 1%nat] [1%nat; 1%nat]
      ltac:(constructor; [exact Q1|]; constructor; [exact Q1|constructor]) P2).
    destruct (pairing_check _ _ _ _ _) as [v|]; [|cbn in X; lia]. destruct X as [_ X]. destruct v; [|reflexivity]. exfalso.
    assert (H := proj1 X eq_refl). change (2 ==[Order] 0) in H. apply cong_0_iff in H. apply Z.divide_pos_le in H; [|reflexivity]. revert H. apply Z.lt_nge. reflexivity.
  - assert (X := C68_check 0 0 0 [curveGen; curveGen] [twistGen] [1%nat; 1%nat] [1%nat]
      ltac:(constructor; [exact Q1|]; constructor; [exact Q1|constructor]) ltac:(inversion P2; assumption)).
    destruct (pairing_check _ _ _ _ _) as [v|]; [|reflexivity]. destruct X as [X _]. cbn in X. lia.
Qed.

(** ** C69: the group GT. *)
Definition pairing_of (x : gfp12) : Prop := exists s1 s2 s3 a g p r, c_is a p /\ t_is g r /\ in_G2 r /\ t_ready g /\ x = pair s1 s2 s3 a g.
Lemma pairing_pow x : pairing_of x -> exists n, (x : FP12) =! cpow e_gen n.
Proof.
  intros (s1 & s2 & s3 & a & g & p & r & A & G & I2 & RG & ->). destruct (all_in_G p (c_is_on _ _ A)) as [n N]. apply in_G2_multiple in I2. destruct I2 as [m M].
  exists (N.of_nat n * N.of_nat m)%N. exact (pair_value _ _ _ _ _ _ _ _ _ A G RG N M).
Qed.
Lemma pow_nz n : ~ cpow e_gen n =! c0.
Proof.
  intros Z0. assert (K : cpow (cpow e_gen n) (Z.to_N Order) =! c1).
  { rewrite <- cpow_mul. rewrite N.mul_comm, cpow_mul, e_order, cpow_one. reflexivity. }
  rewrite Z0 in K. rewrite (cpow_zero FP12) in K by discriminate. apply (proj1 FP12_field). now symmetry.
Qed.
(** On values of the pairing Add is a group with OneGT as neutral element and Neg as inverse, and ScalarMult depends
    on the factor modulo Order only. *)
Theorem C69_group (x y z : gfp12) (st j k : Z) : pairing_of x -> pairing_of y -> 0 <= j -> 0 <= k ->
  gt_marshal (gt_add x y) = gt_marshal (gt_add y x) /\
  gt_marshal (gt_add x (gt_add y z)) = gt_marshal (gt_add (gt_add x y) z) /\
  gt_marshal (gt_add x one_gt) = gt_marshal x /\
  gt_marshal (gt_add x (gt_neg st x)) = gt_marshal one_gt /\
  gt_marshal (gt_scalar_mult x (j + k)) = gt_marshal (gt_add (gt_scalar_mult x j) (gt_scalar_mult x k)) /\
  gt_marshal (gt_scalar_mult x (j * k)) = gt_marshal (gt_scalar_mult (gt_scalar_mult x j) k) /\
  gt_marshal (gt_scalar_mult (gt_add x y) k) = gt_marshal (gt_add (gt_scalar_mult x k) (gt_scalar_mult y k)) /\
  (gt_marshal x <> gt_marshal one_gt -> (gt_marshal (gt_scalar_mult x j) = gt_marshal (gt_scalar_mult x k) <-> j ==[Order] k)).
Proof.
  intros X Y J K. destruct (pairing_pow x X) as [n N]. destruct (pairing_pow y Y) as [m M].
  rewrite !C54_marshal_injective. unfold gt_add, gt_scalar_mult, gt_neg. change (one_gt : FP12) with (c1 : FP12).
  split; [rewrite !(g12_mul_ok _ _); apply (Rmul_comm (c_ring FP12))|].
  split; [rewrite !(g12_mul_ok _ _); apply (Rmul_assoc (c_ring FP12))|].
  split; [rewrite (g12_mul_ok _ _), (Rmul_comm (c_ring FP12)); apply (Rmul_1_l (c_ring FP12))|].
  split; [rewrite (g12_mul_ok _ _); apply g12_invert_ok; rewrite N; apply pow_nz|].
  split; [rewrite (g12_mul_ok _ _), !g12_exp_ok by lia; rewrite Z2N.inj_add by lia; apply cpow_add|].
  split; [rewrite (g12_exp_ok _ (j * k)) by nia; rewrite (g12_exp_ok _ k K); rewrite Z2N.inj_mul by lia; rewrite cpow_mul;
    apply (cpow_morph FP12); [symmetry; exact (g12_exp_ok x j J)|reflexivity]|].
  split.
  - rewrite (g12_exp_ok _ k K), (g12_mul_ok (g12_exp x k) _), (g12_exp_ok x k K), (g12_exp_ok y k K). rewrite <- cpow_distr. apply (cpow_morph FP12); [apply g12_mul_ok|reflexivity].
  - intros NX. rewrite !g12_exp_ok by lia. rewrite N. rewrite <- !cpow_mul, pow_cong, !N2Z.inj_mul, !Z2N.id by lia.
    assert (NZ : ~ Z.of_N n ==[Order] 0) by (intros Z0; apply NX; rewrite N; now apply e_0).
    split; [|intros ->; reflexivity]. intros E. exact (cong_cancel Order prime_Order (Z.of_N n) j k NZ E).
Qed.
Print Assumptions C69_group.
Lemma gen_pairing : pairing_of (pair 0 0 0 curveGen twistGen).
Proof.
  exists 0, 0, 0, curveGen, twistGen, G1, G2. split; [exact gen1|]. split; [exact gen2|]. split; [exact G2_in|]. split; [exact gen2_ready|reflexivity].
Qed.
Lemma gen_value : (pair 0 0 0 curveGen twistGen : FP12) =! e_gen.
Proof.
  assert (X := pair_value 0 0 0 curveGen twistGen G1 G2 1 1 gen1 gen2 gen2_ready (mult_1 FP G1) (mult_1 FP2 G2)).
  change (N.of_nat 1 * N.of_nat 1)%N with 1%N in X. rewrite X. apply (cpow_1 FP12).
Qed.
(** ZeroGT, "the zero element of the group GT", is not neutral: adding it gives it back. *)
Theorem C69_zero_refuted : exists x, pairing_of x /\ gt_marshal (gt_add x zero_gt) <> gt_marshal x.
Proof.
  exists (pair 0 0 0 curveGen twistGen). split; [exact gen_pairing|]. rewrite C54_marshal_injective. unfold gt_add. rewrite (g12_mul_ok _ _).
  intros H. apply (pow_nz 1). rewrite (cpow_1 FP12), <- gen_value, <- H. change (zero_gt : FP12) with (c0 : FP12).
  rewrite (Rmul_comm (c_ring FP12)). apply (zero_l FP12). symmetry. apply (Rmul_1_l (c_ring FP12)).
Qed.
Print Assumptions C69_zero_refuted.
(** ScalarMult with a negative factor is not the multiple of the inverse: -1 times x is x. *)
Theorem C69_negative_refuted : exists x, pairing_of x /\ forall st, gt_marshal (gt_scalar_mult x (-1)) <> gt_marshal (gt_neg st x).
Proof.
  exists (pair 0 0 0 curveGen twistGen). split; [exact gen_pairing|]. intros st. rewrite C54_marshal_injective.
  set (x := pair 0 0 0 curveGen twistGen : FP12). assert (G : x =! e_gen) by exact gen_value. clearbody x.
  assert (X : gt_scalar_mult x (-1) =[FP12]= x).
  { change (gt_scalar_mult x (-1)) with (g12_mul (g12_square g12_one) x). rewrite (g12_mul_ok _ _).
    etransitivity; [|apply (Rmul_1_l (c_ring FP12))]. apply (cmul_morph FP12); [|reflexivity]. rewrite (g12_square_ok _). apply (Rmul_1_l (c_ring FP12)). }
  rewrite X. intros H. assert (NZ : ~ x =! c0) by (rewrite G, <- (cpow_1 FP12 e_gen); apply pow_nz).
  assert (V := g12_invert_ok st x NZ). unfold gt_neg in H. rewrite <- H in V. rewrite G, <- cpow_2 in V.
  apply (e_gen_iff 2 e_gen_nontrivial) in V. change (2 ==[Order] 0) in V. apply cong_0_iff in V. apply Z.divide_pos_le in V; [|reflexivity]. revert V. apply Z.lt_nge. reflexivity.
Qed.
Print Assumptions C69_negative_refuted.
Example C69_case : pairing_of (pair 0 0 0 curveGen twistGen) /\ gt_marshal (pair 0 0 0 curveGen twistGen) <> gt_marshal one_gt.
Proof. split; [exact gen_pairing|]. rewrite C54_marshal_injective, gen_value. exact e_gen_nontrivial. Qed.

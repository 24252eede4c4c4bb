(** The operations of package bn256 as the groups that the proof system is run with, related to exponents. *)
Require Import ZArith NArith Znumtheory Setoid Morphisms Ring Ring_theory Bool List Lia.
Require Import Verif.SnarkModel Verif.SnarkSpec Verif.SnarkSim.
Require Import Verif.Cong Verif.Ext Verif.FqModel Verif.Pocklington Verif.TowerModel Verif.TowerSpec Verif.TowerProofs Verif.FieldProofs
  Verif.FrobProofs Verif.FrobProofs2 Verif.FinalProofs Verif.PropsTower Verif.CurveModel Verif.CurveSpec Verif.JacProofs Verif.AssocProofs Verif.CurveGroup Verif.CurveProofs
  Verif.OrderProofs Verif.PointCount Verif.SerialProofs Verif.TwistCount Verif.PairField Verif.PairAlg Verif.PairModel Verif.PairProofs Verif.NdProofs Verif.PropsCurve Verif.PropsPair.
Import ListNotations.
Open Scope Z_scope.
#[local] Existing Instance apoint_equiv.

(** pairing/bn256.go: G1.ScalarBaseMult, ScalarMult, Add with the receiver as first argument, Add with a new receiver, X;
    the same for G2; GT.ScalarMult, Add; Pair; GT.Marshal.  [sc] is what the scratch integers hold that Pair takes from
    the pool when it is called with these arguments. *)
Definition bn256 (sc : cpoint -> tpoint -> Z * Z * Z) : groups := {|
  SnarkModel.G1 := cpoint; SnarkModel.G2 := tpoint; SnarkModel.GT := gfp12;
  SnarkModel.base1 := g1_base; smul1 := g1_mul; acc1 := c_add_inplace; add1 := c_add; xcoord := g1_x;
  SnarkModel.base2 := g2_base; smul2 := g2_smul; acc2 := t_add_inplace; add2 := t_add g2_zero;
  smulT := gt_scalar_mult; addT := gt_add;
  SnarkModel.pair := fun a g => PairModel.pair (fst (fst (sc a g))) (snd (fst (sc a g))) (snd (sc a g)) a g;
  marshalT := gt_marshal |}.

(** X coordinate of a multiple of the generator. *)
Definition gen_x (n : Z) : Z := g1_x (g1_base n).

(** n is the exponent of the group element. *)
Definition at1 (a : cpoint) (n : Z) : Prop := 0 <= n < Order /\ exists p, c_is a p /\ multiple G1 (Z.to_nat n) p.
Definition at2 (a : tpoint) (n : Z) : Prop := 0 <= n < Order /\ exists p, t_is a p /\ multiple G2 (Z.to_nat n) p.
Definition atT (a : gfp12) (n : Z) : Prop := 0 <= n < Order /\ (a : FP12) =[FP12]= cpow e_gen (Z.to_N n).
(** No point other than infinity is added in place to an equal point. *)
Definition apart1 (a b : cpoint) : Prop := forall p r, c_is a p -> c_is b r -> apoint_eq p r -> p = None.
Definition apart2 (a b : tpoint) : Prop := forall p r, t_is a p -> t_is b r -> apoint_eq p r -> p = None.

Lemma Order_1 : 1 < Order. Proof. reflexivity. Qed.
Lemma mod_Order z : 0 <= z mod Order < Order. Proof. apply Z.mod_pos_bound. assert (H := Order_1). lia. Qed.
Lemma norm1 a p n z : c_is a p -> multiple G1 n p -> Z.of_nat n ==[Order] z -> at1 a (z mod Order).
Proof.
  intros A M E. assert (B := mod_Order z). split; [exact B|]. exists p. split; [exact A|].
  destruct (mult_ex FP FP_field FP_two 3 G1 (Z.to_nat (z mod Order)) G1_on) as [t T]. apply (mult_eq FP G1 _ t p T). symmetry.
  apply (cong_n _ _ _ _ M T). rewrite Z2Nat.id by lia. rewrite cong_mod. exact E.
Qed.
Lemma cong_n2 n m p r : multiple G2 n p -> multiple G2 m r -> (apoint_eq p r <-> Z.of_nat n ==[Order] Z.of_nat m).
Proof. intros M N. exact (mult_cong FP2 FP2_field FP2_two FP2_three twistB FP2_b G2 G2_on Order prime_Order order_G2 G2_nz _ _ _ _ M N). Qed.
Lemma norm2 a p n z : t_is a p -> multiple G2 n p -> Z.of_nat n ==[Order] z -> at2 a (z mod Order).
Proof.
  intros A M E. assert (B := mod_Order z). split; [exact B|]. exists p. split; [exact A|].
  destruct (mult_ex FP2 FP2_field FP2_two twistB G2 (Z.to_nat (z mod Order)) G2_on) as [t T]. apply (mult_eq FP2 G2 _ t p T). symmetry.
  apply (cong_n2 _ _ _ _ M T). rewrite Z2Nat.id by lia. rewrite cong_mod. exact E.
Qed.
Lemma normT (a : gfp12) n z : (a : FP12) =[FP12]= cpow e_gen n -> Z.of_N n ==[Order] z -> atT a (z mod Order).
Proof.
  intros A E. assert (B := mod_Order z). split; [exact B|]. etransitivity; [exact A|]. apply pow_cong. rewrite Z2N.id by lia. rewrite cong_mod. exact E.
Qed.
Lemma N_nat n : N.of_nat (Z.to_nat n) = Z.to_N n. Proof. now rewrite <- Z_N_nat, N2Nat.id. Qed.

Lemma base1_at k : 0 <= k -> at1 (g1_base k) (k mod Order).
Proof. intros K. destruct (PropsCurve.base1 k K) as (s & M & C). apply (norm1 _ s (Z.to_nat k)); auto. rewrite Z2Nat.id by lia. reflexivity. Qed.
Lemma base2_at k : 0 <= k -> at2 (g2_base k) (k mod Order).
Proof. intros K. destruct (PropsCurve.base2 k K) as (s & M & C). apply (norm2 _ s (Z.to_nat k)); auto. rewrite Z2Nat.id by lia. reflexivity. Qed.
Lemma smul1_at a n k : at1 a n -> 0 <= k -> at1 (g1_mul a k) ((n * k) mod Order).
Proof.
  intros (B & p & A & M) K. destruct (c_mul_ok cscratch _ _ k K A) as (v & W & C). assert (MV := mult_mul FP FP_field FP_two FP_three 3 FP_b G1 _ _ p v G1_on M W).
  apply (norm1 _ v _ _ C MV). rewrite Nat2Z.inj_mul, !Z2Nat.id by lia. apply cong_eq. ring.
Qed.
Lemma smul2_at a n k : at2 a n -> 0 <= k -> at2 (g2_smul a k) ((n * k) mod Order).
Proof.
  intros (B & p & A & M) K. destruct (t_mul_ok tscratch g2_zero _ _ k K A) as (v & W & C). assert (MV := mult_mul FP2 FP2_field FP2_two FP2_three twistB FP2_b G2 _ _ p v G2_on M W).
  apply (norm2 _ v _ _ C MV). rewrite Nat2Z.inj_mul, !Z2Nat.id by lia. apply cong_eq. ring.
Qed.
Lemma add1_at a b n m : at1 a n -> at1 b m -> at1 (c_add a b) ((n + m) mod Order).
Proof.
  intros (B & p & A & M) (B' & p' & A' & M'). destruct (c_add_ok _ _ _ _ A A') as (v & V & C).
  assert (MV := mult_add FP FP_field FP_two FP_three 3 FP_b G1 _ _ p p' v G1_on M M' V).
  apply (norm1 _ v _ _ C MV). rewrite Nat2Z.inj_add, !Z2Nat.id by lia. reflexivity.
Qed.
Lemma add2_at rt a b n m : at2 a n -> at2 b m -> at2 (t_add rt a b) ((n + m) mod Order).
Proof.
  intros (B & p & A & M) (B' & p' & A' & M'). destruct (t_add_ok rt _ _ _ _ A A') as (v & V & C).
  assert (MV := mult_add FP2 FP2_field FP2_two FP2_three twistB FP2_b G2 _ _ p p' v G2_on M M' V).
  apply (norm2 _ v _ _ C MV). rewrite Nat2Z.inj_add, !Z2Nat.id by lia. reflexivity.
Qed.
Lemma c_is_fun a p r : c_is a p -> c_is a r -> apoint_eq p r.
Proof. intros A B. exact (proj1 (marshal1_eq a a p r A B) eq_refl). Qed.
Lemma t_is_fun a p r : t_is a p -> t_is a r -> apoint_eq p r.
Proof. intros A B. exact (proj1 (marshal2_eq a a p r A B) eq_refl). Qed.
(** Equal exponents: equal points. *)
Lemma eq1_at a b n m p r : at1 a n -> at1 b m -> c_is a p -> c_is b r -> (apoint_eq p r <-> n = m).
Proof.
  intros (B & p1 & A & M) (B' & p2 & A' & M') Hp Hr. assert (E1 := c_is_fun _ _ _ A Hp). assert (E2 := c_is_fun _ _ _ A' Hr).
  assert (C := cong_n _ _ _ _ M M'). rewrite !Z2Nat.id in C by lia. split.
  - intros E. apply (cong_canon_unique Order); [lia|lia|]. apply C. etransitivity; [exact E1|]. etransitivity; [exact E|]. symmetry. exact E2.
  - intros ->. etransitivity; [symmetry; exact E1|]. etransitivity; [|exact E2]. apply C. reflexivity.
Qed.
Lemma eq2_at a b n m p r : at2 a n -> at2 b m -> t_is a p -> t_is b r -> (apoint_eq p r <-> n = m).
Proof.
  intros (B & p1 & A & M) (B' & p2 & A' & M') Hp Hr. assert (E1 := t_is_fun _ _ _ A Hp). assert (E2 := t_is_fun _ _ _ A' Hr).
  assert (C := cong_n2 _ _ _ _ M M'). rewrite !Z2Nat.id in C by lia. split.
  - intros E. apply (cong_canon_unique Order); [lia|lia|]. apply C. etransitivity; [exact E1|]. etransitivity; [exact E|]. symmetry. exact E2.
  - intros ->. etransitivity; [symmetry; exact E1|]. etransitivity; [|exact E2]. apply C. reflexivity.
Qed.
Lemma inf1_at a n p : at1 a n -> c_is a p -> (p = None <-> n = 0).
Proof.
  intros (B & p1 & A & M) Hp. assert (E1 := c_is_fun _ _ _ A Hp). rewrite (inf_cong1 _ p (mult_eq FP G1 _ _ _ M E1)), Z2Nat.id by lia. split.
  - intros H. apply (cong_canon_unique Order); auto; lia.
  - intros ->. reflexivity.
Qed.
Lemma inf2_at a n p : at2 a n -> t_is a p -> (p = None <-> n = 0).
Proof.
  intros (B & p1 & A & M) Hp. assert (E1 := t_is_fun _ _ _ A Hp). rewrite (inf_cong2 _ p (mult_eq FP2 G2 _ _ _ M E1)), Z2Nat.id by lia. split.
  - intros H. apply (cong_canon_unique Order); auto; lia.
  - intros ->. reflexivity.
Qed.
Lemma apart1_at a b n m : at1 a n -> at1 b m -> (apart1 a b <-> (n = m -> n = 0)).
Proof.
  intros H H'. assert (X := H). assert (X' := H'). destruct H as (B & p & A & M). destruct H' as (B' & p' & A' & M'). split.
  - intros S E. apply (inf1_at a n p X A). apply (S p p' A A'). apply (eq1_at a b n m p p' X X' A A'). exact E.
  - intros S q r Hq Hr E. apply (inf1_at a n q X Hq). apply S. apply (eq1_at a b n m q r X X' Hq Hr). exact E.
Qed.
Lemma apart2_at a b n m : at2 a n -> at2 b m -> (apart2 a b <-> (n = m -> n = 0)).
Proof.
  intros H H'. assert (X := H). assert (X' := H'). destruct H as (B & p & A & M). destruct H' as (B' & p' & A' & M'). split.
  - intros S E. apply (inf2_at a n p X A). apply (S p p' A A'). apply (eq2_at a b n m p p' X X' A A'). exact E.
  - intros S q r Hq Hr E. apply (inf2_at a n q X Hq). apply S. apply (eq2_at a b n m q r X X' Hq Hr). exact E.
Qed.
Lemma acc1_at a b n m : at1 a n -> at1 b m -> (n = m -> n = 0) -> at1 (c_add_inplace a b) ((n + m) mod Order).
Proof.
  intros X X' S. assert (H := X). assert (H' := X'). destruct H as (B & p & A & M). destruct H' as (B' & p' & A' & M').
  assert (D : ~ apoint_eq p p' \/ p = None).
  { destruct (Z.eq_dec n m) as [E|E]; [right; apply (inf1_at a n p X A); now apply S|left]. intros C. apply E. now apply (eq1_at a b n m p p' X X' A A'). }
  destruct (c_add_inplace_ok _ _ _ _ A A' D) as (v & V & C). assert (MV := mult_add FP FP_field FP_two FP_three 3 FP_b G1 _ _ p p' v G1_on M M' V).
  apply (norm1 _ v _ _ C MV). rewrite Nat2Z.inj_add, !Z2Nat.id by lia. reflexivity.
Qed.
Lemma acc2_at a b n m : at2 a n -> at2 b m -> (n = m -> n = 0) -> at2 (t_add_inplace a b) ((n + m) mod Order).
Proof.
  intros X X' S. assert (H := X). assert (H' := X'). destruct H as (B & p & A & M). destruct H' as (B' & p' & A' & M').
  assert (D : ~ apoint_eq p p' \/ p = None).
  { destruct (Z.eq_dec n m) as [E|E]; [right; apply (inf2_at a n p X A); now apply S|left]. intros C. apply E. now apply (eq2_at a b n m p p' X X' A A'). }
  destruct (t_add_inplace_ok _ _ _ _ A A' D) as (v & V & C). assert (MV := mult_add FP2 FP2_field FP2_two FP2_three twistB FP2_b G2 _ _ p p' v G2_on M M' V).
  apply (norm2 _ v _ _ C MV). rewrite Nat2Z.inj_add, !Z2Nat.id by lia. reflexivity.
Qed.
Lemma x_fun (p r : apoint FP) : apoint_eq p r -> match p with Some (x, _) => x mod P | None => 0 end = match r with Some (x, _) => x mod P | None => 0 end.
Proof. destruct p as [[x y]|], r as [[x' y']|]; try contradiction; [|reflexivity]. intros [H _]. apply cong_mod_iff; [discriminate|exact H]. Qed.
Lemma x_at a n : at1 a n -> g1_x a = gen_x n.
Proof.
  intros X. assert (H := X). destruct H as (B & p & A & M). destruct (PropsCurve.base1 n ltac:(lia)) as (s & N & C). unfold gen_x.
  rewrite (C53_x _ _ A), (C53_x _ _ C). apply x_fun. exact (mult_unique FP FP_field G1 _ _ _ M N).
Qed.
Lemma x_nonneg a n : at1 a n -> 0 <= g1_x a.
Proof. intros (B & p & A & M). rewrite (C53_x _ _ A). destruct p as [[x y]|]; [|lia]. apply Z.mod_pos_bound. reflexivity. Qed.
Lemma pair_at s1 s2 s3 a g n m : at1 a n -> at2 g m -> t_ready g -> atT (PairModel.pair s1 s2 s3 a g) ((n * m) mod Order).
Proof.
  intros (B & p & A & M) (B' & r & A' & M') RG. apply (normT _ _ _ (pair_value s1 s2 s3 _ _ _ _ _ _ A A' RG M M')).
  rewrite N2Z.inj_mul, !nat_N_Z, !Z2Nat.id by lia. reflexivity.
Qed.
Lemma addT_at a b n m : atT a n -> atT b m -> atT (gt_add a b) ((n + m) mod Order).
Proof.
  intros (B & H) (B' & H'). apply (normT _ (Z.to_N n + Z.to_N m)).
  - unfold gt_add. etransitivity; [apply (g12_mul_ok a b)|]. etransitivity; [apply (cmul_morph FP12); [exact H|exact H']|]. symmetry. apply (cpow_add FP12).
  - rewrite N2Z.inj_add, !Z2N.id by lia. reflexivity.
Qed.
Lemma smulT_at a n k : atT a n -> 0 <= k -> atT (gt_scalar_mult a k) ((n * k) mod Order).
Proof.
  intros (B & H) K. apply (normT _ (Z.to_N n * Z.to_N k)).
  - unfold gt_scalar_mult. etransitivity; [apply (g12_exp_ok a k K)|]. etransitivity; [apply (cpow_morph FP12); [exact H|reflexivity]|]. symmetry. apply (cpow_mul FP12).
  - rewrite N2Z.inj_mul, !Z2N.id by lia. reflexivity.
Qed.
Lemma marshal_at a b n m : atT a n -> atT b m -> (gt_marshal a = gt_marshal b <-> n = m).
Proof.
  intros (B & H) (B' & H'). rewrite C54_marshal_injective. split.
  - intros E. apply (cong_canon_unique Order); [lia|lia|]. rewrite <- (Z2N.id n), <- (Z2N.id m) by lia. apply pow_cong. etransitivity; [symmetry; exact H|]. etransitivity; [exact E|exact H'].
  - intros ->. etransitivity; [exact H|]. symmetry. exact H'.
Qed.

Lemma neg1_at a n : at1 a n -> at1 (c_negative a) ((- n) mod Order).
Proof.
  intros (B & p & A & M). assert (C := c_negative_ok a p A). destruct (all_in_G (opposite p) (c_is_on _ _ C)) as [m M'].
  apply (norm1 _ _ m _ C M'). assert (V := mult_add FP FP_field FP_two FP_three 3 FP_b G1 _ _ p (opposite p) None G1_on M M' (sum_opp FP p)).
  assert (E := proj1 (inf_cong1 _ None V) eq_refl). rewrite Nat2Z.inj_add, Z2Nat.id in E by lia.
  transitivity (n + Z.of_nat m - n); [apply cong_eq; ring|]. rewrite E. apply cong_eq. ring.
Qed.

(** The code's groups simulate exponents modulo Order. *)
Lemma bn256_simulates sc : simulates (bn256 sc) (SnarkSpec.exponents Order gen_x) at1 at2 atT t_ready apart1 apart2.
Proof.
  assert (Z0 : 0 mod Order = 0) by reflexivity.
  constructor; unfold bn256, SnarkSpec.exponents; cbv [SnarkModel.G1 SnarkModel.G2 SnarkModel.GT SnarkModel.base1 smul1 acc1 add1 xcoord SnarkModel.base2 smul2 acc2 add2 smulT addT SnarkModel.pair marshalT].
  - exact base1_at.
  - exact base2_at.
  - vm_compute. reflexivity.
  - exact smul1_at.
  - exact smul2_at.
  - intros a b a' b' H H'. unfold apart. rewrite Z0. exact (apart1_at a a' b b' H H').
  - intros a b a' b' H H'. unfold apart. rewrite Z0. exact (apart2_at a a' b b' H H').
  - intros a b a' b' H H' K. apply acc1_at; [exact H|exact H'|exact K].
  - intros a b a' b' H H' K. apply acc2_at; [exact H|exact H'|exact K].
  - intros a b a' b' H H'. exact (add1_at a a' b b' H H').
  - intros a b a' b' H H'. exact (add2_at g2_zero a a' b b' H H').
  - exact x_at.
  - exact x_nonneg.
  - intros a b g h H H' K. apply pair_at; auto.
  - exact smulT_at.
  - intros a b a' b' H H'. exact (addT_at a a' b b' H H').
  - intros a b a' b' H H'. rewrite (marshal_at a a' b b' H H'). split; [intros ->; reflexivity|intros [= E]; exact E].
Qed.
Lemma gen_x_0 : gen_x 0 = 0. Proof. vm_compute. reflexivity. Qed.
Lemma gen_x_1 : gen_x 1 = 1. Proof. vm_compute. reflexivity. Qed.

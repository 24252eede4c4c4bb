(** The pairing of the generators is not one. *)
Require Import ZArith NArith Setoid Morphisms Ring Ring_theory Bool Lia Znumtheory List.
Require Import Verif.Cong Verif.Ext Verif.FqModel Verif.FqProofs Verif.Pocklington Verif.TowerModel Verif.TowerSpec Verif.TowerProofs Verif.FieldProofs Verif.FrobProofs
  Verif.FrobProofs2 Verif.FinalProofs Verif.CurveModel Verif.CurveSpec Verif.JacProofs Verif.AssocProofs Verif.CurveGroup Verif.CurveProofs
  Verif.OrderCheck Verif.OrderProofs Verif.LineProofs Verif.BilinProofs Verif.HomProofs Verif.PairField Verif.PairAlg Verif.MillerProofs Verif.MillerLoop
  Verif.PairProofs Verif.HexNum Verif.PolyCheck Verif.NdCheck Verif.NdCert1 Verif.NdCert2.
Import ListNotations.
Open Scope Z_scope.
#[local] Existing Instance apoint_equiv.

Lemma evp_is (a : poly) (b : FP12) : eq12f (evc a) b = true -> evp a =! b.
Proof. intros H. rewrite evc_ok. now apply eq12f_ok. Qed.
Lemma powers_start p f phis q F : evp p =! c1 -> evp f =! F -> chk_pow p f phis q = true -> powers FP12 omega e1 c1 F (p :: phis).
Proof. apply chk_pow_ok. Qed.
Lemma phis_pow : powers FP12 omega e1 c1 (fr omega) phis.
Proof.
  refine (powers_start (nth 0 phis []) (nth 1 phis []) (tl phis) phis_q _ _ _ phis_ok).
  - apply evp_is. vm_compute. reflexivity.
  - rewrite fr_omega. rewrite sh_ok. apply evp_is. vm_compute. reflexivity.
Qed.
Lemma sgs_pow : powers FP12 omega e1 c1 (sg omega) sgs.
Proof.
  refine (powers_start (nth 0 sgs []) (nth 1 sgs []) (tl sgs) sgs_q _ _ _ sgs_ok).
  - apply evp_is. vm_compute. reflexivity.
  - apply evp_is. vm_compute. reflexivity.
Qed.
Lemma q1_1 : apoint_eq (q1 1) G1.
Proof. symmetry. apply (q1_multiple 1). apply (multiple_S _ 0 None); [constructor|]. cbn. split; reflexivity. Qed.
Lemma q2_1 : apoint_eq (q2 1) G2.
Proof. symmetry. apply (q2_multiple 1). apply (multiple_S _ 0 None); [constructor|]. exact (reflexivity (R := apoint_eq) G2). Qed.
Lemma pt_1 : apoint_eq (pt 1) (psi G2).
Proof. unfold pt. apply psi_m. exact q2_1. Qed.
Lemma hx_sh (x : FP2) : hx FP2 FP12 e2 omega x =[FP12]= sh (sh (e2 x)).
Proof. unfold hx. rewrite <- (Rmul_assoc (c_ring FP12)). rewrite <- (sh_ok (sh (e2 x))). apply (cmul_morph FP12); [reflexivity|]. apply sh_ok. Qed.
Lemma hy_sh (x : FP2) : hy FP2 FP12 e2 omega x =[FP12]= sh (sh (sh (e2 x))).
Proof. unfold hy. rewrite <- !(Rmul_assoc (c_ring FP12)). rewrite <- (sh_ok (sh (sh (e2 x)))). apply (cmul_morph FP12); [reflexivity|].
  rewrite <- (sh_ok (sh (e2 x))). apply (cmul_morph FP12); [reflexivity|]. apply sh_ok. Qed.
Lemma at_1 : at_pt 1 x1 y1.
Proof.
  constructor. rewrite pt_1. split.
  - rewrite hx_sh. symmetry. apply evp_is. vm_compute. reflexivity.
  - rewrite hy_sh. symmetry. apply evp_is. vm_compute. reflexivity.
Qed.
Lemma opposite_m12 (p r : apoint FP12) : apoint_eq p r -> apoint_eq (opposite p) (opposite r).
Proof. destruct p as [[? ?]|], r as [[? ?]|]; try tauto. intros [A B]. split; [exact A|]. now rewrite B. Qed.
Lemma pt_neg i : apoint_eq (pt (- i)) (opposite (pt i)).
Proof. exact (pt_opp FP12 pt pt_sum pt_0 i). Qed.
Lemma at_neg i x y z q : at_pt i x y -> eqm (padd z y) [] q = true -> at_pt (- i) x z.
Proof.
  intros [A] H. constructor. rewrite pt_neg. rewrite (opposite_m12 _ _ A). split; [reflexivity|].
  apply evp_eqm in H. rewrite evp_padd in H. apply (alg_opp FP12). exact H.
Qed.
Lemma at_m1 : at_pt (-1) x1 z1.
Proof. exact (at_neg 1 _ _ _ _ at_1 z1_ok). Qed.
Lemma fr_step a r q : eqm r (plin a phis) q = true -> (length a <=? length phis)%nat = true -> evp r =! fr (evp a).
Proof. intros H L. apply evp_eqm in H. rewrite H. exact (fr_plin phis phis_pow a L). Qed.
Lemma at_fr i x y x' y' qx qy : at_pt i x y -> eqm x' (plin x phis) qx = true -> eqm y' (plin y phis) qy = true ->
  (length x <=? length phis)%nat = true -> (length y <=? length phis)%nat = true -> at_pt (P * i) x' y'.
Proof.
  intros [A] HX HY LX LY. constructor. rewrite <- pN_Z. rewrite (pt_fr i).
  destruct (pt i) as [[a b]|]; [|destruct A]. destruct A as [A B]. split.
  - rewrite (fr_step _ _ _ HX LX). apply fr_m. exact A.
  - rewrite (fr_step _ _ _ HY LY). apply fr_m. exact B.
Qed.
Lemma at_p : at_pt (P * 1) fx fy.
Proof. exact (at_fr 1 _ _ _ _ _ _ at_1 fx_ok fy_ok eq_refl eq_refl). Qed.
Lemma at_pp : at_pt (P * (P * 1)) gx gy0.
Proof. exact (at_fr (P * 1) _ _ _ _ _ _ at_p gx_ok gy0_ok eq_refl eq_refl). Qed.
Lemma at_mpp : at_pt (- (P * (P * 1))) gx gy.
Proof. exact (at_neg _ _ _ _ _ at_pp gy_ok). Qed.

(** ** The Miller loop *)
Lemma gen_fixed : fixed FP12 b12 sg (e1 1) (e1 2).
Proof.
  assert (R1 := q1_rational 1). assert (Q := q1_1). destruct (q1 1) as [[a b]|]; [|destruct Q]. destruct Q as [A B].
  cbn [emb hom rational] in R1. destruct R1 as (F1 & _ & _). refine (fixed_m _ _ _ _ _ _ F1).
  - unfold hx. rewrite (alg_11x FP12). apply e1_m. exact A.
  - unfold hy. rewrite (alg_11y FP12). apply e1_m. exact B.
Qed.
Lemma run_end : at_pt (Z.of_N n0) xN yN /\ E (evp fN) =! lw FP12 inv12 eq12f E pt (e1 1) (e1 2) n0 1.
Proof.
  assert (N0 : n0 = 29793968203157093288%N) by (rewrite n0_def; vm_compute; reflexivity).
  rewrite N0. exact (mrun_ok x1 y1 z1 at_1 at_m1 gen_fixed steps _ _ (start x1 y1 at_1) steps_ok).
Qed.
Lemma last_A : at_pt (Z.of_N n0 + P * 1) xA yA /\ lcg (Z.of_N n0) (P * 1) =! E (evp lA).
Proof.
  apply (chk_line_ok false _ _ _ _ _ _ _ _ _ _ _ _ (Z.of_N n0) (P * 1) lineA_ok (proj1 run_end) at_p).
  rewrite Z.mul_1_r. split; [exact n0_p|exact n0_mp].
Qed.
Lemma last_B : at_pt (Z.of_N n0 + P * 1 + - (P * (P * 1))) xB yB /\ lcg (Z.of_N n0 + P * 1) (- (P * (P * 1))) =! E (evp lB).
Proof.
  apply (chk_line_ok false _ _ _ _ _ _ _ _ _ _ _ _ (Z.of_N n0 + P * 1) (- (P * (P * 1))) lineB_ok (proj1 last_A) at_mpp).
  rewrite Z.mul_1_r. split; [exact n1_mp|rewrite Z.opp_involutive; exact n1_p].
Qed.
Section Alg.
Variable R : cring.
Add Ring Rr : (c_ring R) (setoid (c_equiv R) (c_ext R)).
Lemma alg_3 (a b c : R) : c *! (b *! a) =! a *! b *! c. Proof. ring. Qed.
Lemma alg_conj (f fi fc : R) : f *! fi =! c1 -> f *! (fc *! fi) =! fc.
Proof. intros H. transitivity (f *! fi *! fc); [ring|]. rewrite H. ring. Qed.
Lemma one_0 (f fi : R) : f *! fi =! c1 -> f =! c0 -> (c1 : R) =! c0.
Proof. intros H Z. rewrite <- H, Z. ring. Qed.
End Alg.
Lemma e_gen_miller : e_gen =! E (evp fB).
Proof.
  assert (A := evp_eqm _ _ _ fA_ok). assert (B := evp_eqm _ _ _ fB_ok). rewrite evp_pmul in A, B.
  rewrite (E_m _ _ B), E_mul, (E_m _ _ A), E_mul. rewrite (proj2 run_end). rewrite <- (proj2 last_A), <- (proj2 last_B). rewrite (alg_3 FP12).
  unfold e_gen, mpair. assert (Q := q1_1). destruct (q1 1) as [[a b]|]; [|destruct Q]. destruct Q as [QA QB]. cbn [emb hom milp].
  etransitivity; [apply (mil_at FP12 inv12 eq12f E E_m pt pN n0)|].
  - unfold hx. rewrite (alg_11x FP12). apply e1_m. exact QA.
  - unfold hy. rewrite (alg_11y FP12). apply e1_m. exact QB.
  - unfold mil, lcg. rewrite !Z.mul_1_r. rewrite N2Z.inj_add, N2Z.inj_mul, pN_Z. reflexivity.
Qed.

(** ** The final exponentiation *)
Lemma fB_inv : evp fB *! evp fi =! c1.
Proof. assert (H := evp_eqm _ _ _ fi_ok). rewrite evp_pmul in H. rewrite H. rewrite evp_const. exact e1_1. Qed.
Lemma fB_nz : ~ evp fB =! c0.
Proof. intros H. apply (proj1 FP12_field). exact (one_0 FP12 _ _ fB_inv H). Qed.
Lemma fc_pow : evp fc =! cpow (evp fB) (pN ^ 6).
Proof.
  assert (H := evp_eqm _ _ _ fc_ok). rewrite H, (plin_ok' (sg omega) fB sgs sgs_pow eq_refl), <- sg_eval.
  rewrite frobenius12_6. symmetry. apply sg_conj.
Qed.
Lemma t0_pow : evp t0 =! cpow (evp fB) (pN ^ 6 - 1).
Proof.
  apply (f_cancel FP12 FP12_field (evp fB)); [exact fB_nz|].
  assert (H := evp_eqm _ _ _ t0_ok). rewrite evp_pmul in H. rewrite H. rewrite (alg_conj FP12 _ _ _ fB_inv), fc_pow.
  replace (pN ^ 6)%N with (1 + (pN ^ 6 - 1))%N at 1.
  - rewrite cpow_add, cpow_1. reflexivity.
  - assert (pN ^ 6 <> 0)%N by (apply N.pow_nonzero; rewrite pN_6; lia). lia.
Qed.
Lemma g_pow : evp g =! cpow (evp fB) ((pN ^ 6 - 1) * (1 + pN ^ 2)).
Proof.
  assert (H := evp_eqm _ _ _ g_ok). rewrite evp_pmul in H. rewrite H, (fr_step _ _ _ t2_ok eq_refl), (fr_m _ _ (fr_step _ _ _ t1_ok eq_refl)).
  unfold fr. rewrite <- cpow_mul. replace (pN * pN)%N with (pN ^ 2)%N by apply N.pow_2_r.
  rewrite cpow_mul, <- t0_pow, (cpow_add FP12 _ 1), cpow_1. apply (Rmul_comm (c_ring FP12)).
Qed.
Lemma some_inj {A} (x y : A) : Some x = Some y -> x = y. Proof. intros H. now injection H. Qed.
Lemma pick_ok i j oen a b : pick i j oen = Some (a, b) -> exists en, oen = Some en /\ nth_error en i = Some a /\ nth_error en j = Some b.
Proof.
  destruct oen as [en|]; cbn [pick]; [|discriminate]. intros H. exists en. split; [reflexivity|].
  destruct (nth_error en i) as [a'|]; [|discriminate]. destruct (nth_error en j) as [b'|]; [|discriminate]. apply some_inj in H.
  assert (A := f_equal fst H). assert (B := f_equal snd H). cbn [fst snd] in A, B. now rewrite A, B.
Qed.
Lemma prog_any i j prog ea ra eb rb : pick i j (irun phis prog [(1%N, g)]) = Some ((ea, ra), (eb, rb)) ->
  evp ra =! cpow (evp g) ea /\ evp rb =! cpow (evp g) eb.
Proof.
  intros H. destruct (pick_ok _ _ _ _ _ H) as (en & EN & N1 & N2).
  assert (I : einv (evp g) en).
  { apply (irun_ok phis phis_pow (evp g) prog [(1%N, g)] en); [|exact EN]. constructor; [cbn [fst snd]; symmetry; apply cpow_1|constructor]. }
  split; [exact (einv_nth _ _ _ _ _ I N1)|exact (einv_nth _ _ _ _ _ I N2)].
Qed.
Lemma prog_end : evp rS =! cpow (evp g) eS /\ evp rP =! cpow (evp g) eP.
Proof. exact (prog_any _ _ _ _ _ _ _ prog_ok). Qed.
Lemma exp_lam : exists k, eS = (eP + lamN * k)%N.
Proof. exists ((eS - eP) / lamN)%N. rewrite lamN_def. vm_compute. reflexivity. Qed.
Lemma ends_differ : ~ evp rS =! evp rP.
Proof.
  rewrite !evc_ok. intros H. apply eq12f_ok in H. revert H. vm_compute. discriminate.
Qed.
Lemma pow_lam (x y z : FP12) (e a l : N) : (exists k, e = a + l * k)%N -> y =! cpow x e -> z =! cpow x a -> cpow x l =! c1 -> y =! z.
Proof.
  intros [k ->] Y Z L. rewrite Y, Z, cpow_add, cpow_mul, L, cpow_one. rewrite (Rmul_comm (c_ring FP12)). apply (Rmul_1_l (c_ring FP12)).
Qed.
Theorem e_gen_nontrivial : ~ e_gen =! c1.
Proof.
  intros H. rewrite e_gen_miller in H. apply ends_differ.
  assert (L : cpow (evp g) lamN =! c1).
  { rewrite <- H. unfold E. rewrite eN_def, full_exponent. rewrite (cpow_mul FP12 _ ((pN ^ 6 - 1) * (1 + pN ^ 2))), <- g_pow. reflexivity. }
  exact (pow_lam _ _ _ _ _ _ exp_lam (proj1 prog_end) (proj2 prog_end) L).
Qed.
Print Assumptions e_gen_nontrivial.

(** Powers by p^2, p^6, p^12; irreducibility; inversion; the final exponentiation. *)
Require Import ZArith NArith Znumtheory Setoid Morphisms Ring Ring_theory Bool Lia List.
Require Import Verif.Cong Verif.Ext Verif.FqModel Verif.FqProofs Verif.Pocklington Verif.TowerModel Verif.TowerSpec Verif.TowerProofs Verif.FieldProofs Verif.FrobProofs.
Import ListNotations.
Open Scope Z_scope.
Opaque P.

Section Alg.
Variable R : cring.
Add Ring Rr : (c_ring R) (setoid (c_equiv R) (c_ext R)).
Lemma alg_a (x c d k l : R) : x *! d *! l *! c *! k =! x *! (c *! d) *! (k *! l).
Proof. ring. Qed.
Lemma alg_b (x c d : R) : x *! d *! c =! x *! (c *! d).
Proof. ring. Qed.
Lemma cmul_1 (x : R) : x *! c1 =! x. Proof. ring. Qed.
Lemma cmul_comm (x y : R) : x *! y =! y *! x. Proof. ring. Qed.
Lemma cmul_assoc (x y z : R) : x *! (y *! z) =! x *! y *! z. Proof. ring. Qed.
Lemma cmul_0 (x : R) : c0 *! x =! c0. Proof. ring. Qed.
Lemma cneg_mul (x y : R) : (-! x) *! y =! -! (x *! y). Proof. ring. Qed.
End Alg.

Lemma conj2 (x c k : FP2) : g2_mul (g2_mul (g2_conj (g2_mul (g2_mul (g2_conj x) c) k)) c) k =[FP2]= x *! g2_mul c (g2_conj c) *! g2_mul k (g2_conj k).
Proof. rewrite !g2_mul_ok, !g2_conj_mul, g2_conj_conj. apply (alg_a FP2). Qed.
Lemma conj1 (x c : FP2) : g2_mul (g2_conj (g2_mul (g2_conj x) c)) c =[FP2]= x *! g2_mul c (g2_conj c).
Proof. rewrite !g2_mul_ok, !g2_conj_mul, g2_conj_conj. apply (alg_b FP2). Qed.
Lemma frobenius12_twice (a : FP12) : g12_frobenius2 a =[FP12]= g12_frobenius (g12_frobenius a).
Proof.
  destruct a as [[[x1 y1] z1] [[x2 y2] z2]]. unfold g12_frobenius2, g12_frobenius, g6_frobenius2, g6_frobenius, g6_mul_gfp, g6_mul_scalar, g6x, g6y, g6z.
  cbn [fst snd]. split; (split; [|split]); cbn [pr1 pr2 pr3 fst snd].
  - rewrite conj2, <- constP6, <- constP23, !g2_mul_scalar_ok. reflexivity.
  - rewrite conj2, <- constP6, <- constP3, !g2_mul_scalar_ok. reflexivity.
  - rewrite conj1, <- constP6, !g2_mul_scalar_ok. reflexivity.
  - rewrite conj1, <- constP23, !g2_mul_scalar_ok. reflexivity.
  - rewrite conj1, <- constP3, !g2_mul_scalar_ok. reflexivity.
  - symmetry. apply g2_conj_conj.
Qed.
Lemma frobenius12_2 (a : FP12) : cpow a (pN ^ 2) =[FP12]= g12_frobenius2 a.
Proof.
  rewrite frobenius12_twice. rewrite N.pow_2_r, cpow_mul. rewrite <- (frobenius12 (g12_frobenius a)). rewrite <- (frobenius12 a). reflexivity.
Qed.
#[export] Instance g12_frobenius_m : Proper (@ceq FP12 ==> @ceq FP12) g12_frobenius.
Proof. intros a b H. rewrite <- !frobenius12, H. reflexivity. Qed.
#[export] Instance g12_frobenius2_m : Proper (@ceq FP12 ==> @ceq FP12) g12_frobenius2.
Proof. intros a b H. rewrite <- !frobenius12_2, H. reflexivity. Qed.
Lemma scal_ok (x : FP2) (s : Z) (k : Z) : s ==[P] k -> g2_mul_scalar x s =[FP2]= g2_mul_scalar x k.
Proof. intros H. split; unfold g2_mul_scalar; cbn; now rewrite H. Qed.
Lemma conj6 (a : FP12) : g12_frobenius2 (g12_frobenius2 (g12_frobenius2 a)) =[FP12]= g12_conj a.
Proof.
  assert (C := cube6). assert (C2 := sq6). assert (C3 := sq3).
  set (s := xiToPSquaredMinus1Over6) in *. set (s3 := xiToPSquaredMinus1Over3) in *. set (s23 := xiTo2PSquaredMinus2Over3) in *.
  assert (E1 : (s23 * s) * (s23 * s) * (s23 * s) ==[P] -1).
  { rewrite C3, C2. transitivity ((s * s * s) * (s * s * s) * (s * s * s) * (s * s * s) * (s * s * s)); [apply cong_eq; ring|]. rewrite C. reflexivity. }
  assert (E2 : (s3 * s) * (s3 * s) * (s3 * s) ==[P] -1).
  { rewrite C2, C. reflexivity. }
  assert (E3 : s23 * s23 * s23 ==[P] 1).
  { rewrite C3, C2. transitivity ((s * s * s) * (s * s * s) * (s * s * s) * (s * s * s)); [apply cong_eq; ring|]. rewrite C. reflexivity. }
  assert (E4 : s3 * s3 * s3 ==[P] 1).
  { rewrite C2. transitivity ((s * s * s) * (s * s * s)); [apply cong_eq; ring|]. rewrite C. reflexivity. }
  destruct a as [[[[x1 x1'] [y1 y1']] [z1 z1']] [[[x2 x2'] [y2 y2']] [z2 z2']]].
  unfold g12_frobenius2, g6_frobenius2, g6_mul_gfp, g2_mul_scalar, g12_conj, g6_neg, g2_neg, g6x, g6y, g6z. cbn [fst snd].
  fold s s3 s23.
  split; (split; [|split]); split; cbn [pr1 pr2 pr3 fst snd];
    try (transitivity (x1 * ((s23 * s) * (s23 * s) * (s23 * s))); [apply cong_eq; ring|rewrite E1; apply cong_eq; ring]);
    try (transitivity (x1' * ((s23 * s) * (s23 * s) * (s23 * s))); [apply cong_eq; ring|rewrite E1; apply cong_eq; ring]).
  - transitivity (y1 * ((s3 * s) * (s3 * s) * (s3 * s))); [apply cong_eq; ring|rewrite E2; apply cong_eq; ring].
  - transitivity (y1' * ((s3 * s) * (s3 * s) * (s3 * s))); [apply cong_eq; ring|rewrite E2; apply cong_eq; ring].
  - transitivity (z1 * (s * s * s)); [apply cong_eq; ring|rewrite C; apply cong_eq; ring].
  - transitivity (z1' * (s * s * s)); [apply cong_eq; ring|rewrite C; apply cong_eq; ring].
  - transitivity (x2 * (s23 * s23 * s23)); [apply cong_eq; ring|rewrite E3; apply cong_eq; ring].
  - transitivity (x2' * (s23 * s23 * s23)); [apply cong_eq; ring|rewrite E3; apply cong_eq; ring].
  - transitivity (y2 * (s3 * s3 * s3)); [apply cong_eq; ring|rewrite E4; apply cong_eq; ring].
  - transitivity (y2' * (s3 * s3 * s3)); [apply cong_eq; ring|rewrite E4; apply cong_eq; ring].
  - reflexivity.
  - reflexivity.
Qed.
#[export] Instance g12_conj_m : Proper (@ceq FP12 ==> @ceq FP12) g12_conj.
Proof. intros a b [H1 H2]. split; cbn [g12_conj fst snd]; auto. rewrite !g6_neg_ok. now apply copp_morph. Qed.
Lemma frobenius12_6 (a : FP12) : cpow a (pN ^ 6) =[FP12]= g12_conj a.
Proof.
  replace (pN ^ 6)%N with (pN ^ 2 * pN ^ 2 * pN ^ 2)%N by (change 6%N with (2 + 2 + 2)%N; rewrite !N.pow_add_r; lia).
  rewrite !cpow_mul, !frobenius12_2. apply conj6.
Qed.
Lemma g12_conj_conj (a : FP12) : g12_conj (g12_conj a) =[FP12]= a.
Proof.
  destruct a as [[[[x1 x1'] [y1 y1']] [z1 z1']] b]. split; [|reflexivity]. cbn [g12_conj fst snd].
  unfold g6_neg, g2_neg, g6x, g6y, g6z. cbn [fst snd]. rewrite !Z.opp_involutive. reflexivity.
Qed.
Lemma frobenius12_12 (a : FP12) : cpow a (pN ^ 12) =[FP12]= a.
Proof.
  replace (pN ^ 12)%N with (pN ^ 6 * pN ^ 6)%N by (change 12%N with (6 + 6)%N; rewrite !N.pow_add_r; lia).
  rewrite cpow_mul, !frobenius12_6. apply g12_conj_conj.
Qed.
Lemma frobenius6_6 (a : FP6) : cpow a (pN ^ 6) =[FP6]= a.
Proof.
  assert (H := frobenius12_6 (qemb FP6 tau a)). rewrite e12_pow in H. destruct H as [_ H]. exact H.
Qed.
Lemma frobenius2_2 (a : FP2) : cpow a (pN ^ 2) =[FP2]= a.
Proof. rewrite N.pow_2_r, cpow_mul, !frobenius2. apply g2_conj_conj. Qed.

(** xi is not a cube, tau not a square. *)
Lemma xi_noncube (t : FP2) : ~ t *! t *! t =! xi.
Proof.
  intros H. assert (F := FP2_field).
  assert (N0 : ~ t =! c0).
  { intros Z. rewrite Z, !(cmul_0 FP2) in H. destruct H as [H _]. cbn in H. symmetry in H. exact (cong_1_0 P prime_P H). }
  assert (T3 : cpow t 3 =! xi) by (rewrite <- H; change 3%N with (2 + 1)%N; rewrite cpow_add, cpow_2, cpow_1; reflexivity).
  assert (T1 : cpow t (3 * (2 * k6) * (pN + 1)) =! c1).
  { apply (f_cancel FP2 F t); auto. rewrite <- (cpow_1 FP2 t) at 1. rewrite <- cpow_add.
    replace (1 + 3 * (2 * k6) * (pN + 1))%N with (pN ^ 2)%N by (rewrite N.pow_2_r, pN_6; lia).
    rewrite frobenius2_2. symmetry. apply (cmul_1 FP2). }
  rewrite (cpow_mul FP2 t (3 * (2 * k6)) (pN + 1)), (cpow_mul FP2 t 3 (2 * k6)), T3 in T1. rewrite xi_2k6 in T1. rewrite cpow_add, cpow_1, frobenius2 in T1.
  assert (C := constP3). rewrite g2_mul_ok, (cmul_comm FP2) in C. rewrite <- C in T1. destruct T1 as [_ T1]. exact (not_one3 T1).
Qed.
Lemma FP6_field : is_field FP6.
Proof. apply (cubic_field FP2 FP2_field xi). apply xi_noncube. Qed.
Lemma tau_nonsquare (s : FP6) : ~ s *! s =! tau.
Proof.
  intros H. assert (F := FP6_field).
  assert (N0 : ~ s =! c0).
  { intros Z. rewrite Z, (cmul_0 FP6) in H. destruct H as (_ & [_ H] & _). cbn in H. symmetry in H. exact (cong_1_0 P prime_P H). }
  set (M := ((1 + pN) * (1 + pN ^ 2 + pN ^ 2 * pN ^ 2))%N).
  assert (S1 : cpow s (2 * (3 * k6) * M) =! c1).
  { apply (f_cancel FP6 F s); auto. rewrite <- (cpow_1 FP6 s) at 1. rewrite <- cpow_add.
    replace (1 + 2 * (3 * k6) * M)%N with (pN ^ 6)%N.
    - rewrite frobenius6_6. symmetry. apply (cmul_1 FP6).
    - unfold M. change 6%N with (2 + 2 + 2)%N. rewrite !N.pow_add_r, N.pow_2_r.
      replace (2 * (3 * k6))%N with (pN - 1)%N by (rewrite pN_6; lia). assert (1 <= pN)%N by (rewrite pN_6; lia).
      remember pN as p. clear - H0. assert (E : (p = 1 + (p - 1))%N) by lia. remember (p - 1)%N as d. rewrite E. ring. }
  rewrite cpow_mul in S1. rewrite cpow_mul in S1. rewrite cpow_2, H, tau_k in S1. rewrite e6_pow in S1. rewrite xi_k6 in S1.
  unfold M in S1. rewrite cpow_mul, (cpow_add FP2 _ 1 pN), cpow_1, frobenius2 in S1.
  assert (C := constP6). rewrite g2_mul_ok in C. rewrite <- C in S1. rewrite e2_pow in S1. destruct S1 as (_ & _ & S1). destruct S1 as [_ S1].
  assert (E : cpow (xiToPSquaredMinus1Over6 : FP) (1 + pN ^ 2 + pN ^ 2 * pN ^ 2) =[FP]= -1).
  { rewrite !cpow_add, cpow_1. rewrite (cpow_mul FP _ (pN ^ 2) (pN ^ 2)). rewrite !N.pow_2_r, !cpow_mul, !FP_fermat. exact cube6. }
  assert (E' : cpow (xiToPSquaredMinus1Over6 : FP) (1 + pN ^ 2 + pN ^ 2 * pN ^ 2) =[FP]= 1) by exact S1.
  rewrite E in E'. exact (minus_one E').
Qed.
Lemma FP12_field : is_field FP12.
Proof. apply (quad_field FP6 FP6_field tau). apply tau_nonsquare. Qed.

(** Inversion. *)
Lemma g2_invert_ok st (a : FP2) : ~ a =! c0 -> a *! (g2_invert st a : FP2) =! c1.
Proof.
  destruct a as [x y]. intros N. unfold g2_invert. cbn [fst snd]. set (t := y * y + x * x).
  assert (T : ~ t ==[P] 0).
  { intros H. apply N. apply (qnorm_zero FP FP_field (-1)).
    - intros s Hs. revert Hs. clear. intros Hs.
      assert (Z : ((1, s) : FP2) *! (-1, s) =! c0).
      { split; cbn [fst snd FP2 quad cmul c0 FP zmod]; unfold quad_mul; cbn [fst snd cmul cadd FP zmod]; [apply cong_eq; ring|].
        cbn in Hs. rewrite Hs. apply cong_eq; ring. }
      apply (f_integral FP2 FP2_field) in Z. destruct Z as [[Z _]|[Z _]]; cbn in Z.
      + exact (cong_1_0 P prime_P Z).
      + apply (cong_1_0 P prime_P). transitivity (- (-1)); [reflexivity|]. rewrite Z. reflexivity.
    - change (y * y - (-1) * (x * x) ==[P] 0). unfold t in H. rewrite <- H. apply cong_eq. ring. }
  assert (S := mod_inverse_spec t P P_one). destruct (mod_inverse t P) as [i|].
  - destruct S as (_ & S & _). split.
    + change (x * ((y * i) mod P) + y * ((- x * i) mod P) ==[P] 0). rewrite !cong_mod. apply cong_eq; ring.
    + change (y * ((y * i) mod P) + (-1) * (x * ((- x * i) mod P)) ==[P] 1). rewrite !cong_mod. rewrite <- S. unfold t. apply cong_eq; ring.
  - exfalso. apply S. apply Zgcd_1_rel_prime. apply rel_prime_sym, prime_rel_prime; [exact prime_P|]. intros D. apply T. now apply cong_0_iff.
Qed.
Lemma g2_invert_m st (a b : FP2) : ~ a =! c0 -> a =! b -> g2_invert st a =[FP2]= g2_invert st b.
Proof.
  intros N E. apply (f_cancel FP2 FP2_field a); auto. rewrite g2_invert_ok by auto. rewrite E. symmetry. apply g2_invert_ok. rewrite <- E. exact N.
Qed.
Lemma g6_invert_ok st (a : FP6) : ~ a =! c0 -> a *! (g6_invert st a : FP6) =! c1.
Proof.
  intros N0. assert (N1 : ~ cnorm FP2 xi a =! c0) by (intros H; apply N0; now apply (cnorm_zero FP2 FP2_field xi a xi_noncube)).
  unfold g6_invert. cbv zeta.
  set (C := g2_sub (g2_square (g6y a)) (g2_mul (g6x a) (g6z a))).
  set (B := g2_sub (g2_mul_xi (g2_square (g6x a))) (g2_mul (g6y a) (g6z a))).
  set (A := g2_sub (g2_square (g6z a)) (g2_mul_xi (g2_mul (g6x a) (g6y a)))).
  set (F := g2_add (g2_add (g2_mul_xi (g2_mul C (g6y a))) (g2_mul A (g6z a))) (g2_mul_xi (g2_mul B (g6x a)))).
  assert (HC : C =[FP2]= pr2 FP2 a *! pr2 FP2 a -! pr1 FP2 a *! pr3 FP2 a) by (unfold C; rewrite g2_sub_ok, g2_square_ok, g2_mul_ok; reflexivity).
  assert (HB : B =[FP2]= xi *! (pr1 FP2 a *! pr1 FP2 a) -! pr2 FP2 a *! pr3 FP2 a) by (unfold B; rewrite g2_sub_ok, g2_mul_xi_ok, g2_square_ok, g2_mul_ok; reflexivity).
  assert (HA : A =[FP2]= pr3 FP2 a *! pr3 FP2 a -! xi *! (pr1 FP2 a *! pr2 FP2 a)) by (unfold A; rewrite g2_sub_ok, g2_square_ok, g2_mul_xi_ok, g2_mul_ok; reflexivity).
  assert (HF : F =[FP2]= cnorm FP2 xi a).
  { rewrite <- (adj_comp FP2 xi a). unfold F. rewrite !g2_add_ok, !g2_mul_xi_ok, !g2_mul_ok, HA, HB, HC. reflexivity. }
  assert (HI : (F : FP2) *! (g2_invert st F : FP2) =[FP2]= c1) by (apply g2_invert_ok; rewrite HF; exact N1).
  set (I := g2_invert st F) in *.
  transitivity (a *! (cadj FP2 xi a *! cemb FP2 xi I : FP6)).
  - apply cmul_morph; [reflexivity|]. etransitivity; [|apply (cmul_emb FP2 xi)].
    split; [|split]; cbn [pr1 pr2 pr3 fst snd cadj]; rewrite g2_mul_ok; apply cmul_morph; auto; reflexivity.
  - rewrite (cmul_assoc FP6). etransitivity; [apply cmul_morph; [apply (cadj_ok FP2 xi)|reflexivity]|].
    rewrite <- e6_mul. rewrite <- HF, HI. reflexivity.
Qed.
Lemma g12_invert_ok st (a : FP12) : ~ a =! c0 -> a *! (g12_invert st a : FP12) =! c1.
Proof.
  intros N0. assert (N1 : ~ qnorm FP6 tau a =! c0) by (intros H; apply N0; now apply (qnorm_zero FP6 FP6_field tau a tau_nonsquare)).
  unfold g12_invert. cbv zeta. set (t1 := g6_sub (g6_square (snd a)) (g6_mul_tau (g6_square (fst a)))).
  assert (HT : t1 =[FP6]= qnorm FP6 tau a) by (unfold t1, qnorm; rewrite g6_sub_ok, g6_mul_tau_ok, !g6_square_ok; reflexivity).
  assert (HI : (t1 : FP6) *! (g6_invert st t1 : FP6) =[FP6]= c1) by (apply g6_invert_ok; rewrite HT; exact N1).
  rewrite g12_mul_scalar_ok. rewrite (cmul_assoc FP12).
  etransitivity; [apply cmul_morph; [apply (qnorm_ok FP6 tau a)|reflexivity]|].
  rewrite <- e12_mul. rewrite <- HT. etransitivity; [apply (e12_m _ _ HI)|]. reflexivity.
Qed.

(** curve.go and twist.go compute in the groups of the two curves. *)
Require Import ZArith Znumtheory Bool List Lia Setoid Morphisms.
Require Import Verif.Cong Verif.Ext Verif.FqModel Verif.FqProofs Verif.Pocklington Verif.TowerModel Verif.TowerSpec Verif.TowerProofs
  Verif.FieldProofs Verif.FrobProofs Verif.FrobProofs2 Verif.CurveModel Verif.CurveSpec Verif.JacProofs Verif.AssocProofs Verif.CurveGroup.
Import ListNotations.
Open Scope Z_scope.

(** The two curves. *)
Definition E1 : apoint FP -> Prop := on_curve (R := FP) 3.
Definition E2 : apoint FP2 -> Prop := on_curve (R := FP2) twistB.
(** A curvePoint standing for the point p of the curve: Jacobian coordinates of p, z not negative and
    congruent to 0 only if it is 0 (the code tests [z == 0]). *)
Definition z_ok (z : Z) : Prop := 0 <= z /\ (z ==[P] 0 -> z = 0).
Definition c_is (a : cpoint) (p : apoint FP) : Prop := represents (R := FP) (cx a) (cy a) (cz a) p /\ z_ok (cz a) /\ E1 p.
Definition z2_ok (z : gfp2) : Prop := 0 <= snd z /\ (z =[FP2]= c0 -> z = (0, 0)).
Definition t_is (a : tpoint) (p : apoint FP2) : Prop := represents (R := FP2) (tx a) (ty a) (tz a) p /\ z2_ok (tz a) /\ E2 p.

(** ** The fields. *)
Lemma small_nz n : 0 < n < P -> ~ n ==[P] 0.
Proof. intros H E. apply cong_0_iff in E. apply Z.divide_pos_le in E; lia. Qed.
Lemma FP_two : ~ (c1 : FP) +! c1 =! c0. Proof. change (~ 1 + 1 ==[P] 0). now apply small_nz. Qed.
Lemma FP_three : ~ (c1 : FP) +! c1 +! c1 =! c0. Proof. change (~ 1 + 1 + 1 ==[P] 0). now apply small_nz. Qed.
Lemma FP_b : ~ (3 : FP) =! c0. Proof. change (~ 3 ==[P] 0). now apply small_nz. Qed.
Lemma FP2_two : ~ (c1 : FP2) +! c1 =! c0. Proof. intros [_ H]. revert H. change (~ 1 + 1 ==[P] 0). now apply small_nz. Qed.
Lemma FP2_three : ~ (c1 : FP2) +! c1 +! c1 =! c0. Proof. intros [_ H]. revert H. change (~ 1 + 1 + 1 ==[P] 0). now apply small_nz. Qed.
Lemma FP2_b : ~ (twistB : FP2) =! c0. Proof. intros [H _]. revert H. change (~ fst twistB ==[P] 0). now apply small_nz. Qed.

(** ** curvePoint. *)
Ltac lock := match goal with
  | |- ?a mod P ==[P] _ => etransitivity; [apply cong_mod|lock]
  | |- ?a + ?b ==[P] ?c + ?d => apply cong_add; lock
  | |- ?a - ?b ==[P] ?c - ?d => apply cong_sub; lock
  | |- ?a * ?b ==[P] ?c * ?d => apply cong_mul; lock
  | |- _ => reflexivity end.
Lemma c_double_x a : cx (c_double a) ==[P] dbl_x FP (cx a) (cy a) (cz a).
Proof. unfold c_double, dbl_x. cbn [cx cadd cmul csub FP zmod]. cbv zeta. lock. Qed.
Lemma c_double_y a : cy (c_double a) ==[P] dbl_y FP (cx a) (cy a) (cz a).
Proof. unfold c_double, dbl_y, dbl_x. cbn [cy cadd cmul csub FP zmod]. cbv zeta. lock. Qed.
Lemma c_double_z a : cz (c_double a) ==[P] dbl_z FP (cx a) (cy a) (cz a).
Proof. unfold c_double, dbl_z. cbn [cz cadd cmul csub FP zmod]. cbv zeta. lock. Qed.
Lemma z_ok_double t : 0 <= t < P -> z_ok (t + t).
Proof.
  intros H. split; [lia|]. intros E. replace (t + t) with (2 * t) in * by lia.
  apply (cong_integral P prime_P) in E. destruct E as [E|E]; [exfalso; revert E; now apply small_nz|].
  apply (cong_canon_unique P t 0) in E; lia.
Qed.
Lemma z_ok_mod t : z_ok (t mod P).
Proof.
  assert (H := Z.mod_pos_bound t P P_pos). split; [lia|]. intros E. apply (cong_canon_unique P _ 0) in E; lia.
Qed.
Lemma c_is_on a p : c_is a p -> E1 p. Proof. now intros (_ & _ & H). Qed.
Lemma c_double_ok a p : c_is a p -> exists s, ct_sum p p s /\ c_is (c_double a) s.
Proof.
  intros (H & Z & O). destruct (jac_double FP FP_field FP_two 3 _ _ _ p H O) as (s & S & H').
  exists s. split; auto. split.
  - rewrite (represents_m FP _ _ (c_double_x a) _ _ (c_double_y a) _ _ (c_double_z a) s s eq_refl). exact H'.
  - split; [|exact (sum_on_curve FP FP_field 3 p p s O O S)].
    unfold c_double. cbn [cz]. apply z_ok_double, Z.mod_pos_bound, P_pos.
Qed.
Lemma inf_none a p : c_is a p -> (c_is_infinity a = true <-> p = None).
Proof.
  intros (H & [_ Z] & _). unfold c_is_infinity. rewrite Z.eqb_eq. destruct p as [[x y]|]; cbn in H.
  - destruct H as (N & _). split; [intros E; exfalso; apply N; rewrite E; reflexivity|discriminate].
  - split; [reflexivity|]. intros _. now apply Z.
Qed.
Lemma red_eq a c : a mod P - c mod P = 0 <-> a - c ==[P] 0.
Proof.
  rewrite <- cong_sub_0. rewrite (cong_mod_iff P) by (apply Z.neq_sym, Z.lt_neq, P_pos). lia.
Qed.
(** The cases of Add, by what the two points are. *)
Lemma c_add_cases dbl a b p r : c_is a p -> c_is b r ->
  (p = None /\ c_add_with dbl a b = b) \/
  (p <> None /\ r = None /\ c_add_with dbl a b = a) \/
  (p <> None /\ apoint_eq p r /\ c_add_with dbl a b = dbl a) \/
  (exists s, ct_sum p r s /\ c_is (c_add_with dbl a b) s /\ ~ apoint_eq p r).
Proof.
  intros Ha Hb. assert (Ia := inf_none a p Ha). assert (Ib := inf_none b r Hb).
  destruct (c_is_infinity a) eqn:EA.
  { left. split; [now apply Ia|]. unfold c_add_with. now rewrite EA. }
  assert (Np : p <> None) by (intros E; apply Ia in E; discriminate).
  destruct (c_is_infinity b) eqn:EB.
  { right; left. split; [exact Np|]. split; [now apply Ib|]. unfold c_add_with. now rewrite EA, EB. }
  assert (Nr : r <> None) by (intros E; apply Ib in E; discriminate).
  destruct p as [p|]; [|congruence]. destruct r as [r|]; [|congruence].
  destruct Ha as (Ra & Za & Oa), Hb as (Rb & Zb & Ob).
  set (u1 := (cx a * ((cz b * cz b) mod P)) mod P).
  set (u2 := (cx b * ((cz a * cz a) mod P)) mod P).
  set (s1 := (cy a * ((cz b * ((cz b * cz b) mod P)) mod P)) mod P).
  set (s2 := (cy b * ((cz a * ((cz a * cz a) mod P)) mod P)) mod P).
  assert (Hh : u2 - u1 = 0 <-> add_h FP (cx a) (cy a) (cz a) (cx b) (cy b) (cz b) =! c0).
  { unfold u1, u2. rewrite red_eq.
    change (cx b * ((cz a * cz a) mod P) - cx a * ((cz b * cz b) mod P) ==[P] 0 <-> cx b * (cz a * cz a) - cx a * (cz b * cz b) ==[P] 0).
    now rewrite !cong_mod. }
  assert (Hs : s2 - s1 = 0 <-> add_s FP (cx a) (cy a) (cz a) (cx b) (cy b) (cz b) =! c0).
  { unfold s1, s2. rewrite red_eq.
    change (cy b * ((cz a * ((cz a * cz a) mod P)) mod P) - cy a * ((cz b * ((cz b * cz b) mod P)) mod P) ==[P] 0
      <-> cy b * (cz a * (cz a * cz a)) - cy a * (cz b * (cz b * cz b)) ==[P] 0).
    now rewrite !cong_mod. }
  right; right.
  destruct ((u2 - u1 =? 0) && (s2 - s1 =? 0)) eqn:T.
  - left. split; [discriminate|]. split.
    + apply andb_true_iff in T. destruct T as [T1 T2]. apply Z.eqb_eq in T1, T2.
      exact (jac_same FP FP_field _ _ _ _ _ _ p r Ra Rb (proj1 Hh T1) (proj1 Hs T2)).
    + unfold c_add_with. rewrite EA, EB. fold u1 u2 s1 s2. cbv zeta. now rewrite T.
  - right. assert (N : ~ (add_h FP (cx a) (cy a) (cz a) (cx b) (cy b) (cz b) =! c0 /\ add_s FP (cx a) (cy a) (cz a) (cx b) (cy b) (cz b) =! c0)).
    { intros [A B]. apply Hh in A. apply Hs in B. rewrite A, B in T. discriminate. }
    destruct (jac_add FP FP_field FP_two 3 _ _ _ _ _ _ p r Ra Rb Oa Ob N) as (s & S & RS).
    exists s. split; [exact S|]. split.
    + split; [|split; [|exact (sum_on_curve FP FP_field 3 _ _ s Oa Ob S)]].
      * refine (proj2 (represents_m FP _ _ _ _ _ _ _ _ _ s s eq_refl) RS); unfold c_add_with; rewrite EA, EB; fold u1 u2 s1 s2; cbv zeta; rewrite T; cbn [cx cy cz];
          unfold add_x, add_y, add_z, add_h, add_s, U, S_; cbn [cadd cmul csub FP zmod ceq]; cbv zeta; unfold u1, u2, s1, s2.
        -- lock.
        -- unfold add_x, add_h, add_s, U, S_; cbn [cadd cmul csub FP zmod ceq]; cbv zeta. lock.
        -- lock.
      * unfold c_add_with; rewrite EA, EB; fold u1 u2 s1 s2; cbv zeta; rewrite T; cbn [cz]. apply z_ok_mod.
    + intros E. apply N. destruct p as [x1 y1], r as [x2 y2].
      destruct (add_h_0 FP FP_field _ _ _ _ _ _ x1 y1 x2 y2 Ra Rb) as [A B]. destruct E. tauto.
Qed.
Lemma c_is_eq a p r : c_is a p -> apoint_eq p r -> c_is a r.
Proof.
  intros (H & Z & O) E. split; [now apply (rep_eq FP _ _ _ p)|]. split; auto. now apply (on_eq FP 3 p).
Qed.
Lemma c_add_ok a b p r : c_is a p -> c_is b r -> exists s, ct_sum p r s /\ c_is (c_add a b) s.
Proof.
  intros Ha Hb. unfold c_add. destruct (c_add_cases c_double a b p r Ha Hb) as [[-> ->]|[(N & -> & ->)|[(N & E & ->)|(s & S & H & _)]]].
  - exists r. split; auto. cbn. apply apoint_equiv.
  - exists p. split; auto. apply (sum_inf_r FP). apply apoint_equiv.
  - destruct (c_double_ok a p Ha) as (s & S & H). exists s. split; auto. apply (sum_m FP p p p r s s); auto; apply apoint_equiv.
  - exists s. auto.
Qed.
Lemma c_add_inplace_ok a b p r : c_is a p -> c_is b r -> ~ apoint_eq p r \/ p = None ->
  exists s, ct_sum p r s /\ c_is (c_add_inplace a b) s.
Proof.
  intros Ha Hb N0. unfold c_add_inplace. destruct (c_add_cases c_double_inplace a b p r Ha Hb) as [[-> ->]|[(N & -> & ->)|[(N & E & ->)|(s & S & H & _)]]].
  - exists r. split; auto. cbn. apply apoint_equiv.
  - exists p. split; auto. apply (sum_inf_r FP). apply apoint_equiv.
  - tauto.
  - exists s. auto.
Qed.
(** Mul. *)
Section Loop.
Variables (A : Type) (R : cring) (b : R) (is : A -> apoint R -> Prop) (dbl : A -> A) (add : A -> A -> A) (p : apoint R).
Hypothesis Op : on_curve b p.
Hypothesis F : is_field R.
Hypothesis two : ~ (c1 : R) +! c1 =! c0.
Hypothesis three : ~ (c1 : R) +! c1 +! c1 =! c0.
Hypothesis nonsing : ~ b =! c0.
Hypothesis is_dbl : forall a s, is a s -> exists t, ct_sum s s t /\ is (dbl a) t.
Hypothesis is_add : forall a' a s, is a s -> exists t, ct_sum s p t /\ is (add a' a) t.
Lemma loop_ok k n e a s : is a s -> multiple p e s ->
  exists t, multiple p (e * 2 ^ n + Z.to_nat (k mod 2 ^ Z.of_nat n)) t /\
    is (fold_left (fun sum bit => let t := dbl sum in if bit : bool then add sum t else t) (bits_down k n) a) t.
Proof.
  revert e a s. induction n as [|n IH]; intros e a s Ha Hs.
  - cbn [bits_down seq rev map fold_left]. change (2 ^ Z.of_nat 0) with 1. rewrite Z.mod_1_r. cbn [Z.to_nat Nat.pow].
    rewrite Nat.mul_1_r, Nat.add_0_r. eauto.
  - rewrite bits_down_S. cbn [fold_left]. cbv zeta.
    assert (M : k mod 2 ^ Z.of_nat (S n) = k mod 2 ^ Z.of_nat n + Z.b2z (Z.testbit k (Z.of_nat n)) * 2 ^ Z.of_nat n).
    { rewrite Nat2Z.inj_succ, Z.pow_succ_r by lia. rewrite (Z.mul_comm 2), Z.rem_mul_r by lia.
      rewrite Z.testbit_spec' by lia. ring. }
    assert (Hm := Z.mod_pos_bound k (2 ^ Z.of_nat n) ltac:(apply Z.pow_pos_nonneg; lia)).
    assert (Hp : 0 < 2 ^ Z.of_nat n) by (apply Z.pow_pos_nonneg; lia).
    assert (E2 : Z.to_nat (2 ^ Z.of_nat n) = (2 ^ n)%nat) by (rewrite <- (Nat2Z.id (2 ^ n)), Nat2Z.inj_pow; reflexivity).
    destruct (is_dbl a s Ha) as (t & T & Ht).
    assert (M2 := mult_double R F two three b nonsing p e s t Op Hs T).
    destruct (Z.testbit k (Z.of_nat n)); cbn [Z.b2z] in M; rewrite M.
    + destruct (is_add a (dbl a) t Ht) as (t' & T' & Ht').
      destruct (IH (S (2 * e)) _ t' Ht' (multiple_S p _ t t' M2 T')) as (v & V & HV). exists v. split; auto.
      replace (e * 2 ^ S n + Z.to_nat (k mod 2 ^ Z.of_nat n + 1 * 2 ^ Z.of_nat n))%nat
        with (S (2 * e) * 2 ^ n + Z.to_nat (k mod 2 ^ Z.of_nat n))%nat; [exact V|].
      rewrite Z2Nat.inj_add by lia. rewrite Z.mul_1_l, E2, Nat.pow_succ_r'. nia.
    + destruct (IH (2 * e)%nat _ t Ht M2) as (v & V & HV). exists v. split; auto.
      replace (e * 2 ^ S n + Z.to_nat (k mod 2 ^ Z.of_nat n + 0 * 2 ^ Z.of_nat n))%nat
        with (2 * e * 2 ^ n + Z.to_nat (k mod 2 ^ Z.of_nat n))%nat; [exact V|].
      rewrite Z.mul_0_l, Z.add_0_r, Nat.pow_succ_r'. nia.
Qed.
Lemma mul_loop_ok k a : 0 <= k -> is a None ->
  exists t, multiple p (Z.to_nat k) t /\
    is (fold_left (fun sum bit => let t := dbl sum in if bit : bool then add sum t else t) (bits_down k (S (Z.to_nat (bitlen k)))) a) t.
Proof.
  intros H Ha. destruct (loop_ok k (S (Z.to_nat (bitlen k))) 0 a None Ha (multiple_0 p)) as (t & T & Ht). exists t. split; auto.
  rewrite Nat.mul_0_l, Nat.add_0_l in T. rewrite Z.mod_small in T; auto.
  assert (B := bitlen_bound k H). assert (N := bitlen_nonneg k).
  rewrite Nat2Z.inj_succ, Z2Nat.id, Z.pow_succ_r by lia. lia.
Qed.
End Loop.
Lemma c_inf x y : c_is (CP x y 0) None.
Proof. split; [change (0 ==[P] 0); reflexivity|]. split; [|exact I]. split; [cbn; lia|reflexivity]. Qed.
Lemma c_mul_ok st a p k : 0 <= k -> c_is a p -> exists s, multiple p (Z.to_nat k) s /\ c_is (c_mul st a k) s.
Proof.
  intros Hk Ha. unfold c_mul.
  apply (mul_loop_ok cpoint FP 3 c_is c_double (fun _ t => c_add t a) p (c_is_on a p Ha) FP_field FP_two FP_three FP_b).
  - apply c_double_ok.
  - intros _ t s Ht. now apply c_add_ok.
  - exact Hk.
  - apply c_inf.
Qed.
Lemma c_negative_ok a p : c_is a p -> c_is (c_negative a) (opposite p).
Proof.
  intros (H & Z & O). split; [|split; [exact Z|]].
  - destruct p as [[x y]|]; [|exact H]. destruct H as (N & HX & HY). split; [exact N|]. split; [exact HX|].
    change (- cy a ==[P] - y * (cz a * cz a * cz a)). change (cy a ==[P] y * (cz a * cz a * cz a)) in HY. rewrite HY. apply cong_eq. ring.
  - now apply (opp_on FP 3).
Qed.
(** MakeAffine: the same point with z = 1, or 0 : 1 : 0. *)
Lemma c_make_affine_ok st a p : c_is a p -> let m := c_make_affine st a in
  c_is m p /\ (cz m = 1 \/ m = CP 0 1 0) /\ (forall x y, p = Some (x, y) -> cz m = 1 /\ cx m ==[P] x /\ cy m ==[P] y).
Proof.
  intros (H & [Z0 Z] & O). cbv zeta. unfold c_make_affine.
  assert (AF : forall c, represents (R := FP) (cx c) (cy c) (cz c) p -> cz c = 1 -> forall x y, p = Some (x, y) -> cz c = 1 /\ cx c ==[P] x /\ cy c ==[P] y).
  { intros c HR E x y ->. destruct HR as (_ & HX & HY). rewrite E in HX, HY.
    change (cx c ==[P] x * (1 * 1)) in HX. change (cy c ==[P] y * (1 * 1 * 1)) in HY.
    split; [exact E|]. rewrite HX, HY. split; apply cong_eq; ring. }
  destruct (Z.abs (cz a) =? 1) eqn:E1.
  { apply Z.eqb_eq in E1. assert (cz a = 1) by lia. split; [split; [exact H|split; [split; auto|exact O]]|]. split; auto. }
  destruct (c_is_infinity a) eqn:EI.
  { apply Z.eqb_eq in EI. destruct p as [[x y]|].
    - exfalso. destruct H as (N & _). apply N. rewrite EI. reflexivity.
    - split; [apply c_inf|]. split; [auto|]. discriminate. }
  apply Z.eqb_neq in EI. assert (NZ : ~ cz a ==[P] 0) by (intros E; apply EI; now apply Z).
  destruct p as [[x y]|]; [|exfalso; now apply NZ]. destruct H as (_ & HX & HY).
  change (cx a ==[P] x * (cz a * cz a)) in HX. change (cy a ==[P] y * (cz a * cz a * cz a)) in HY.
  assert (S := mod_inverse_spec (cz a) P P_one). destruct (mod_inverse (cz a) P) as [i|].
  2:{ exfalso. apply S. apply Zgcd_1_rel_prime. apply rel_prime_sym, prime_rel_prime; [exact prime_P|]. intros D. apply NZ. now apply cong_0_iff. }
  destruct S as (_ & S & _).
  assert (X : (cx a * ((i * i) mod P)) mod P ==[P] x).
  { rewrite !cong_mod, HX. transitivity (x * ((cz a * i) * (cz a * i))); [apply cong_eq; ring|]. rewrite S. apply cong_eq; ring. }
  assert (Y : ((cy a * i) mod P * ((i * i) mod P)) mod P ==[P] y).
  { rewrite !cong_mod, HY. transitivity (y * ((cz a * i) * (cz a * i) * (cz a * i))); [apply cong_eq; ring|]. rewrite S. apply cong_eq; ring. }
  cbv zeta. cbn [cx cy cz]. split; [split; [|split; [split; [cbn; lia|intros E; exfalso; exact (cong_1_0 P prime_P E)]|exact O]]|].
  - split; [exact (cong_1_0 P prime_P)|]. split.
    + cbn [cx cz]. change ((cx a * ((i * i) mod P)) mod P ==[P] x * (1 * 1)). rewrite X. apply cong_eq. change (x = x * 1). now rewrite Z.mul_1_r.
    + cbn [cy cz]. change (((cy a * i) mod P * ((i * i) mod P)) mod P ==[P] y * (1 * 1 * 1)). rewrite Y. apply cong_eq. change (y = y * 1). now rewrite Z.mul_1_r.
  - split; [auto|]. intros x' y' E. injection E as <- <-. auto.
Qed.

(** ** twistPoint. *)
Ltac lock2 := match goal with
  | |- g2_square ?a =[FP2]= _ => etransitivity; [apply g2_square_ok|lock2]
  | |- g2_mul ?a ?b =[FP2]= _ => etransitivity; [apply g2_mul_ok|lock2]
  | |- g2_add ?a ?b =[FP2]= _ => etransitivity; [apply g2_add_ok|lock2]
  | |- g2_sub ?a ?b =[FP2]= _ => etransitivity; [apply g2_sub_ok|lock2]
  | |- @cadd _ ?a ?b =[FP2]= @cadd _ ?c ?d => apply (cadd_morph FP2); lock2
  | |- @csub _ ?a ?b =[FP2]= @csub _ ?c ?d => apply (csub_morph FP2); lock2
  | |- @cmul _ ?a ?b =[FP2]= @cmul _ ?c ?d => apply (cmul_morph FP2); lock2
  | |- _ => reflexivity end.
Lemma t_double_x rt a : tx (t_double rt a) =[FP2]= dbl_x FP2 (tx a) (ty a) (tz a).
Proof. unfold t_double, dbl_x. cbn [tx]. cbv zeta. lock2. Qed.
Lemma t_double_y rt a : ty (t_double rt a) =[FP2]= dbl_y FP2 (tx a) (ty a) (tz a).
Proof. unfold t_double, dbl_y, dbl_x. cbn [ty]. cbv zeta. lock2. Qed.
Lemma t_double_z rt a : tz (t_double rt a) =[FP2]= dbl_z FP2 (tx a) (ty a) (tz a).
Proof. unfold t_double, dbl_z. cbn [tz]. cbv zeta. lock2. Qed.
Lemma g2_mul_range a b : 0 <= fst (g2_mul a b) < P /\ 0 <= snd (g2_mul a b) < P.
Proof. unfold g2_mul. cbn [fst snd]. split; apply Z.mod_pos_bound, P_pos. Qed.
Lemma z2_ok_double t : 0 <= fst t < P -> 0 <= snd t < P -> z2_ok (g2_add t t).
Proof.
  intros H1 H2. unfold g2_add. split; [cbn; lia|]. intros [A B]. cbn [fst snd] in A, B.
  apply (proj2 (z_ok_double _ H1)) in A. apply (proj2 (z_ok_double _ H2)) in B. now rewrite A, B.
Qed.
Lemma z2_ok_red t : 0 <= fst t < P -> 0 <= snd t < P -> z2_ok t.
Proof.
  intros H1 H2. split; [lia|]. intros [A B]. cbn [fst snd c0 FP2 quad FP zmod] in A, B.
  apply (cong_canon_unique P (fst t) 0) in A; [|exact H1|split; [reflexivity|exact P_pos]].
  apply (cong_canon_unique P (snd t) 0) in B; [|exact H2|split; [reflexivity|exact P_pos]].
  destruct t. cbn in *. now subst.
Qed.
Lemma t_is_on a p : t_is a p -> E2 p. Proof. now intros (_ & _ & H). Qed.
Lemma t_double_ok rt a p : t_is a p -> exists s, ct_sum p p s /\ t_is (t_double rt a) s.
Proof.
  intros (H & Z & O). destruct (jac_double FP2 FP2_field FP2_two twistB _ _ _ p H O) as (s & S & H').
  exists s. split; auto. split.
  - rewrite (represents_m FP2 _ _ (t_double_x rt a) _ _ (t_double_y rt a) _ _ (t_double_z rt a) s s eq_refl). exact H'.
  - split; [|exact (sum_on_curve FP2 FP2_field twistB p p s O O S)].
    unfold t_double. cbn [tz]. apply z2_ok_double; apply g2_mul_range.
Qed.
Lemma g2_is_zero_eq a : g2_is_zero a = true <-> a = (0, 0).
Proof.
  destruct a as [x y]. unfold g2_is_zero. cbn [fst snd]. rewrite andb_true_iff, !Z.eqb_eq. split; [intros [-> ->]; reflexivity|injection 1; auto].
Qed.
Lemma t_inf_none a p : t_is a p -> (t_is_infinity a = true <-> p = None).
Proof.
  intros (H & [_ Z] & _). unfold t_is_infinity. rewrite g2_is_zero_eq. destruct p as [[x y]|]; cbn [represents] in H.
  - destruct H as (N & _). split; [intros E; exfalso; apply N; rewrite E; reflexivity|discriminate].
  - split; [reflexivity|]. intros _. now apply Z.
Qed.
Lemma g2_sub_zero a b : 0 <= fst a < P -> 0 <= snd a < P -> 0 <= fst b < P -> 0 <= snd b < P ->
  (g2_is_zero (g2_sub a b) = true <-> (a : FP2) -! b =! c0).
Proof.
  intros A1 A2 B1 B2. rewrite g2_is_zero_eq. destruct a as [a1 a2], b as [b1 b2]. unfold g2_sub. cbn [fst snd] in *.
  change ((a1 - b1, a2 - b2) = (0, 0) <-> a1 - b1 ==[P] 0 /\ a2 - b2 ==[P] 0). rewrite <- !cong_sub_0. split.
  - intros E. injection E as E1 E2. split; apply cong_eq; lia.
  - intros [E1 E2]. apply cong_canon_unique in E1; auto. apply cong_canon_unique in E2; auto. rewrite E1, E2, !Z.sub_diag. reflexivity.
Qed.
Lemma t_add_cases dbl rt a b p r : t_is a p -> t_is b r ->
  (p = None /\ t_add_with dbl rt a b = b) \/
  (p <> None /\ r = None /\ t_add_with dbl rt a b = a) \/
  (p <> None /\ apoint_eq p r /\ t_add_with dbl rt a b = dbl a) \/
  (exists s, ct_sum p r s /\ t_is (t_add_with dbl rt a b) s /\ ~ apoint_eq p r).
Proof.
  intros Ha Hb. assert (Ia := t_inf_none a p Ha). assert (Ib := t_inf_none b r Hb).
  destruct (t_is_infinity a) eqn:EA.
  { left. split; [now apply Ia|]. unfold t_add_with. now rewrite EA. }
  assert (Np : p <> None) by (intros E; apply Ia in E; discriminate).
  destruct (t_is_infinity b) eqn:EB.
  { right; left. split; [exact Np|]. split; [now apply Ib|]. unfold t_add_with. now rewrite EA, EB. }
  assert (Nr : r <> None) by (intros E; apply Ib in E; discriminate).
  destruct p as [p|]; [|congruence]. destruct r as [r|]; [|congruence].
  destruct Ha as (Ra & Za & Oa), Hb as (Rb & Zb & Ob).
  set (u1 := g2_mul (tx a) (g2_square (tz b))).
  set (u2 := g2_mul (tx b) (g2_square (tz a))).
  set (s1 := g2_mul (ty a) (g2_mul (tz b) (g2_square (tz b)))).
  set (s2 := g2_mul (ty b) (g2_mul (tz a) (g2_square (tz a)))).
  assert (Hh : g2_is_zero (g2_sub u2 u1) = true <-> add_h FP2 (tx a) (ty a) (tz a) (tx b) (ty b) (tz b) =! c0).
  { rewrite g2_sub_zero by apply g2_mul_range.
    assert (E : (u2 : FP2) -! u1 =! add_h FP2 (tx a) (ty a) (tz a) (tx b) (ty b) (tz b)) by (unfold u1, u2, add_h, U; lock2).
    rewrite E. reflexivity. }
  assert (Hs : g2_is_zero (g2_sub s2 s1) = true <-> add_s FP2 (tx a) (ty a) (tz a) (tx b) (ty b) (tz b) =! c0).
  { rewrite g2_sub_zero by apply g2_mul_range.
    assert (E : (s2 : FP2) -! s1 =! add_s FP2 (tx a) (ty a) (tz a) (tx b) (ty b) (tz b)) by (unfold s1, s2, add_s, S_; lock2).
    rewrite E. reflexivity. }
  right; right.
  destruct (g2_is_zero (g2_sub u2 u1) && g2_is_zero (g2_sub s2 s1)) eqn:T.
  - left. split; [discriminate|]. split.
    + apply andb_true_iff in T. destruct T as [T1 T2].
      exact (jac_same FP2 FP2_field _ _ _ _ _ _ p r Ra Rb (proj1 Hh T1) (proj1 Hs T2)).
    + unfold t_add_with. rewrite EA, EB. fold u1 u2 s1 s2. cbv zeta. now rewrite T.
  - right. assert (N : ~ (add_h FP2 (tx a) (ty a) (tz a) (tx b) (ty b) (tz b) =! c0 /\ add_s FP2 (tx a) (ty a) (tz a) (tx b) (ty b) (tz b) =! c0)).
    { intros [A B]. apply Hh in A. apply Hs in B. rewrite A, B in T. discriminate. }
    destruct (jac_add FP2 FP2_field FP2_two twistB _ _ _ _ _ _ p r Ra Rb Oa Ob N) as (s & S & RS).
    exists s. split; [exact S|]. split.
    + split; [|split; [|exact (sum_on_curve FP2 FP2_field twistB _ _ s Oa Ob S)]].
      * refine (proj2 (represents_m FP2 _ _ _ _ _ _ _ _ _ s s eq_refl) RS); unfold t_add_with; rewrite EA, EB; fold u1 u2 s1 s2; cbv zeta; rewrite T; cbn [tx ty tz];
          unfold add_x, add_y, add_z; cbv zeta; unfold add_x, add_h, add_s, U, S_; cbv zeta; unfold u1, u2, s1, s2; lock2.
      * unfold t_add_with; rewrite EA, EB; fold u1 u2 s1 s2; cbv zeta; rewrite T; cbn [tz]. apply z2_ok_red; apply g2_mul_range.
    + intros E. apply N. destruct p as [x1 y1], r as [x2 y2].
      destruct (add_h_0 FP2 FP2_field _ _ _ _ _ _ x1 y1 x2 y2 Ra Rb) as [A B]. destruct E. tauto.
Qed.
Lemma t_is_eq a p r : t_is a p -> apoint_eq p r -> t_is a r.
Proof.
  intros (H & Z & O) E. split; [now apply (rep_eq FP2 _ _ _ p)|]. split; auto. now apply (on_eq FP2 twistB p).
Qed.
Lemma t_add_ok rt a b p r : t_is a p -> t_is b r -> exists s, ct_sum p r s /\ t_is (t_add rt a b) s.
Proof.
  intros Ha Hb. unfold t_add. destruct (t_add_cases (t_double rt) rt a b p r Ha Hb) as [[-> ->]|[(N & -> & ->)|[(N & E & ->)|(s & S & H & _)]]].
  - exists r. split; auto. cbn. apply apoint_equiv.
  - exists p. split; auto. apply (sum_inf_r FP2). apply apoint_equiv.
  - destruct (t_double_ok rt a p Ha) as (s & S & H). exists s. split; auto. apply (sum_m FP2 p p p r s s); auto; apply apoint_equiv.
  - exists s. auto.
Qed.
Lemma t_add_inplace_ok a b p r : t_is a p -> t_is b r -> ~ apoint_eq p r \/ p = None ->
  exists s, ct_sum p r s /\ t_is (t_add_inplace a b) s.
Proof.
  intros Ha Hb N0. unfold t_add_inplace. destruct (t_add_cases t_double_inplace (tt a) a b p r Ha Hb) as [[-> ->]|[(N & -> & ->)|[(N & E & ->)|(s & S & H & _)]]].
  - exists r. split; auto. cbn. apply apoint_equiv.
  - exists p. split; auto. apply (sum_inf_r FP2). apply apoint_equiv.
  - tauto.
  - exists s. auto.
Qed.
Lemma t_inf x y t : t_is (TP x y g2_zero t) None.
Proof. split; [change (g2_zero =[FP2]= c0); reflexivity|]. split; [|exact I]. split; [cbn; lia|reflexivity]. Qed.
Lemma t_mul_ok st rt a p k : 0 <= k -> t_is a p -> exists s, multiple p (Z.to_nat k) s /\ t_is (t_mul st rt a k) s.
Proof.
  intros Hk Ha. unfold t_mul.
  apply (mul_loop_ok tpoint FP2 twistB t_is (t_double rt) (fun sum t => t_add (tt sum) t a) p (t_is_on a p Ha) FP2_field FP2_two FP2_three FP2_b).
  - apply t_double_ok.
  - intros s0 t s Ht. now apply t_add_ok.
  - exact Hk.
  - apply t_inf.
Qed.
Lemma t_negative_ok a p : t_is a p -> t_is (t_negative a) (opposite p).
Proof.
  intros (H & Z & O). split; [|split; [exact Z|]].
  - destruct p as [[x y]|]; [|exact H]. destruct H as (N & HX & HY). split; [exact N|]. split; [exact HX|]. cbn [t_negative ty tz].
    assert (E : g2_sub g2_zero (ty a) =[FP2]= -! (y *! ((tz a : FP2) *! tz a *! tz a))).
    { transitivity (-! (ty a : FP2)); [|now apply copp_morph]. split; reflexivity. }
    rewrite E. apply (opp_mul FP2).
  - now apply (opp_on FP2 twistB).
Qed.

Section Aff.
Variable R : cring.
Add Ring Rr : (c_ring R) (setoid (c_equiv R) (c_ext R)).
Lemma aff_x (x Z i : R) : Z *! i =! c1 -> (x *! (Z *! Z)) *! (i *! i) =! x.
Proof. intros H. transitivity (x *! ((Z *! i) *! (Z *! i))); [ring|]. rewrite H. ring. Qed.
Lemma aff_y (y Z i : R) : Z *! i =! c1 -> (y *! (Z *! Z *! Z)) *! i *! (i *! i) =! y.
Proof. intros H. transitivity (y *! ((Z *! i) *! (Z *! i) *! (Z *! i))); [ring|]. rewrite H. ring. Qed.
Lemma aff_1x (x : R) : x =! x *! (c1 *! c1). Proof. ring. Qed.
Lemma aff_1y (x : R) : x =! x *! (c1 *! c1 *! c1). Proof. ring. Qed.
End Aff.
Lemma t_make_affine_ok st a p : t_is a p -> let m := t_make_affine st a in
  t_is m p /\ (tz m = g2_one \/ m = TP g2_zero g2_one g2_zero g2_zero) /\
  (forall x y, p = Some (x, y) -> tz m = g2_one /\ tx m =[FP2]= x /\ ty m =[FP2]= y).
Proof.
  intros (H & [Z0 Z] & O). cbv zeta. unfold t_make_affine.
  assert (AF : forall c, represents (R := FP2) (tx c) (ty c) (tz c) p -> tz c = g2_one -> forall x y, p = Some (x, y) -> tz c = g2_one /\ tx c =[FP2]= x /\ ty c =[FP2]= y).
  { intros c HR E x y ->. destruct HR as (_ & HX & HY). rewrite E in HX, HY.
    split; [exact E|]. rewrite HX, HY. split; symmetry; [apply (aff_1x FP2)|apply (aff_1y FP2)]. }
  destruct (g2_is_one (tz a)) eqn:E1.
  { unfold g2_is_one in E1. apply andb_true_iff in E1. destruct E1 as [E1 E1']. apply Z.eqb_eq in E1, E1'.
    assert (E : tz a = g2_one) by (destruct (tz a) as [z1 z2]; cbn in *; unfold g2_one; f_equal; lia).
    split; [split; [exact H|split; [split; auto|exact O]]|]. split; auto. }
  destruct (t_is_infinity a) eqn:EI.
  { apply g2_is_zero_eq in EI. destruct p as [[x y]|].
    - exfalso. destruct H as (N & _). apply N. rewrite EI. reflexivity.
    - split; [apply t_inf|]. split; [auto|]. discriminate. }
  assert (NZ : ~ tz a =[FP2]= c0) by (intros E; apply Z in E; unfold t_is_infinity in EI; rewrite E in EI; discriminate).
  destruct p as [[x y]|]; [|exfalso; now apply NZ]. destruct H as (_ & HX & HY).
  assert (S := g2_invert_ok st (tz a) NZ). set (i := g2_invert st (tz a)) in *.
  assert (X : g2_mul (tx a) (g2_square i) =[FP2]= x).
  { rewrite (g2_mul_ok _ _), (g2_square_ok i), HX. now apply (aff_x FP2). }
  assert (Y : g2_mul (g2_mul (ty a) i) (g2_square i) =[FP2]= y).
  { rewrite (g2_mul_ok _ _), (g2_mul_ok _ _), (g2_square_ok i), HY. now apply (aff_y FP2). }
  cbv zeta. assert (R1 : represents (R := FP2) (g2_mul (tx a) (g2_square i)) (g2_mul (g2_mul (ty a) i) (g2_square i)) g2_one (Some (x, y))).
  { split; [exact (proj1 FP2_field)|]. split; [rewrite X; apply (aff_1x FP2)|rewrite Y; apply (aff_1y FP2)]. }
  split; [split; [exact R1|split; [split; [cbn; lia|intros E; exfalso; exact (proj1 FP2_field E)]|exact O]]|].
  split; [auto|]. intros x' y' E. injection E as <- <-. auto.
Qed.

(** C51-C55, C60, C64-C66: the groups G1 and G2, their serialisation, the curve constants. *)
Require Import ZArith NArith Znumtheory Setoid Bool List Lia.
Require Import Verif.Cong Verif.Ext Verif.FqModel Verif.FqProofs Verif.Pocklington Verif.TowerModel Verif.TowerSpec Verif.TowerProofs Verif.FieldProofs
  Verif.FrobProofs Verif.FrobProofs2 Verif.FinalProofs Verif.PropsTower Verif.CurveModel Verif.CurveSpec Verif.JacProofs Verif.AssocProofs Verif.CurveGroup Verif.CurveProofs
  Verif.OrderProofs Verif.PointCount Verif.SerialProofs Verif.PairModel.
Import ListNotations.
Open Scope Z_scope.

#[local] Existing Instance apoint_equiv.
(** ** C51 *)
(** Every curvePoint satisfying the equation in Jacobian coordinates stands for a point of the curve. *)
Lemma c_is_ex a : z_ok (cz a) -> cy a * cy a ==[P] cx a * cx a * cx a + 3 * (cz a * cz a * cz a * cz a * cz a * cz a) -> exists p, c_is a p.
Proof.
  intros K H. destruct (rep_exists FP FP_field (cx a) (cy a) (cz a)) as [[[x y]|] R]; [|exists None; split; [exact R|split; [exact K|exact I]]].
  exists (Some (x, y)). split; [exact R|]. split; [exact K|]. destruct R as (N & X & Y).
  change (~ cz a ==[P] 0) in N. change (cx a ==[P] x * (cz a * cz a)) in X. change (cy a ==[P] y * (cz a * cz a * cz a)) in Y.
  change Z in (type of x), (type of y). change (y * y ==[P] x * x * x + 3). rewrite X, Y in H.
  assert (N3 : ~ (cz a * cz a * cz a) * (cz a * cz a * cz a) ==[P] 0).
  { intros E. repeat (apply (cong_integral P prime_P) in E; destruct E as [E|E]); auto. }
  apply (cong_cancel P prime_P ((cz a * cz a * cz a) * (cz a * cz a * cz a))); auto.
  etransitivity; [|etransitivity; [exact H|]]; apply cong_eq; ring.
Qed.
Theorem C51_points (a : cpoint) : z_ok (cz a) ->
  cy a * cy a ==[P] cx a * cx a * cx a + 3 * (cz a * cz a * cz a * cz a * cz a * cz a) -> exists p, c_is a p.
Proof. apply c_is_ex. Qed.
Print Assumptions C51_points.
(** Add, Double, Negative and MakeAffine compute the chord-tangent sum, the tangent double, the
    opposite and the affine coordinates, for all points in all representations. *)
Theorem C51_curve (a b : cpoint) (p r : apoint FP) (st : Z) : c_is a p -> c_is b r ->
  (exists s, ct_sum p r s /\ E1 s /\ c_is (c_add a b) s) /\
  (exists s, ct_sum p p s /\ E1 s /\ c_is (c_double a) s) /\
  c_is (c_negative a) (opposite p) /\
  (c_is (c_make_affine st a) p /\ (forall x y, p = Some (x, y) -> cz (c_make_affine st a) = 1)) /\
  (c_is_infinity a = true <-> p = None).
Proof.
  intros A B. split; [|split; [|split; [|split]]].
  - destruct (c_add_ok a b p r A B) as (s & S & H). exists s. split; [exact S|]. split; [exact (c_is_on _ _ H)|exact H].
  - destruct (c_double_ok a p A) as (s & S & H). exists s. split; [exact S|]. split; [exact (c_is_on _ _ H)|exact H].
  - now apply c_negative_ok.
  - destruct (c_make_affine_ok st a p A) as (H & _ & H'). split; [exact H|]. intros x y E. exact (proj1 (H' x y E)).
  - now apply inf_none.
Qed.
Print Assumptions C51_curve.
Theorem C51_twist (a b : tpoint) (p r : apoint FP2) (rt : gfp2) (st : Z) : t_is a p -> t_is b r ->
  (exists s, ct_sum p r s /\ E2 s /\ t_is (t_add rt a b) s) /\
  (exists s, ct_sum p p s /\ E2 s /\ t_is (t_double rt a) s) /\
  t_is (t_negative a) (opposite p) /\
  (t_is (t_make_affine st a) p /\ (forall x y, p = Some (x, y) -> tz (t_make_affine st a) = g2_one)) /\
  (t_is_infinity a = true <-> p = None).
Proof.
  intros A B. split; [|split; [|split; [|split]]].
  - destruct (t_add_ok rt a b p r A B) as (s & S & H). exists s. split; [exact S|]. split; [exact (t_is_on _ _ H)|exact H].
  - destruct (t_double_ok rt a p A) as (s & S & H). exists s. split; [exact S|]. split; [exact (t_is_on _ _ H)|exact H].
  - now apply t_negative_ok.
  - destruct (t_make_affine_ok st a p A) as (H & _ & H'). split; [exact H|]. intros x y E. exact (proj1 (H' x y E)).
  - now apply t_inf_none.
Qed.
Print Assumptions C51_twist.
(** The chord-tangent law makes the points of both curves a commutative group. *)
Definition group_law (R : cring) (b : R) : Prop :=
  (forall p r, on_curve b p -> on_curve b r -> exists s, ct_sum p r s /\ on_curve b s) /\
  (forall p r s s' : apoint R, ct_sum p r s -> ct_sum p r s' -> apoint_eq s s') /\
  (forall p r s : apoint R, ct_sum p r s -> ct_sum r p s) /\
  (forall p r t u v w z : apoint R, on_curve b p -> on_curve b r -> on_curve b t ->
     ct_sum p r u -> ct_sum u t v -> ct_sum r t w -> ct_sum p w z -> apoint_eq v z) /\
  (forall p : apoint R, ct_sum None p p) /\
  (forall p : apoint R, on_curve b p -> on_curve b (opposite p) /\ ct_sum p (opposite p) None).
Lemma group_law_ok (R : cring) (F : is_field R) (two : ~ (c1 : R) +! c1 =! c0) (three : ~ (c1 : R) +! c1 +! c1 =! c0) (b : R) (ns : ~ b =! c0) : group_law R b.
Proof.
  split; [|split; [|split; [|split; [|split]]]].
  - intros p r Op Or. destruct (sum_exists R F two b p r Op Or) as [s S]. exists s. split; [exact S|]. exact (sum_on_curve R F b p r s Op Or S).
  - intros p r s s' H H'. exact (sum_unique R F p r s s' H H').
  - intros p r s. apply (sum_comm R).
  - intros p r t u v w z. apply (sum_assoc R F two three b ns).
  - intros [[x y]|]; [split; reflexivity|exact I].
  - intros p O. split; [now apply (opp_on R b)|]. destruct p as [[x y]|]; [|exact I]. left.
    split; [reflexivity|]. split; [|reflexivity]. symmetry. exact (proj2 (opp_opp R (Some (x, y)))).
Qed.
Theorem C51_group : group_law FP 3 /\ group_law FP2 twistB.
Proof. exact (conj (group_law_ok FP FP_field FP_two FP_three 3 FP_b) (group_law_ok FP2 FP2_field FP2_two FP2_three twistB FP2_b)). Qed.
Print Assumptions C51_group.
(** The generators and 2G, 3G as examples of represented points. *)
Lemma gen1 : c_is curveGen G1.
Proof. split; [|split; [|exact G1_on]]. - split; [exact (cong_1_0 P prime_P)|]. split; reflexivity. - split; [cbn; lia|]. intros E. exfalso. exact (cong_1_0 P prime_P E). Qed.
Lemma gen2 : t_is twistGen G2.
Proof.
  split; [|split; [|exact G2_on]].
  - split; [exact (proj1 FP2_field)|]. split; [apply (aff_1x FP2)|apply (aff_1y FP2)].
  - split; [cbn; lia|]. intros E. exfalso. exact (proj1 FP2_field E).
Qed.
Example C51_case : c_is curveGen G1 /\ t_is twistGen G2 /\
  c_make_affine 0 (c_add (c_double curveGen) curveGen) = c_make_affine 0 (c_mul cscratch curveGen 3) /\
  c_is_infinity (c_add curveGen (c_negative curveGen)) = true.
Proof. split; [exact gen1|]. split; [exact gen2|]. split; vm_compute; reflexivity. Qed.

(** ** C52: a.Add(a, b) is right unless the two points are equal. *)
Theorem C52_inplace (a b : cpoint) (p r : apoint FP) : c_is a p -> c_is b r -> ~ apoint_eq p r \/ p = None ->
  exists s, ct_sum p r s /\ c_is (c_add_inplace a b) s.
Proof. apply c_add_inplace_ok. Qed.
Print Assumptions C52_inplace.
Theorem C52_inplace_twist (a b : tpoint) (p r : apoint FP2) : t_is a p -> t_is b r -> ~ apoint_eq p r \/ p = None ->
  exists s, ct_sum p r s /\ t_is (t_add_inplace a b) s.
Proof. apply t_add_inplace_ok. Qed.
Print Assumptions C52_inplace_twist.
(** What the in-place doubling returns: x and y are those of the double, but z belongs to another
    point, except when 8 y' y^2 z^9 = 1 for the double (x', y') of (x, y). *)
Section DoubleInPlace.
Variable R : cring.
Hypothesis F : is_field R.
Hypothesis two : ~ (c1 : R) +! c1 =! c0.
Variable b : R.
Add Ring Rdip : (c_ring R) (setoid (c_equiv R) (c_ext R)).
Definition eight (r : R) : R := let r2 := r +! r in let r4 := r2 +! r2 in r4 +! r4.
Definition pow9 (z : R) : R := let z3 := z *! z *! z in z3 *! z3 *! z3.
Lemma cancel (u v w : R) : ~ u =! c0 -> u *! v =! u *! w -> v =! w.
Proof using F.
  intros N H. destruct (f_eq_dec R F v w) as [E|E]; [exact E|exfalso]. apply (nz_mul R F u (v -! w) N).
  - intros Z. apply E. transitivity (v -! w +! w); [ring|]. rewrite Z. ring.
  - transitivity (u *! v -! u *! w); [ring|]. rewrite H. ring.
Qed.
Lemma double_inplace X Y Z x y x' y' : represents X Y Z (Some (x, y)) -> on_curve b (Some (x, y)) ->
  ct_sum (Some (x, y)) (Some (x, y)) (Some (x', y')) -> ~ x' =! c0 ->
  (represents (dbl_x R X Y Z) (dbl_y R X Y Z) (dbl_y R X Y Z *! Z +! dbl_y R X Y Z *! Z) (Some (x', y')) <->
   eight (y' *! (y *! y) *! pow9 Z) =! c1).
Proof using F two.
  intros H O S NX. destruct (jac_double R F two b X Y Z _ H O) as (s & S' & D).
  assert (D' := rep_eq R _ _ _ _ _ D (sum_unique R F _ _ _ _ S' S)). clear s S' D. destruct D' as (N & DX & DY), H as (NZ & _ & HY).
  set (Y' := dbl_y R X Y Z) in *. set (X' := dbl_x R X Y Z) in *. assert (EZ : dbl_z R X Y Z =! Y *! Z +! Y *! Z) by (unfold dbl_z; reflexivity).
  set (Z' := dbl_z R X Y Z) in *. set (Z2 := Y' *! Z +! Y' *! Z).
  assert (NYZ : ~ Y *! Z =! c0) by (intros E; apply N; rewrite EZ, E; ring).
  assert (NY : ~ Y =! c0) by (intros E; apply NYZ; rewrite E; ring).
  assert (EY : Y' =! Y *! eight (y' *! (y *! y) *! pow9 Z)).
  { rewrite DY, EZ, HY. unfold eight, pow9. ring. }
  split.
  - intros (_ & EX & EY2). assert (Q2 : Z2 *! Z2 =! Z' *! Z') by (apply (cancel x'); [exact NX|]; rewrite <- EX, <- DX; reflexivity).
    assert (NY' : ~ y' =! c0 \/ y' =! c0) by (destruct (f_dec R F y'); tauto). destruct NY' as [NY'|E0].
    + assert (Q3 : Z2 *! Z2 *! Z2 =! Z' *! Z' *! Z') by (apply (cancel y'); [exact NY'|]; rewrite <- EY2, <- DY; reflexivity).
      assert (Q : Z2 =! Z').
      { apply (cancel (Z' *! Z')); [apply (nz_mul R F); exact N|]. rewrite <- Q3, <- Q2. reflexivity. }
      assert (E : Y' =! Y).
      { apply (cancel (Z +! Z)); [now apply (nz_two R F two)|]. transitivity Z2; [unfold Z2; ring|]. rewrite Q, EZ. ring. }
      apply (cancel Y); [exact NY|]. rewrite <- EY, E. ring.
    + exfalso. apply N. assert (E : Y' =! c0) by (rewrite DY, E0; ring). assert (E2 : Z2 =! c0) by (unfold Z2; rewrite E; ring).
      assert (E3 : Z' *! Z' =! c0) by (rewrite <- Q2, E2; ring). destruct (f_dec R F Z') as [A|A]; [exact A|exfalso]. exact (nz_mul R F Z' Z' A A E3).
  - intros E. assert (E' : Y' =! Y) by (rewrite EY, E; ring). assert (Q : Z2 =! Z') by (unfold Z2; rewrite EZ, E'; ring).
    split; [rewrite Q; exact N|]. split; rewrite Q; [exact DX|exact DY].
Qed.
End DoubleInPlace.
Theorem C52_double (a b : cpoint) (x y x' y' : FP) : c_is a (Some (x, y)) -> c_is b (Some (x, y)) ->
  ct_sum (Some (x, y)) (Some (x, y)) (Some (x', y')) -> ~ x' =[FP]= c0 ->
  (c_is (c_add_inplace a b) (Some (x', y')) <-> eight FP (y' *! (y *! y) *! pow9 FP (cz a)) =[FP]= c1).
Proof.
  intros A B S N. rewrite <- (double_inplace FP FP_field FP_two 3 _ _ _ _ _ _ _ (proj1 A) (c_is_on _ _ A) S N).
  unfold c_add_inplace. destruct (c_add_cases c_double_inplace a b _ _ A B) as [[E _]|[(_ & E & _)|[(_ & _ & ->)|(s & _ & _ & E)]]]; try discriminate.
  2:{ exfalso. apply E. split; reflexivity. }
  assert (RM : represents (R := FP) (cx (c_double_inplace a)) (cy (c_double_inplace a)) (cz (c_double_inplace a)) (Some (x', y')) <->
    represents (R := FP) (dbl_x FP (cx a) (cy a) (cz a)) (dbl_y FP (cx a) (cy a) (cz a))
      ((dbl_y FP (cx a) (cy a) (cz a) : FP) *! cz a +! dbl_y FP (cx a) (cy a) (cz a) *! cz a) (Some (x', y'))).
  { apply (represents_m FP _ _ (c_double_x a) _ _ (c_double_y a)); [|reflexivity].
    assert (M : (cy (c_double a) * cz a) mod P ==[P] dbl_y FP (cx a) (cy a) (cz a) * cz a) by (rewrite cong_mod; apply cong_mul; [exact (c_double_y a)|reflexivity]).
    exact (cong_add P _ _ M _ _ M). }
  split.
  - intros (H & _). exact (proj1 RM H).
  - intros H. split; [exact (proj2 RM H)|]. split; [|exact (sum_on_curve FP FP_field 3 _ _ _ (c_is_on _ _ A) (c_is_on _ _ A) S)].
    unfold c_double_inplace. cbn [cz]. apply z_ok_double, Z.mod_pos_bound, P_pos.
Qed.
Print Assumptions C52_double.
Theorem C52_double_twist (a b : tpoint) (x y x' y' : FP2) : t_is a (Some (x, y)) -> t_is b (Some (x, y)) ->
  ct_sum (Some (x, y)) (Some (x, y)) (Some (x', y')) -> ~ x' =[FP2]= c0 ->
  (t_is (t_add_inplace a b) (Some (x', y')) <-> eight FP2 (y' *! (y *! y) *! pow9 FP2 (tz a)) =[FP2]= c1).
Proof.
  intros A B S N. rewrite <- (double_inplace FP2 FP2_field FP2_two twistB _ _ _ _ _ _ _ (proj1 A) (t_is_on _ _ A) S N).
  unfold t_add_inplace. destruct (t_add_cases t_double_inplace (tt a) a b _ _ A B) as [[E _]|[(_ & E & _)|[(_ & _ & ->)|(s & _ & _ & E)]]]; try discriminate.
  2:{ exfalso. apply E. split; reflexivity. }
  assert (RM : represents (R := FP2) (tx (t_double_inplace a)) (ty (t_double_inplace a)) (tz (t_double_inplace a)) (Some (x', y')) <->
    represents (R := FP2) (dbl_x FP2 (tx a) (ty a) (tz a)) (dbl_y FP2 (tx a) (ty a) (tz a))
      ((dbl_y FP2 (tx a) (ty a) (tz a) : FP2) *! tz a +! dbl_y FP2 (tx a) (ty a) (tz a) *! tz a) (Some (x', y'))).
  { apply (represents_m FP2 _ _ (t_double_x (tt a) a) _ _ (t_double_y (tt a) a)); [|reflexivity].
    assert (M : g2_mul (ty (t_double (tt a) a)) (tz a) =[FP2]= (dbl_y FP2 (tx a) (ty a) (tz a) : FP2) *! tz a)
      by (etransitivity; [apply g2_mul_ok|]; apply (cmul_morph FP2); [exact (t_double_y (tt a) a)|reflexivity]).
    etransitivity; [apply g2_add_ok|]. apply (cadd_morph FP2); exact M. }
  split.
  - intros (H & _). exact (proj1 RM H).
  - intros H. split; [exact (proj2 RM H)|]. split; [|exact (sum_on_curve FP2 FP2_field twistB _ _ _ (t_is_on _ _ A) (t_is_on _ _ A) S)].
    unfold t_double_inplace. cbn [tz]. apply z2_ok_double; apply g2_mul_range.
Qed.
Print Assumptions C52_double_twist.
Lemma gen_doubled : forall s, ct_sum G1 G1 s -> exists x y, s = Some (x, y) /\ 16 * x ==[P] -23.
Proof.
  intros s [(_ & H & _)|(m & x & y & [(H & _)|(_ & _ & _ & H)] & -> & X & _)].
  - exfalso. change (2 ==[P] - (2)) in H. assert (E : 4 ==[P] 0) by (change 4 with (2 + 2); rewrite H at 1; reflexivity). revert E. now apply small_nz.
  - exfalso. apply H. reflexivity.
  - exists x, y. split; [reflexivity|]. change Z in (type of x), (type of m). change (x ==[P] m * m - 1 - 1) in X. change (m * (2 + 2) ==[P] (1 + 1 + 1) * (1 * 1)) in H.
    rewrite X. transitivity ((m * (2 + 2)) * (m * (2 + 2)) - 32); [apply cong_eq; ring|]. rewrite H. reflexivity.
Qed.
(** Doubling in place does not give the double of the generator, in G1 ... *)
Theorem C52_double_refuted : exists (a : cpoint) (p : apoint FP), c_is a p /\
  forall s, ct_sum p p s -> ~ represents (R := FP) (cx (c_add_inplace a a)) (cy (c_add_inplace a a)) (cz (c_add_inplace a a)) s.
Proof.
  exists curveGen, G1. split; [exact gen1|]. intros s S. destruct (gen_doubled s S) as (x & y & -> & X).
  set (d := c_add_inplace curveGen curveGen). vm_compute in d. subst d. cbn [cx cy cz]. intros (_ & H & _). change Z in (type of x).
  match type of H with @ceq _ ?A (@cmul _ _ (@cmul _ ?B _)) => change (A ==[P] x * (B * B)) in H end.
  match type of H with ?A ==[P] x * (?B * ?B) => assert (E : 16 * A ==[P] -23 * (B * B)) by (transitivity (16 * (x * (B * B))); [apply cong_mul; [reflexivity|exact H]|]; transitivity (16 * x * (B * B)); [apply cong_eq; ring|]; rewrite X; reflexivity) end.
  apply cong_mod_iff in E; [|discriminate]. vm_compute in E. discriminate.
Qed.
Print Assumptions C52_double_refuted.
Section Swap.
Variable R : cring.
Add Ring Rsw : (c_ring R) (setoid (c_equiv R) (c_ext R)).
Lemma swap (x u v : R) : x *! (u *! u) *! (v *! v) =! x *! (v *! v) *! (u *! u). Proof. ring. Qed.
Lemma zeros (x y : R) : x *! (c0 *! c0) =! y *! (c0 *! c0). Proof. ring. Qed.
End Swap.
(** ... nor in G2. *)
Definition in_place_xz : bool :=
  let d := t_double (tt twistGen) twistGen in let e := t_add_inplace twistGen twistGen in
  let u := g2_mul (tx d) (g2_square (tz e)) in let v := g2_mul (tx e) (g2_square (tz d)) in
  negb ((fst u =? fst v) && (snd u =? snd v)).
Lemma in_place_xz_differ : in_place_xz = true. Proof. vm_compute. reflexivity. Qed.
Theorem C52_double_twist_refuted : exists (a : tpoint) (p : apoint FP2), t_is a p /\
  forall s, ct_sum p p s -> ~ represents (R := FP2) (tx (t_add_inplace a a)) (ty (t_add_inplace a a)) (tz (t_add_inplace a a)) s.
Proof.
  exists twistGen, G2. split; [exact gen2|]. intros s S H. destruct (t_double_ok (tt twistGen) twistGen G2 gen2) as (s' & S' & D & _).
  assert (D' := rep_eq FP2 _ _ _ _ _ D (sum_unique FP2 FP2_field _ _ _ _ S' S)). clear D S S' s'. revert H D'. assert (Q := in_place_xz_differ). unfold in_place_xz in Q. revert Q.
  generalize (t_double (tt twistGen) twistGen) (t_add_inplace twistGen twistGen). intros d e Q H D. destruct s as [[x y]|].
  - destruct H as (_ & HX & _), D as (_ & DX & _). apply negb_true_iff, andb_false_iff in Q.
    assert (E : g2_mul (tx d) (g2_square (tz e)) =[FP2]= g2_mul (tx e) (g2_square (tz d))).
    { rewrite !g2_mul_ok, !g2_square_ok, HX, DX. apply (swap FP2). }
    destruct E as [E1 E2]. destruct (g2_mul_range (tx d) (g2_square (tz e))) as [A1 A2]. destruct (g2_mul_range (tx e) (g2_square (tz d))) as [B1 B2].
    apply (cong_canon_unique P) in E1; [|exact A1|exact B1]. apply (cong_canon_unique P) in E2; [|exact A2|exact B2].
    destruct Q as [Q|Q]; apply Z.eqb_neq in Q; contradiction.
  - cbn in H, D.
    assert (E : g2_mul (tx d) (g2_square (tz e)) =[FP2]= g2_mul (tx e) (g2_square (tz d))).
    { rewrite !g2_mul_ok, !g2_square_ok, H, D. apply (zeros FP2). }
    destruct E as [E1 E2]. destruct (g2_mul_range (tx d) (g2_square (tz e))) as [A1 A2]. destruct (g2_mul_range (tx e) (g2_square (tz d))) as [B1 B2].
    apply (cong_canon_unique P) in E1; [|exact A1|exact B1]. apply (cong_canon_unique P) in E2; [|exact A2|exact B2].
    apply negb_true_iff, andb_false_iff in Q. destruct Q as [Q|Q]; apply Z.eqb_neq in Q; contradiction.
Qed.
Print Assumptions C52_double_twist_refuted.
Example C52_double_case : exists x' y', ct_sum G1 G1 (Some (x', y')) /\ ~ x' =[FP]= c0 /\ ~ eight FP (y' *! (2 * 2) *! pow9 FP (cz curveGen)) =[FP]= c1.
Proof.
  destruct (c_double_ok curveGen G1 gen1) as (s & S & D & _). destruct (gen_doubled s S) as (x & y & -> & X). exists x, y. split; [exact S|].
  assert (N : ~ x =[FP]= c0).
  { intros E. change (x ==[P] 0) in E. change Z in (type of x). rewrite E in X. apply cong_mod_iff in X; [|discriminate]. vm_compute in X. discriminate. }
  split; [exact N|]. intros E. apply (C52_double curveGen curveGen 1 2 x y gen1 gen1 S N) in E. destruct E as (H & _).
  revert H. set (d := c_add_inplace curveGen curveGen). vm_compute in d. subst d. cbn [cx cy cz]. intros (_ & H & _). change Z in (type of x).
  match type of H with @ceq _ ?A (@cmul _ _ (@cmul _ ?B _)) => change (A ==[P] x * (B * B)) in H end.
  match type of H with ?A ==[P] x * (?B * ?B) => assert (E : 16 * A ==[P] -23 * (B * B)) by (transitivity (16 * (x * (B * B))); [apply cong_mul; [reflexivity|exact H]|]; transitivity (16 * x * (B * B)); [apply cong_eq; ring|]; rewrite X; reflexivity) end.
  apply cong_mod_iff in E; [|discriminate]. vm_compute in E. discriminate.
Qed.
Example C52_case : ~ apoint_eq (R := FP) G1 (opposite G1) /\ c_is curveGen G1 /\ c_is (c_negative curveGen) (opposite G1).
Proof.
  split; [|split; [exact gen1|apply c_negative_ok, gen1]]. intros [_ H]. change (2 ==[P] - (2)) in H.
  assert (E : 4 ==[P] 0) by (change 4 with (2 + 2); rewrite H at 1; reflexivity). revert E. now apply small_nz.
Qed.

(** ** C60: sums accumulated in place (as the prover does) are right as long as no partial sum meets its next term. *)
Inductive sum_list {R : cring} (p : apoint R) : list (apoint R) -> apoint R -> Prop :=
| sum_nil : sum_list p [] p
| sum_snoc l r s t : sum_list p l s -> ct_sum s r t -> sum_list p (l ++ [r]) t.
Definition never_doubles {R : cring} (p : apoint R) (l : list (apoint R)) : Prop :=
  forall l1 r l2 s, l = l1 ++ r :: l2 -> sum_list p l1 s -> s = None \/ ~ apoint_eq s r.
Lemma Forall2_snoc_inv (A B : Type) (T : A -> B -> Prop) l y m : Forall2 T l (m ++ [y]) -> exists l' x, l = l' ++ [x] /\ Forall2 T l' m /\ T x y.
Proof.
  intros H. apply Forall2_app_inv_r in H. destruct H as (l' & l'' & H1 & H2 & ->). inversion H2 as [|x ? ? ? Hx Hn]; subst. inversion Hn; subst. eauto.
Qed.
Theorem C60_accumulate (acc : cpoint) (terms : list cpoint) (p : apoint FP) (ps : list (apoint FP)) :
  c_is acc p -> Forall2 c_is terms ps -> never_doubles p ps ->
  exists s, sum_list p ps s /\ c_is (c_accumulate acc terms) s.
Proof.
  intros A F. revert terms F. induction ps as [|r ps IH] using rev_ind; intros terms F N.
  - inversion F; subst. exists p. split; [constructor|exact A].
  - apply Forall2_snoc_inv in F. destruct F as (l & x & -> & F & X). destruct (IH l F) as (s & S & H).
    { intros l1 r' l2 s' -> S. apply (N l1 r' (l2 ++ [r]) s'); [now rewrite <- app_assoc|exact S]. }
    destruct (c_add_inplace_ok _ _ _ _ H X) as (t & T & H').
    { destruct (N ps r [] s eq_refl S); auto. }
    exists t. split; [econstructor; eassumption|]. unfold c_accumulate. rewrite fold_left_app. exact H'.
Qed.
Print Assumptions C60_accumulate.
Theorem C60_accumulate_twist (acc : tpoint) (terms : list tpoint) (p : apoint FP2) (ps : list (apoint FP2)) :
  t_is acc p -> Forall2 t_is terms ps -> never_doubles p ps ->
  exists s, sum_list p ps s /\ t_is (t_accumulate acc terms) s.
Proof.
  intros A F. revert terms F. induction ps as [|r ps IH] using rev_ind; intros terms F N.
  - inversion F; subst. exists p. split; [constructor|exact A].
  - apply Forall2_snoc_inv in F. destruct F as (l & x & -> & F & X). destruct (IH l F) as (s & S & H).
    { intros l1 r' l2 s' -> S. apply (N l1 r' (l2 ++ [r]) s'); [now rewrite <- app_assoc|exact S]. }
    destruct (t_add_inplace_ok _ _ _ _ H X) as (t & T & H').
    { destruct (N ps r [] s eq_refl S); auto. }
    exists t. split; [econstructor; eassumption|]. unfold t_accumulate. rewrite fold_left_app. exact H'.
Qed.
Print Assumptions C60_accumulate_twist.
(** G + G, accumulated, is not 2G. *)
Theorem C60_double_refuted : exists (acc : cpoint) (terms : list cpoint) (p : apoint FP) (ps : list (apoint FP)), c_is acc p /\ Forall2 c_is terms ps /\
  forall s, sum_list p ps s -> ~ represents (R := FP) (cx (c_accumulate acc terms)) (cy (c_accumulate acc terms)) (cz (c_accumulate acc terms)) s.
Proof.
  destruct C52_double_refuted as (a & p & A & N). exists a, [a], p, [p]. split; [exact A|]. split; [constructor; [exact A|constructor]|].
  intros s S. inversion S as [|l r u t H T E]. apply (app_inj_tail l []) in E. destruct E as [-> ->].
  inversion H as [|l' ? ? ? ? ? E]; [subst|symmetry in E; now apply app_cons_not_nil in E]. exact (N s T).
Qed.
Print Assumptions C60_double_refuted.
Example C60_case : never_doubles (R := FP) G1 [opposite G1].
Proof.
  intros l1 r l2 s E S. destruct l1 as [|? l1]; [|destruct l1; discriminate]. injection E as <- <-.
  inversion S as [|l r' u t H T E]; [|symmetry in E; now apply app_cons_not_nil in E]. right. exact (proj1 C52_case).
Qed.

(** ** C53: G1 serialisation. *)
Theorem C53_marshal (e : cpoint) (p : apoint FP) : c_is e p -> length (g1_marshal e) = 64%nat /\ Forall is_byte (g1_marshal e) /\ enc1 (g1_marshal e) p.
Proof.
  intros H. assert (E := g1_marshal_ok e p H). split; [|split; [|exact E]].
  - destruct p as [[x y]|]; [exact (encodes_length _ _ _ E)|now rewrite E].
  - destruct p as [[x y]|]; [exact (encodes_byte _ _ _ E)|]. rewrite E. exact (encodes_byte _ _ _ (zeros_enc 2)).
Qed.
Print Assumptions C53_marshal.
(** Unmarshal accepts exactly the canonical encodings of points of the curve and returns the point encoded. *)
Theorem C53_unmarshal (m : list Z) : Forall is_byte m ->
  match g1_unmarshal m with
  | Some e => exists p, E1 p /\ enc1 m p /\ c_is e p
  | None => forall p, E1 p -> ~ enc1 m p
  end.
Proof. apply g1_unmarshal_ok. Qed.
Print Assumptions C53_unmarshal.
(** Encodings of curve points are unique both ways. *)
Theorem C53_canonical (m m' : list Z) (p p' : apoint FP) : E1 p -> E1 p' -> enc1 m p -> enc1 m' p' -> (m = m' <-> apoint_eq p p').
Proof.
  intros O O' H H'. split; [intros <-; exact (enc1_unique m p p' O O' H H')|]. intros E. exact (enc1_fun m m' p p' H H' E).
Qed.
Print Assumptions C53_canonical.
Theorem C53_round_trip (e : cpoint) (p : apoint FP) : c_is e p -> exists e', g1_unmarshal (g1_marshal e) = Some e' /\ c_is e' p.
Proof.
  intros H. destruct (C53_marshal e p H) as (_ & B & E). assert (U := g1_unmarshal_ok _ B). destruct (g1_unmarshal (g1_marshal e)) as [e'|].
  - exists e'. split; [reflexivity|]. destruct U as (p' & O & E' & H'). apply (c_is_eq e' p'); [exact H'|]. exact (enc1_unique _ _ _ O (c_is_on _ _ H) E' E).
  - exfalso. exact (U p (c_is_on _ _ H) E).
Qed.
Print Assumptions C53_round_trip.
Example C53_case : g1_unmarshal (g1_marshal (c_double curveGen)) = Some (c_make_affine 0 (c_double curveGen)) /\
  g1_unmarshal (repeat 0 63 ++ [1]) = None /\ g1_unmarshal (bytes32 (P + 1) ++ bytes32 2) = None /\ g1_unmarshal (repeat 0 64) = Some (CP 0 1 0).
Proof. split; [vm_compute; reflexivity|]. split; [vm_compute; reflexivity|]. split; vm_compute; reflexivity. Qed.
(** X returns the affine x coordinate, reduced, and 0 for infinity. *)
Theorem C53_x (e : cpoint) (p : apoint FP) : c_is e p -> g1_x e = match p with Some (x, _) => x mod P | None => 0 end.
Proof.
  intros H. assert (I := inf_none e p H). destruct (c_make_affine_ok 0 e p H) as (_ & _ & A). unfold g1_x. destruct (c_is_infinity e).
  - now rewrite (proj1 I eq_refl).
  - destruct p as [[x y]|]; [|discriminate (proj2 I eq_refl)]. destruct (A x y eq_refl) as (_ & X & _). apply cong_mod_iff; [discriminate|exact X].
Qed.
Print Assumptions C53_x.

(** ** C64: G2 serialisation; Unmarshal also demands that Order times the point be infinity. *)
Theorem C64_marshal (e : tpoint) (p : apoint FP2) : t_is e p -> length (g2_marshal e) = 128%nat /\ Forall is_byte (g2_marshal e) /\ enc2 (g2_marshal e) p.
Proof.
  intros H. assert (E := g2_marshal_ok e p H). split; [|split; [|exact E]].
  - destruct p as [[x y]|]; [exact (encodes_length _ _ _ E)|now rewrite E].
  - destruct p as [[x y]|]; [exact (encodes_byte _ _ _ E)|]. rewrite E. exact (encodes_byte _ _ _ (zeros_enc 4)).
Qed.
Print Assumptions C64_marshal.
Theorem C64_unmarshal (st : tpoint) (rt : gfp2) (m : list Z) : Forall is_byte m ->
  match g2_unmarshal st rt m with
  | Some e => exists p, in_G2 p /\ enc2 m p /\ t_is e p
  | None => forall p, in_G2 p -> ~ enc2 m p
  end.
Proof. apply g2_unmarshal_ok. Qed.
Print Assumptions C64_unmarshal.
Theorem C64_canonical (m m' : list Z) (p p' : apoint FP2) : E2 p -> E2 p' -> enc2 m p -> enc2 m' p' -> (m = m' <-> apoint_eq p p').
Proof.
  intros O O' H H'. split; [intros <-; exact (enc2_unique m p p' O O' H H')|]. intros E. exact (enc2_fun m m' p p' H H' E).
Qed.
Print Assumptions C64_canonical.
Theorem C64_round_trip (st : tpoint) (rt : gfp2) (e : tpoint) (p : apoint FP2) : t_is e p -> in_G2 p ->
  exists e', g2_unmarshal st rt (g2_marshal e) = Some e' /\ t_is e' p.
Proof.
  intros H S. destruct (C64_marshal e p H) as (_ & B & E). assert (U := g2_unmarshal_ok st rt _ B). destruct (g2_unmarshal st rt (g2_marshal e)) as [e'|].
  - exists e'. split; [reflexivity|]. destruct U as (p' & [O _] & E' & H'). apply (t_is_eq e' p'); [exact H'|]. exact (enc2_unique _ _ _ O (t_is_on _ _ H) E' E).
  - exfalso. exact (U p S E).
Qed.
Print Assumptions C64_round_trip.
Lemma G2_in : in_G2 G2. Proof. exact (conj G2_on order_G2). Qed.
Example C64_case : t_is twistGen G2 /\ in_G2 G2.
Proof. exact (conj gen2 G2_in). Qed.

(** ** C54: GT serialisation. *)
Theorem C54_round_trip (a : gfp12) : length (gt_marshal a) = 384%nat /\ exists b, gt_unmarshal (gt_marshal a) = Some b /\ b =[FP12]= a.
Proof.
  assert (E := gt_marshal_enc a). assert (L := encodes_length _ _ _ E). split; [exact L|].
  unfold gt_unmarshal. rewrite L. cbn [Nat.eqb negb length flatten12 flat_map app Nat.mul Nat.add]. eexists. split; [reflexivity|].
  apply flatten_eq. revert E. generalize (gt_marshal a). intros m E. clear L.
  destruct a as [[[[a1 a2] [a3 a4]] [a5 a6]] [[[a7 a8] [a9 a10]] [a11 a12]]].
  cbn [flatten12 flat_map app g6x g6y g6z fst snd] in *.
  assert (Q : forall k z, set_bytes (chunk k m) = z mod P -> set_bytes (chunk k m) ==[P] z) by (intros k z ->; apply cong_mod).
  revert m E Q.
  assert (G : forall xs k m0 m, encodes P m xs -> (forall j, chunk (k + j) m0 = chunk j m) ->
    Forall2 (fun x y => x ==[P] y) (map (fun j => set_bytes (chunk j m0)) (seq k (length xs))) xs).
  { induction xs as [|x xs IH]; intros k m0 m E C; [constructor|]. cbn [length seq map]. constructor.
    - rewrite <- (Nat.add_0_r k), C, (encodes_0 _ _ _ _ E). apply cong_mod.
    - destruct (encodes_S _ _ _ _ E) as (m' & E' & C'). apply (IH (S k) m0 m' E'). intros j. rewrite <- C', <- C. f_equal. lia. }
  intros m E _. exact (G _ 0%nat m m E (fun j => eq_refl)).
Qed.
Print Assumptions C54_round_trip.
Theorem C54_marshal_injective (a b : gfp12) : gt_marshal a = gt_marshal b <-> a =[FP12]= b.
Proof.
  rewrite <- flatten_eq. apply encodes_iff; [exact P_pos|apply gt_marshal_enc|apply gt_marshal_enc|reflexivity].
Qed.
Print Assumptions C54_marshal_injective.
(** Decoding is not injective: coordinates are not compared with P. *)
Theorem C54_not_injective_refuted : exists m m' a b, Forall is_byte m /\ Forall is_byte m' /\ m <> m' /\
  gt_unmarshal m = Some a /\ gt_unmarshal m' = Some b /\ a =[FP12]= b.
Proof.
  exists (repeat 0 384), (bytes32 P ++ repeat 0 352). do 2 eexists.
  split; [apply Forall_forall; intros x H; apply repeat_spec in H; subst; split; [lia|reflexivity]|].
  split; [apply Forall_app; split; [apply bytes32_byte|apply Forall_forall; intros x H; apply repeat_spec in H; subst; split; [lia|reflexivity]]|].
  split; [intros E; apply (f_equal (fun l => nth 31 l 0)) in E; vm_compute in E; discriminate|].
  split; [vm_compute; reflexivity|]. split; [vm_compute; reflexivity|].
  repeat split; try reflexivity. exists (-1). reflexivity.
Qed.
Print Assumptions C54_not_injective_refuted.
(** Nor does it check membership in GT: 0 is accepted. *)
Theorem C54_membership_refuted : exists m a, Forall is_byte m /\ gt_unmarshal m = Some a /\ ~ cpow (a : FP12) (Z.to_N Order) =[FP12]= c1.
Proof.
  exists (repeat 0 384). eexists. split; [apply Forall_forall; intros x H; apply repeat_spec in H; subst; split; [lia|reflexivity]|].
  split; [vm_compute; reflexivity|]. intros H. apply (proj1 FP12_field). rewrite <- H. change (cpow (c0 : FP12) (Z.to_N Order) =! c0). apply cpow_zero. discriminate.
Qed.
Print Assumptions C54_membership_refuted.
Example C54_case : gt_unmarshal (gt_marshal ex12) = Some (g12_minimal ex12).
Proof. vm_compute. reflexivity. Qed.

(** ** C65: scalar multiplication. *)
Theorem C65_mul (st a : cpoint) (p : apoint FP) (k : Z) : 0 <= k -> c_is a p ->
  exists s, multiple p (Z.to_nat k) s /\ c_is (c_mul st a k) s.
Proof. intros K H. exact (c_mul_ok st a p k K H). Qed.
Print Assumptions C65_mul.
Theorem C65_mul_twist (st a : tpoint) (rt : gfp2) (p : apoint FP2) (k : Z) : 0 <= k -> t_is a p ->
  exists s, multiple p (Z.to_nat k) s /\ t_is (t_mul st rt a k) s.
Proof. intros K H. exact (t_mul_ok st rt a p k K H). Qed.
Print Assumptions C65_mul_twist.
Lemma marshal1_eq a b p r : c_is a p -> c_is b r -> (g1_marshal a = g1_marshal b <-> apoint_eq p r).
Proof. intros A B. exact (C53_canonical _ _ p r (c_is_on _ _ A) (c_is_on _ _ B) (g1_marshal_ok _ _ A) (g1_marshal_ok _ _ B)). Qed.
Lemma marshal2_eq a b p r : t_is a p -> t_is b r -> (g2_marshal a = g2_marshal b <-> apoint_eq p r).
Proof. intros A B. exact (C64_canonical _ _ p r (t_is_on _ _ A) (t_is_on _ _ B) (g2_marshal_ok _ _ A) (g2_marshal_ok _ _ B)). Qed.
Lemma base1 k : 0 <= k -> exists s, multiple G1 (Z.to_nat k) s /\ c_is (g1_base k) s.
Proof. intros K. exact (c_mul_ok cscratch curveGen G1 k K gen1). Qed.
Lemma base2 k : 0 <= k -> exists s, multiple G2 (Z.to_nat k) s /\ t_is (g2_base k) s.
Proof. intros K. exact (t_mul_ok tscratch g2_zero twistGen G2 k K gen2). Qed.
Lemma G2_nz : G2 <> None. Proof. discriminate. Qed.
(** k G depends on k modulo Order only, and different residues give different points. *)
Theorem C65_order (j k : Z) : 0 <= j -> 0 <= k ->
  (g1_marshal (g1_base j) = g1_marshal (g1_base k) <-> j ==[Order] k) /\
  (g2_marshal (g2_base j) = g2_marshal (g2_base k) <-> j ==[Order] k).
Proof.
  intros J K. split.
  - destruct (base1 j J) as (s & M & S). destruct (base1 k K) as (t & N & T). rewrite (marshal1_eq _ _ _ _ S T).
    rewrite (mult_cong FP FP_field FP_two FP_three 3 FP_b G1 G1_on Order prime_Order order_G1 G1_nz _ _ _ _ M N).
    rewrite !Z2Nat.id by assumption. reflexivity.
  - destruct (base2 j J) as (s & M & S). destruct (base2 k K) as (t & N & T). rewrite (marshal2_eq _ _ _ _ S T).
    rewrite (mult_cong FP2 FP2_field FP2_two FP2_three twistB FP2_b G2 G2_on Order prime_Order order_G2 G2_nz _ _ _ _ M N).
    rewrite !Z2Nat.id by assumption. reflexivity.
Qed.
Print Assumptions C65_order.
(** Addition of multiples adds the factors, scalar multiplication multiplies them. *)
Theorem C65_hom (j k : Z) (rt : gfp2) : 0 <= j -> 0 <= k ->
  g1_marshal (c_add (g1_base j) (g1_base k)) = g1_marshal (g1_base (j + k)) /\
  g1_marshal (g1_mul (g1_base j) k) = g1_marshal (g1_base (j * k)) /\
  g2_marshal (t_add rt (g2_base j) (g2_base k)) = g2_marshal (g2_base (j + k)) /\
  g2_marshal (g2_smul (g2_base j) k) = g2_marshal (g2_base (j * k)).
Proof.
  intros J K. destruct (base1 j J) as (s & M & S). destruct (base1 k K) as (t & N & T).
  destruct (base2 j J) as (s2 & M2 & S2). destruct (base2 k K) as (t2 & N2 & T2). split; [|split; [|split]].
  - destruct (c_add_ok _ _ _ _ S T) as (v & V & C). destruct (base1 (j + k)) as (w & W & D); [lia|]. apply (marshal1_eq _ _ _ _ C D).
    rewrite Z2Nat.inj_add in W by assumption. apply (mult_unique FP FP_field G1 (Z.to_nat j + Z.to_nat k)); [|exact W].
    exact (mult_add FP FP_field FP_two FP_three 3 FP_b G1 _ _ s t v G1_on M N V).
  - destruct (c_mul_ok cscratch _ _ k K S) as (v & V & C). destruct (base1 (j * k)) as (w & W & D); [nia|]. apply (marshal1_eq _ _ _ _ C D).
    rewrite Z2Nat.inj_mul, Nat.mul_comm in W by assumption. apply (mult_unique FP FP_field G1 (Z.to_nat k * Z.to_nat j)); [|exact W].
    exact (mult_mul FP FP_field FP_two FP_three 3 FP_b G1 _ _ s v G1_on M V).
  - destruct (t_add_ok rt _ _ _ _ S2 T2) as (v & V & C). destruct (base2 (j + k)) as (w & W & D); [lia|]. apply (marshal2_eq _ _ _ _ C D).
    rewrite Z2Nat.inj_add in W by assumption. apply (mult_unique FP2 FP2_field G2 (Z.to_nat j + Z.to_nat k)); [|exact W].
    exact (mult_add FP2 FP2_field FP2_two FP2_three twistB FP2_b G2 _ _ s2 t2 v G2_on M2 N2 V).
  - destruct (t_mul_ok tscratch g2_zero _ _ k K S2) as (v & V & C). destruct (base2 (j * k)) as (w & W & D); [nia|]. apply (marshal2_eq _ _ _ _ C D).
    rewrite Z2Nat.inj_mul, Nat.mul_comm in W by assumption. apply (mult_unique FP2 FP2_field G2 (Z.to_nat k * Z.to_nat j)); [|exact W].
    exact (mult_mul FP2 FP2_field FP2_two FP2_three twistB FP2_b G2 _ _ s2 v G2_on M2 V).
Qed.
Print Assumptions C65_hom.
(** A negative factor is read as its two's complement bits: -1 times G is 3G, not the opposite of G. *)
Theorem C65_negative_refuted : exists (a : cpoint) (p : apoint FP) (k : Z), c_is a p /\
  forall s, multiple p (Z.to_nat (- k)) s -> ~ c_is (g1_mul a k) (opposite s).
Proof.
  exists curveGen, G1, (-1). split; [exact gen1|]. intros s M H. change (Z.to_nat (- (-1))) with 1%nat in M.
  
  assert (B : g1_mul curveGen (-1) = g1_base 3) by (vm_compute; reflexivity). rewrite B in H.
  destruct (base1 3) as (t & N & T); [lia|].
  assert (E2 := proj1 (marshal1_eq _ _ _ _ T H) eq_refl).
  assert (Et := mult_add FP FP_field FP_two FP_three 3 FP_b G1 3 1 t s None G1_on N M).
  assert (C : ct_sum t s None).
  { apply (sum_m FP (opposite s) t s s None None); [symmetry; exact E2|reflexivity|reflexivity|]. apply (sum_comm FP).
    destruct s as [[x y]|]; [|exact I]. left. split; [reflexivity|]. split; [|reflexivity]. symmetry. exact (proj2 (opp_opp FP (Some (x, y)))). }
  specialize (Et C). apply (order_div FP FP_field FP_two FP_three 3 FP_b G1 G1_on Order prime_Order order_G1 G1_nz) in Et.
  apply Z.divide_pos_le in Et; [|reflexivity]. revert Et. vm_compute. intros Et. now apply Et.
Qed.
Print Assumptions C65_negative_refuted.
Example C65_case : g1_marshal (g1_base 5) = g1_marshal (c_add (g1_base 2) (g1_base 3)) /\ g1_marshal (g1_base 5) <> g1_marshal (g1_base 4).
Proof.
  split; [symmetry; exact (proj1 (C65_hom 2 3 g2_zero ltac:(discriminate) ltac:(discriminate)))|].
  intros H. apply (proj1 (C65_order 5 4 ltac:(discriminate) ltac:(discriminate))) in H. apply cong_mod_iff in H; [|discriminate]. discriminate.
Qed.

(** ** C66: every point of y^2 = x^3 + 3 over the integers modulo P is k G for exactly one k in 0 .. Order-1. *)
Theorem C66_points (p : apoint FP) : E1 p ->
  exists k, 0 <= k < Order /\ multiple G1 (Z.to_nat k) p /\ forall j, 0 <= j < Order -> multiple G1 (Z.to_nat j) p -> j = k.
Proof.
  intros O. destruct (in_G_small p (all_in_G p O)) as (n & L & M). exists (Z.of_nat n).
  assert (L' : Z.of_nat n < Order) by (rewrite <- (Z2Nat.id Order) by discriminate; lia).
  split; [lia|]. rewrite Nat2Z.id. split; [exact M|]. intros j J N.
  assert (C := proj1 (mult_cong FP FP_field FP_two FP_three 3 FP_b G1 G1_on Order prime_Order order_G1 G1_nz _ _ _ _ N M) (reflexivity _)).
  rewrite Z2Nat.id in C by lia. apply (cong_canon_unique Order) in C; lia.
Qed.
Print Assumptions C66_points.
(** So the byte strings G1.Unmarshal accepts are those of k G, one for each k. *)
Theorem C66_unmarshal (m : list Z) : Forall is_byte m -> (
  (exists e, g1_unmarshal m = Some e) <-> exists k, 0 <= k < Order /\ m = g1_marshal (g1_base k)).
Proof.
  intros B. assert (U := g1_unmarshal_ok m B). split.
  - intros [e E]. rewrite E in U. destruct U as (p & O & EN & C). destruct (C66_points p O) as (k & K & M & _). exists k. split; [exact K|].
    destruct (base1 k) as (s & N & S); [lia|]. apply (enc1_fun _ _ p s EN (g1_marshal_ok _ _ S)). exact (mult_unique FP FP_field G1 _ _ _ M N).
  - intros (k & K & ->). destruct (base1 k) as (s & N & S); [lia|]. destruct (C53_round_trip _ _ S) as (e & E & _). exists e. exact E.
Qed.
Print Assumptions C66_unmarshal.
Example C66_case : E1 (opposite G1).
Proof. exact (proj1 (proj2 (proj2 (proj2 (proj2 (proj2 (proj1 C51_group))))) G1 G1_on)). Qed.

(** ** C55: the constants. *)
Definition digits_value (l : list Z) : Z := fold_right (fun d acc => d + 2 * acc) 0 l.
Theorem C55_parameters : prime P /\ prime Order /\
  P = 36 * bn_u ^ 4 + 36 * bn_u ^ 3 + 24 * bn_u ^ 2 + 6 * bn_u + 1 /\
  Order = 36 * bn_u ^ 4 + 36 * bn_u ^ 3 + 18 * bn_u ^ 2 + 6 * bn_u + 1 /\
  digits_value sixuPlus2NAF = 6 * bn_u + 2 /\ (forall d, In d sixuPlus2NAF -> d = -1 \/ d = 0 \/ d = 1).
Proof.
  split; [exact prime_P|]. split; [exact prime_Order|]. split; [vm_compute; reflexivity|]. split; [vm_compute; reflexivity|]. split; [vm_compute; reflexivity|].
  apply Forall_forall. unfold sixuPlus2NAF. repeat (constructor; [auto|]). constructor.
Qed.
Print Assumptions C55_parameters.
(** "in non-adjacent form" (optate.go:184) does not hold of the digits. *)
Theorem C55_naf_refuted : exists i, nth i sixuPlus2NAF 0 <> 0 /\ nth (S i) sixuPlus2NAF 0 <> 0.
Proof. exists 10%nat. split; discriminate. Qed.
Print Assumptions C55_naf_refuted.
(** The generators are on the curves and have order Order; twistB is 3 / xi. *)
Theorem C55_generators : E1 G1 /\ E2 G2 /\ (forall n, multiple G1 n None <-> (Order | Z.of_nat n)) /\ (forall n, multiple G2 n None <-> (Order | Z.of_nat n)) /\
  (twistB : FP2) *! xi =! qemb FP (-1) 3.
Proof.
  split; [exact G1_on|]. split; [exact G2_on|].
  split; [exact (order_div FP FP_field FP_two FP_three 3 FP_b G1 G1_on Order prime_Order order_G1 G1_nz)|].
  split; [exact (order_div FP2 FP2_field FP2_two FP2_three twistB FP2_b G2 G2_on Order prime_Order order_G2 G2_nz)|].
  assert (E : g2_mul twistB xi =[FP2]= qemb FP (-1) 3) by (apply eq2b_ok; vm_compute; reflexivity). rewrite <- E. symmetry. apply g2_mul_ok.
Qed.
Print Assumptions C55_generators.
(** The Frobenius constants are the powers of xi their names announce. *)
Theorem C55_frobenius_constants :
  cpow xi (Z.to_N ((P - 1) / 6)) =[FP2]= xiToPMinus1Over6 /\
  cpow xi (Z.to_N ((P - 1) / 3)) =[FP2]= xiToPMinus1Over3 /\
  cpow xi (Z.to_N ((P - 1) / 2)) =[FP2]= xiToPMinus1Over2 /\
  cpow xi (Z.to_N ((2 * P - 2) / 3)) =[FP2]= xiTo2PMinus2Over3 /\
  cpow xi (Z.to_N ((P ^ 2 - 1) / 6)) =[FP2]= qemb FP (-1) xiToPSquaredMinus1Over6 /\
  cpow xi (Z.to_N ((P ^ 2 - 1) / 3)) =[FP2]= qemb FP (-1) xiToPSquaredMinus1Over3 /\
  cpow xi (Z.to_N ((2 * P ^ 2 - 2) / 3)) =[FP2]= qemb FP (-1) xiTo2PSquaredMinus2Over3.
Proof.
  assert (A : Z.to_N ((P - 1) / 6) = k6) by (symmetry; exact k6_def).
  assert (B : Z.to_N ((P - 1) / 3) = (2 * k6)%N) by (rewrite k6_def; vm_compute; reflexivity).
  assert (C : Z.to_N ((P - 1) / 2) = (3 * k6)%N) by (rewrite k6_def; vm_compute; reflexivity).
  assert (D : Z.to_N ((2 * P - 2) / 3) = (2 * k6 + 2 * k6)%N) by (rewrite k6_def; vm_compute; reflexivity).
  assert (E : Z.to_N ((P ^ 2 - 1) / 6) = (k6 + k6 * pN)%N) by (rewrite k6_def, pN_def; vm_compute; reflexivity).
  assert (F : Z.to_N ((P ^ 2 - 1) / 3) = (2 * k6 + (2 * k6) * pN)%N) by (rewrite k6_def, pN_def; vm_compute; reflexivity).
  assert (G : Z.to_N ((2 * P ^ 2 - 2) / 3) = ((2 * k6 + 2 * k6) + (2 * k6 + 2 * k6) * pN)%N) by (rewrite k6_def, pN_def; vm_compute; reflexivity).
  rewrite A, B, C, D, E, F, G. clear A B C D E F G.
  assert (X4 : cpow xi (2 * k6 + 2 * k6) =[FP2]= xiTo2PMinus2Over3) by (rewrite cpow_add, xi_2k6, const23, g2_mul_ok; reflexivity).
  assert (FR : forall n (v : FP2), cpow xi n =[FP2]= v -> cpow xi (n + n * pN) =[FP2]= g2_mul v (g2_conj v)).
  { intros n v H. rewrite cpow_add, cpow_mul, H, frobenius2, g2_mul_ok. reflexivity. }
  split; [exact xi_k6|]. split; [exact xi_2k6|]. split; [exact xi_3k6|]. split; [exact X4|].
  split; [|split]; [rewrite constP6|rewrite constP3|rewrite constP23]; apply FR; [exact xi_k6|exact xi_2k6|exact X4].
Qed.
Print Assumptions C55_frobenius_constants.
Example C55_case : multiple G1 (Z.to_nat Order) None /\ multiple G2 (Z.to_nat Order) None.
Proof. exact (conj order_G1 order_G2). Qed.

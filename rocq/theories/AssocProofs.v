(** The chord and tangent law is a commutative group law. *)
Require Import ZArith Setoid Morphisms Ring Ring_theory.
Require Import Verif.Ext Verif.TowerSpec Verif.FieldProofs Verif.CurveSpec Verif.JacProofs.

Section Assoc.
Variable R : cring.
Hypothesis F : is_field R.
Hypothesis two : ~ (c1 : R) +! c1 =! c0.
Hypothesis three : ~ (c1 : R) +! c1 +! c1 =! c0.
Variable b : R.
Hypothesis nonsing : ~ b =! c0.
Add Ring Rr : (c_ring R) (setoid (c_equiv R) (c_ext R)).

#[local] Instance apoint_equiv : Equivalence (@apoint_eq R).
Proof.
  split.
  - intros [[x y]|]; cbn; auto. split; reflexivity.
  - intros [[x y]|] [[x' y']|]; cbn; auto. intros [A B]. split; now symmetry.
  - intros [[x y]|] [[x' y']|] [[x'' y'']|]; cbn; try tauto. intros [A B] [C D]. split; etransitivity; eauto.
Qed.
#[local] Instance slope_m : Proper (@ceq R ==> @ceq R ==> @ceq R ==> @ceq R ==> @ceq R ==> iff) (@slope R).
Proof.
  intros s s' S x1 x1' X1 y1 y1' Y1 x2 x2' X2 y2 y2' Y2. unfold slope. rewrite S, X1, Y1, X2, Y2. reflexivity.
Qed.
Lemma sum_m (p p' r r' s s' : apoint R) : apoint_eq p p' -> apoint_eq r r' -> apoint_eq s s' -> ct_sum p r s -> ct_sum p' r' s'.
Proof.
  destruct p as [[x1 y1]|], p' as [[x1' y1']|]; cbn [apoint_eq]; try tauto.
  - intros [X1 Y1]. destruct r as [[x2 y2]|], r' as [[x2' y2']|]; cbn [apoint_eq]; try tauto.
    + intros [X2 Y2] E [(A & B & C)|(m & x3 & y3 & SL & C & X3 & Y3)].
      * left. subst s. destruct s' as [[? ?]|]; [contradiction|]. rewrite <- X1, <- X2, <- Y1, <- Y2. auto.
      * right. subst s. destruct s' as [[x3' y3']|]; [|contradiction]. destruct E as [E1 E2]. exists m, x3', y3'.
        split; [rewrite <- X1, <- X2, <- Y1, <- Y2; exact SL|]. split; [reflexivity|]. rewrite <- X1, <- X2, <- Y1, <- E1, <- E2. auto.
    + intros _ E H. cbn in H |- *. rewrite <- E, H. cbn. auto.
  - intros _ E1 E2 H. cbn in H |- *. rewrite <- E1, <- E2. exact H.
Qed.
Lemma sum_comm (p r s : apoint R) : ct_sum p r s -> ct_sum r p s.
Proof.
  destruct p as [[x1 y1]|]; [|destruct r as [[x2 y2]|]; auto]. destruct r as [[x2 y2]|]; [|auto].
  intros [(A & B & C)|(m & x3 & y3 & SL & C & X3 & Y3)].
  - left. split; [now symmetry|]. split; [|exact C]. rewrite B. ring.
  - right. exists m, x3, y3. destruct SL as [[N L]|(EX & EY & NY & L)].
    + split; [|split; [exact C|split]].
      * left. split; [intros Z; apply N; now symmetry|]. transitivity (-! (m *! (x2 -! x1))); [ring|]. rewrite L. ring.
      * rewrite X3. ring.
      * rewrite Y3. transitivity (m *! (x2 -! x3) -! m *! (x2 -! x1) -! y1); [ring|]. rewrite L. ring.
    + split; [|split; [exact C|split]].
      * right. split; [now symmetry|]. split; [now symmetry|]. split; [intros Z; apply NY; rewrite EY, Z at 1; rewrite EY; ring|].
        rewrite <- EX, <- EY. exact L.
      * rewrite X3, EX. ring.
      * rewrite Y3, EX, EY. reflexivity.
Qed.

(** Facts about the line through two points of the curve. *)
Lemma line_facts m x1 y1 x2 y2 : on_curve b (Some (x1, y1)) -> on_curve b (Some (x2, y2)) -> slope m x1 y1 x2 y2 ->
  y1 =! y2 +! m *! (x1 -! x2) /\ m *! (y1 +! y2) =! x1 *! x1 +! x1 *! x2 +! x2 *! x2.
Proof.
  cbn [on_curve]. intros P1 P2 [[N L]|(EX & EY & NY & L)].
  - assert (L1 : y1 =! y2 +! m *! (x1 -! x2)).
    { transitivity (y2 -! m *! (x2 -! x1)); [rewrite L; ring|ring]. }
    split; [exact L1|]. apply (f_cancel R F (x2 -! x1)); [intros Z; apply N; symmetry; now apply f_sub|].
    transitivity ((m *! (x2 -! x1)) *! (y1 +! y2)); [ring|]. rewrite L.
    transitivity (y2 *! y2 -! y1 *! y1); [ring|]. rewrite P1, P2. ring.
  - split; [rewrite EX, EY; ring|]. transitivity (m *! (y1 +! y1)); [rewrite EY; reflexivity|]. rewrite L, EX. ring.
Qed.
(** The cubic restricted to the line. *)
Lemma line_cubic m x1 y1 x2 y2 x : y2 *! y2 =! x2 *! x2 *! x2 +! b ->
  y1 =! y2 +! m *! (x1 -! x2) -> m *! (y1 +! y2) =! x1 *! x1 +! x1 *! x2 +! x2 *! x2 ->
  (y2 +! m *! (x -! x2)) *! (y2 +! m *! (x -! x2)) -! x *! x *! x -! b =! -! ((x -! x1) *! (x -! x2) *! (x -! (m *! m -! x1 -! x2))).
Proof.
  intros P2 L1 L2. rewrite L1 in L2.
  assert (E : m *! (y2 +! y2) =! x1 *! x1 +! x1 *! x2 +! x2 *! x2 -! m *! m *! (x1 -! x2)) by (rewrite <- L2; ring).
  transitivity (y2 *! y2 +! (m *! (y2 +! y2)) *! (x -! x2) +! m *! m *! (x -! x2) *! (x -! x2) -! x *! x *! x -! b); [ring|].
  rewrite E, P2. ring.
Qed.
Lemma y0_contra x y : y *! y =! x *! x *! x +! b -> (c1 +! c1 +! c1) *! (x *! x) =! c0 -> ~ y =! c0.
Proof.
  intros P E Y. apply (f_integral R F) in E. destruct E as [E|E]; [tauto|]. apply nonsing.
  assert (X : x =! c0) by (apply (f_integral R F) in E; tauto). rewrite Y, X in P. transitivity ((c0 : R) *! c0 *! c0 +! b); [ring|]. rewrite <- P. ring.
Qed.

(** (p + r) - r = p *)
Lemma sum_cancel (p r s : apoint R) : on_curve b p -> on_curve b r -> ct_sum p r s -> ct_sum s (opposite r) p.
Proof.
  destruct p as [[x1 y1]|].
  2:{ intros _ _ E. cbn in E. destruct r as [[x y]|]; destruct s as [[x' y']|]; cbn in E; try contradiction; cbn; auto.
      left. destruct E as [E1 E2]. split; [exact E1|]. split; [rewrite E2; ring|reflexivity]. }
  destruct r as [[x2 y2]|].
  2:{ intros _ _ E. cbn in E. destruct s as [[x' y']|]; [|contradiction]. cbn. destruct E. split; symmetry; assumption. }
  intros P1 P2 [(A & B & ->)|(m & x3 & y3 & SL & -> & X3 & Y3)].
  - cbn. split; auto.
  - cbn [opposite]. destruct (line_facts m x1 y1 x2 y2 P1 P2 SL) as [L1 L2].
    assert (Y3' : y3 =! m *! (x2 -! x3) -! y2) by (rewrite Y3, L1; ring).
    right. exists (-! m), x1, y1. split; [|split; [reflexivity|split]].
    + destruct (f_eq_dec R F x3 x2) as [E|N].
      * right. assert (Y : y3 =! -! y2) by (rewrite Y3', E; ring).
        assert (M : m *! m =! x2 +! x2 +! x1) by (rewrite <- E at 1; rewrite X3; ring).
        assert (T : m *! (y2 +! y2) =! (c1 +! c1 +! c1) *! (x2 *! x2)).
        { rewrite L1 in L2. transitivity (m *! (y2 +! m *! (x1 -! x2) +! y2) -! m *! m *! (x1 -! x2)); [ring|]. rewrite L2, M. ring. }
        split; [exact E|]. split; [exact Y|]. split.
        -- intros Z. assert (Y2 : y2 =! c0).
           { assert (D : y2 +! y2 =! c0) by (transitivity (-! (-! y2) +! y2); [ring|]; rewrite <- Z, Y; ring).
             destruct (f_dec R F y2) as [H|H]; auto. exfalso. exact (nz_two R F two y2 H D). }
           refine (y0_contra x2 y2 P2 _ Y2). rewrite <- T, Y2. ring.
        -- transitivity (m *! (y2 +! y2)); [rewrite Y; ring|]. rewrite T, E. reflexivity.
      * left. split; [exact N|]. rewrite Y3'. ring.
    + rewrite X3. ring.
    + rewrite Y3. ring.
Qed.

Lemma opp_on (p : apoint R) : on_curve b p -> on_curve b (opposite p).
Proof. destruct p as [[x y]|]; auto. cbn. intros <-. ring. Qed.
Lemma opp_opp (p : apoint R) : apoint_eq (opposite (opposite p)) p.
Proof. destruct p as [[x y]|]; cbn; auto. split; [reflexivity|ring]. Qed.
Lemma sum_opp (p : apoint R) : ct_sum p (opposite p) None.
Proof. destruct p as [[x y]|]; cbn; auto. left. split; [reflexivity|]. split; [ring|reflexivity]. Qed.
Lemma opp_unique (p r : apoint R) : ct_sum p r None -> apoint_eq r (opposite p).
Proof.
  destruct p as [[x1 y1]|]; [destruct r as [[x2 y2]|]|destruct r as [[x2 y2]|]]; cbn; auto.
  intros [(A & B & _)|(m & x3 & y3 & _ & C & _)]; [|discriminate]. split; [now symmetry|]. rewrite B. ring.
Qed.
Lemma opp_sum (p r s : apoint R) : ct_sum p r s -> ct_sum (opposite p) (opposite r) (opposite s).
Proof.
  destruct p as [[x1 y1]|]; [destruct r as [[x2 y2]|]|].
  - intros [(A & B & ->)|(m & x3 & y3 & SL & -> & X3 & Y3)].
    + left. split; [exact A|]. split; [rewrite B; ring|reflexivity].
    + right. exists (-! m), x3, (-! y3). split; [|split; [reflexivity|split]].
      * destruct SL as [[N L]|(EX & EY & NY & L)]; [left; split; [exact N|]|right].
        -- transitivity (-! (m *! (x2 -! x1))); [ring|]. rewrite L. ring.
        -- split; [exact EX|]. split; [now rewrite EY|]. split.
           ++ intros Z. apply NY. transitivity (-! (-! y1)); [ring|]. rewrite Z. ring.
           ++ rewrite <- L. ring.
      * rewrite X3. ring.
      * rewrite Y3. ring.
  - destruct s as [[x y]|]; cbn; try tauto. intros [A B]. split; [exact A|]. now rewrite B.
  - destruct s as [[x y]|], r as [[x2 y2]|]; cbn; try tauto. intros [A B]. split; [exact A|]. now rewrite B.
Qed.

(** The slope of the second addition, from the second divided difference [al] of the three points. *)
Lemma second_slope x1 y1 x2 y2 x3 y3 a c al d x4 y4 :
  on_curve b (Some (x1, y1)) -> on_curve b (Some (x2, y2)) -> on_curve b (Some (x3, y3)) ->
  ~ x1 =! x3 -> slope a x1 y1 x2 y2 -> slope c x2 y2 x3 y3 -> al *! (x3 -! x1) =! c -! a ->
  x4 =! a *! a -! x1 -! x2 -> y4 =! a *! (x1 -! x4) -! y1 -> slope d x4 y4 x3 y3 ->
  al *! (d +! a) =! c1.
Proof.
  intros P1 P2 P3 NX SA SC AL X4 Y4 SD.
  destruct (line_facts a x1 y1 x2 y2 P1 P2 SA) as [L1 L2].
  destruct (line_facts c x2 y2 x3 y3 P2 P3 SC) as [M1 M2].
  cbn [on_curve] in P1, P2, P3.
  set (L3 := y2 +! a *! (x3 -! x2)).
  assert (C3 : L3 *! L3 -! x3 *! x3 *! x3 -! b =! -! ((x3 -! x1) *! (x3 -! x2) *! (x3 -! x4))).
  { unfold L3. rewrite X4. now apply (line_cubic a x1 y1 x2 y2 x3). }
  assert (D3 : y3 -! L3 =! al *! ((x3 -! x1) *! (x3 -! x2))).
  { transitivity ((al *! (x3 -! x1)) *! (x3 -! x2)); [|ring]. rewrite AL. unfold L3. rewrite M1. ring. }
  assert (Y4' : y4 =! -! L3 -! a *! (x4 -! x3)) by (rewrite Y4, L1; unfold L3; ring).
  (* K *)
  assert (K : x3 -! x4 =! al *! (L3 +! y3)).
  { destruct (f_eq_dec R F x2 x3) as [E|N].
    - (* tangent at the second point *)
      assert (YE : y2 =! y3) by (rewrite M1, E; ring).
      assert (L3E : L3 =! y2) by (unfold L3; rewrite E; ring).
      apply (f_cancel R F (x3 -! x1)); [intros Z; apply NX; symmetry; now apply f_sub|].
      transitivity ((al *! (x3 -! x1)) *! (L3 +! y3)); [|ring]. rewrite AL, L3E, <- YE, <- E.
      assert (T : c *! (y2 +! y2) =! (c1 +! c1 +! c1) *! (x2 *! x2)) by (rewrite YE at 2; rewrite M2, <- E; ring).
      transitivity (c *! (y2 +! y2) -! a *! (y2 +! y2)); [|ring]. rewrite T.
      rewrite L1 in L2. assert (E2 : a *! (y2 +! y2) =! x1 *! x1 +! x1 *! x2 +! x2 *! x2 -! a *! a *! (x1 -! x2)) by (rewrite <- L2; ring).
      rewrite E2, X4. ring.
    - apply (f_cancel R F ((x3 -! x1) *! (x3 -! x2))).
      + apply (nz_mul R F); intros Z; [apply NX|apply N]; symmetry; now apply f_sub.
      + transitivity ((al *! ((x3 -! x1) *! (x3 -! x2))) *! (L3 +! y3)); [|ring]. rewrite <- D3.
        transitivity (y3 *! y3 -! L3 *! L3); [|ring]. rewrite P3.
        transitivity (-! (L3 *! L3 -! x3 *! x3 *! x3 -! b)); [rewrite C3; ring|ring]. }
  destruct SD as [[N L]|(EX & EY & NY & L)].
  - apply (f_cancel R F (x3 -! x4)); [intros Z; apply N; symmetry; now apply f_sub|].
    transitivity (al *! (d *! (x3 -! x4) +! a *! (x3 -! x4))); [ring|]. rewrite L, Y4'.
    transitivity (al *! (L3 +! y3)); [ring|]. rewrite <- K. ring.
  - assert (Al : ~ al =! c0).
    { intros Z. rewrite Z in D3. apply NY. rewrite EY. 
      assert (E3 : y3 =! L3) by (apply f_sub; rewrite D3; ring).
      transitivity y4; [now symmetry|]. rewrite Y4', E3, EX. ring. }
    assert (S0 : L3 +! y3 =! c0).
    { destruct (f_integral R F al (L3 +! y3)) as [H|H]; [rewrite <- K, EX; ring|tauto|exact H]. }
    assert (L3E : L3 =! -! y3) by (transitivity (L3 +! y3 -! y3); [ring|rewrite S0; ring]).
    assert (NY3 : ~ y3 +! y3 =! c0).
    { intros Z. apply NY. rewrite EY. apply f_sub. rewrite <- Z. ring. }
    (* derivative at x4 = x3 *)
    assert (D0 : y3 +! y3 =! al *! ((x3 -! x1) *! (x3 -! x2))) by (rewrite <- D3, L3E; ring).
    assert (T : (c1 +! c1 +! c1) *! (x3 *! x3) =! (x3 -! x1) *! (x3 -! x2) -! a *! (y3 +! y3)).
    { assert (Y2' : a *! (y3 +! y3) =! -! (a *! (y2 +! y2)) -! (a *! a) *! ((x3 -! x2) +! (x3 -! x2))).
      { transitivity (-! a *! ((-! y3) +! (-! y3))); [ring|]. rewrite <- L3E. unfold L3. ring. }
      rewrite Y2'. rewrite L1 in L2. assert (E2 : a *! (y2 +! y2) =! x1 *! x1 +! x1 *! x2 +! x2 *! x2 -! a *! a *! (x1 -! x2)) by (rewrite <- L2; ring).
      rewrite E2. assert (A2 : a *! a =! x3 +! x1 +! x2) by (rewrite <- EX, X4; ring). rewrite A2. ring. }
    rewrite EX, EY in L. rewrite T in L.
    apply (f_cancel R F (y3 +! y3)); [exact NY3|].
    transitivity (al *! (d *! (y3 +! y3) +! a *! (y3 +! y3))); [ring|]. rewrite L.
    transitivity (al *! ((x3 -! x1) *! (x3 -! x2))); [ring|]. rewrite <- D0. ring.
Qed.

Lemma slope_sym m x1 y1 x2 y2 : slope (R := R) m x1 y1 x2 y2 -> slope m x2 y2 x1 y1.
Proof.
  intros [[N L]|(EX & EY & NY & L)].
  - left. split; [intros Z; apply N; now symmetry|]. transitivity (-! (m *! (x2 -! x1))); [ring|]. rewrite L. ring.
  - right. split; [now symmetry|]. split; [now symmetry|]. split; [intros Z; apply NY; rewrite EY, Z at 1; rewrite EY; ring|]. rewrite <- EX, <- EY. exact L.
Qed.

(** Associativity. *)
Lemma sum_assoc (p r t u v w z : apoint R) : on_curve b p -> on_curve b r -> on_curve b t ->
  ct_sum p r u -> ct_sum u t v -> ct_sum r t w -> ct_sum p w z -> apoint_eq v z.
Proof.
  intros Pp Pr Pt U V W Z.
  assert (Pu := sum_on_curve R F b p r u Pp Pr U). assert (Pw := sum_on_curve R F b r t w Pr Pt W).
  assert (UN := sum_unique R F).
  (* infinity *)
  destruct p as [[x1 y1]|].
  2:{ cbn in U, Z. apply (UN r t); [apply (sum_m u r t t v v); auto; reflexivity|]. apply (sum_m r r t t w z); auto; try reflexivity. now symmetry. }
  destruct t as [[x3 y3]|].
  2:{ assert (VU : apoint_eq v u) by (apply sum_comm in V; cbn in V; exact V).
      assert (WR : apoint_eq w r) by (apply sum_comm in W; cbn in W; exact W).
      apply (UN (Some (x1, y1)) r); [apply (sum_m (Some (x1, y1)) (Some (x1, y1)) r r u v); auto; try reflexivity; now symmetry|].
      apply (sum_m (Some (x1, y1)) (Some (x1, y1)) w r z z); auto; reflexivity. }
  destruct r as [[x2 y2]|].
  2:{ assert (UP : apoint_eq u (Some (x1, y1))) by (apply sum_comm in U; cbn in U; exact U). cbn in W.
      apply (UN (Some (x1, y1)) (Some (x3, y3))); [apply (sum_m u (Some (x1, y1)) (Some (x3, y3)) (Some (x3, y3)) v v); auto; reflexivity|].
      apply (sum_m (Some (x1, y1)) (Some (x1, y1)) w (Some (x3, y3)) z z); auto; reflexivity. }
  set (p := Some (x1, y1)) in *. set (r := Some (x2, y2)) in *. set (t := Some (x3, y3)) in *.
  (* t = -r *)
  assert (Cr : forall s, ct_sum p r s -> ct_sum s (opposite r) p) by (intros; now apply sum_cancel).
  destruct u as [[x4 y4]|].
  2:{ (* r = -p *)
      assert (E := opp_unique p r U). cbn in V.
      (* w = -p + t; z = p + w; t = v *)
      assert (A : ct_sum t r w) by now apply sum_comm.
      assert (B := sum_cancel t r w Pt Pr A).
      assert (B' : ct_sum w p t) by (apply (sum_m w w (opposite r) p t t); auto; try reflexivity; destruct r as [[]|], p as [[]|]; cbn in E |- *; try tauto; destruct E as [E1 E2]; split; [exact E1|rewrite E2; ring]).
      rewrite V. apply (UN w p); auto. now apply sum_comm. }
  destruct w as [[x6 y6]|].
  2:{ assert (E := opp_unique r t W). apply sum_comm in Z. cbn in Z.
      assert (V' : ct_sum (Some (x4, y4)) (opposite r) v) by (apply (sum_m (Some (x4, y4)) (Some (x4, y4)) t (opposite r) v v); auto; reflexivity).
      rewrite Z. apply (UN (Some (x4, y4)) (opposite r)); auto. }
  destruct (f_eq_dec R F x1 x3) as [EX|NX].
  { (* t = p or t = -p *)
    assert (YY : y1 =! y3 \/ y1 =! -! y3).
    { cbn in Pp, Pt. assert (H : (y1 -! y3) *! (y1 +! y3) =! c0) by (transitivity (y1 *! y1 -! y3 *! y3); [ring|]; rewrite Pp, Pt, EX; ring).
      apply (f_integral R F) in H. destruct H as [H|H]; [left; now apply f_sub|right; apply f_sub; rewrite <- H; ring]. }
    destruct YY as [EY|EY].
    - assert (T : apoint_eq t p) by (cbn; split; symmetry; assumption).
      assert (W' : ct_sum p r (Some (x6, y6))) by (apply sum_comm; apply (sum_m r r t p (Some (x6, y6)) (Some (x6, y6))); auto; reflexivity).
      assert (E : apoint_eq (Some (x4, y4)) (Some (x6, y6))) by now apply (UN p r).
      apply (UN p (Some (x4, y4))).
      + apply sum_comm. apply (sum_m (Some (x4, y4)) (Some (x4, y4)) t p v v); auto; reflexivity.
      + apply (sum_m p p (Some (x6, y6)) (Some (x4, y4)) z z); auto; try reflexivity. now symmetry.
    - assert (T : apoint_eq t (opposite p)) by (cbn; split; [now symmetry|rewrite EY; ring]).
      assert (T' : apoint_eq p (opposite t)) by (cbn; split; [exact EX|exact EY]).
      (* both are r *)
      transitivity r.
      + apply (UN (Some (x4, y4)) t); auto. apply (sum_m (Some (x4, y4)) (Some (x4, y4)) (opposite p) t r r); try reflexivity; [now symmetry|].
        apply sum_cancel; auto. now apply sum_comm.
      + apply (UN (Some (x6, y6)) p); [|now apply sum_comm].
        apply (sum_m (Some (x6, y6)) (Some (x6, y6)) (opposite t) p r r); try reflexivity; [now symmetry|]. now apply sum_cancel. }
  (* v infinite *)
  destruct v as [[x5 y5]|].
  2:{ assert (E := opp_unique _ _ V).
      (* t = -(p+r), so r + t = -p *)
      assert (A := opp_sum p r (Some (x4, y4)) U).
      assert (A' := sum_cancel (opposite p) (opposite r) (opposite (Some (x4, y4))) (opp_on p Pp) (opp_on r Pr) A).
      assert (B : ct_sum t r (opposite p)).
      { apply (sum_m (opposite (Some (x4, y4))) t (opposite (opposite r)) r (opposite p) (opposite p)); auto; try reflexivity; [now symmetry|apply opp_opp]. }
      apply sum_comm in B. assert (E6 : apoint_eq (Some (x6, y6)) (opposite p)) by now apply (UN r t).
      apply (UN p (opposite p)); [apply sum_opp|]. apply (sum_m p p (Some (x6, y6)) (opposite p) z z); auto; reflexivity. }
  destruct z as [[x7 y7]|].
  2:{ assert (E := opp_unique _ _ Z). apply sum_comm in W.
      assert (A := opp_sum t r (Some (x6, y6)) W).
      assert (A' := sum_cancel (opposite t) (opposite r) (opposite (Some (x6, y6))) (opp_on t Pt) (opp_on r Pr) A).
      assert (E' : apoint_eq p (opposite (Some (x6, y6)))).
      { cbn in E |- *. destruct E as [E1 E2]. split; [now symmetry|rewrite E2; ring]. }
      assert (B : ct_sum p r (opposite t)).
      { apply (sum_m (opposite (Some (x6, y6))) p (opposite (opposite r)) r (opposite t) (opposite t)); auto; try reflexivity; [now symmetry|apply opp_opp]. }
      assert (E4 : apoint_eq (Some (x4, y4)) (opposite t)) by now apply (UN p r).
      apply (UN (opposite t) t); [|apply sum_comm, sum_opp]. apply (sum_m (Some (x4, y4)) (opposite t) t t (Some (x5, y5)) (Some (x5, y5))); auto; reflexivity. }
  (* all finite *)
  unfold p, r, t in U, V, W, Z.
  destruct U as [(_ & _ & U)|(a & x4' & y4' & SA & U & X4 & Y4)]; [discriminate|]. injection U as <- <-.
  destruct W as [(_ & _ & W)|(c & x6' & y6' & SC & W & X6 & Y6)]; [discriminate|]. injection W as <- <-.
  destruct V as [(_ & _ & V)|(d & x5' & y5' & SD & V & X5 & Y5)]; [discriminate|]. injection V as <- <-.
  destruct Z as [(_ & _ & Z)|(e & x7' & y7' & SE & Z & X7 & Y7)]; [discriminate|]. injection Z as <- <-.
  assert (N31 : ~ x3 -! x1 =! c0) by (intros Z; apply NX; symmetry; now apply f_sub).
  destruct (proj2 F (x3 -! x1)) as [H|[i Hi]]; [tauto|].
  set (al := i *! (c -! a)).
  assert (AL : al *! (x3 -! x1) =! c -! a) by (unfold al; transitivity (((x3 -! x1) *! i) *! (c -! a)); [ring|]; rewrite Hi; ring).
  assert (S1 : al *! (d +! a) =! c1) by exact (second_slope x1 y1 x2 y2 x3 y3 a c al d x4 y4 Pp Pr Pt NX SA SC AL X4 Y4 SD).
  assert (S2 : al *! (e +! c) =! c1).
  { apply (second_slope x3 y3 x2 y2 x1 y1 c a al e x6 y6); auto.
    - intros E. apply NX. now symmetry.
    - now apply slope_sym.
    - now apply slope_sym.
    - transitivity (-! (al *! (x3 -! x1))); [ring|]. rewrite AL. ring.
    - rewrite X6. ring.
    - destruct (line_facts c x2 y2 x3 y3 Pr Pt SC) as [M1 _]. rewrite Y6, M1. ring.
    - now apply slope_sym. }
  assert (NA : ~ al =! c0) by now apply (f_unit_nz R F al (d +! a)).
  assert (DE : e =! d +! a -! c).
  { apply f_sub. assert (H : al *! (e +! c) =! al *! (d +! a)) by (rewrite S1, S2; reflexivity). apply (f_cancel R F al _ _ NA) in H.
    transitivity ((e +! c) -! (d +! a)); [ring|]. rewrite H. ring. }
  assert (MU : (d +! a) *! (c -! a) =! x3 -! x1).
  { rewrite <- AL. transitivity ((al *! (d +! a)) *! (x3 -! x1)); [ring|]. rewrite S1. ring. }
  assert (X57 : x5 =! x7).
  { apply f_sub. rewrite X5, X7, X4, X6, DE.
    transitivity (((d +! a) *! (c -! a) -! (x3 -! x1)) +! ((d +! a) *! (c -! a) -! (x3 -! x1))); [ring|]. rewrite MU. ring. }
  cbn. split; [exact X57|].
  destruct (line_facts a x1 y1 x2 y2 Pp Pr SA) as [L1 _]. destruct (line_facts c x2 y2 x3 y3 Pr Pt SC) as [M1 _].
  (* y5 on the line through x3: use the line through the third point *)
  assert (Y5' : y5 =! d *! (x3 -! x5) -! y3).
  { destruct SD as [[N L]|(EX & EY & NY & L)].
    - rewrite Y5. transitivity (d *! (x3 -! x5) -! d *! (x3 -! x4) -! y4); [ring|]. rewrite L. ring.
    - rewrite Y5, EX, EY. reflexivity. }
  rewrite Y5', Y7, X57, DE.
  assert (Y13 : y1 =! y3 +! c *! (x2 -! x3) +! a *! (x1 -! x2)) by (rewrite L1, M1; ring). rewrite Y13.
  rewrite X7, X6, DE. apply f_sub.
  set (k := (d +! a) *! (c -! a) -! (x3 -! x1)). assert (K0 : k =! c0) by (unfold k; rewrite MU; ring).
  transitivity (k *! (c +! c -! (d +! a))); [|rewrite K0; ring]. unfold k. ring.
Qed.
End Assoc.

(** Jacobian addition and doubling over any field without the elements 2 = 0 compute the chord and
    tangent law. *)
Require Import ZArith Setoid Morphisms Ring Ring_theory.
Require Import Verif.Ext Verif.TowerSpec Verif.FieldProofs Verif.CurveSpec.

Section Jac.
Variable R : cring.
Hypothesis F : is_field R.
Hypothesis two : ~ (c1 : R) +! c1 =! c0.
Variable b : R.
Add Ring Rr : (c_ring R) (setoid (c_equiv R) (c_ext R)).

Lemma f_dec (a : R) : a =! c0 \/ ~ a =! c0.
Proof.
  destruct F as [N I]. destruct (I a) as [H|[i H]]; auto. right. intros Z. apply N. rewrite <- H, Z. ring.
Qed.
Lemma f_eq_dec (a c : R) : a =! c \/ ~ a =! c.
Proof.
  destruct (f_dec (a -! c)) as [H|H]; [left; now apply f_sub|right]. intros E. apply H. rewrite E. ring.
Qed.
Lemma nz_mul (a c : R) : ~ a =! c0 -> ~ c =! c0 -> ~ a *! c =! c0.
Proof. intros A C H. apply (f_integral R F) in H. tauto. Qed.
Lemma nz_two (a : R) : ~ a =! c0 -> ~ a +! a =! c0.
Proof. intros A H. apply (nz_mul (c1 +! c1) a two A). rewrite <- H. ring. Qed.
Lemma eq_sub0 (a c : R) : a =! c -> a -! c =! c0.
Proof. intros ->. ring. Qed.

(** The formulas of curve.go and twist.go. *)
Definition dbl_x (X Y Z : R) : R :=
  let A := X *! X in let B := Y *! Y in let C := B *! B in
  let d0 := (X +! B) *! (X +! B) -! A -! C in let d := d0 +! d0 in
  let e := A +! A +! A in e *! e -! (d +! d).
Definition dbl_y (X Y Z : R) : R :=
  let A := X *! X in let B := Y *! Y in let C := B *! B in
  let d0 := (X +! B) *! (X +! B) -! A -! C in let d := d0 +! d0 in
  let e := A +! A +! A in
  let c8 := let t := C +! C in let t2 := t +! t in t2 +! t2 in
  e *! (d -! dbl_x X Y Z) -! c8.
Definition dbl_z (X Y Z : R) : R := Y *! Z +! Y *! Z.
Definition U (X Z' : R) : R := X *! (Z' *! Z').
Definition S_ (Y Z' : R) : R := Y *! (Z' *! (Z' *! Z')).
Definition add_h (X1 Y1 Z1 X2 Y2 Z2 : R) : R := U X2 Z1 -! U X1 Z2.
Definition add_s (X1 Y1 Z1 X2 Y2 Z2 : R) : R := S_ Y2 Z1 -! S_ Y1 Z2.
Definition add_x (X1 Y1 Z1 X2 Y2 Z2 : R) : R :=
  let h := add_h X1 Y1 Z1 X2 Y2 Z2 in let i := (h +! h) *! (h +! h) in let j := h *! i in
  let t := add_s X1 Y1 Z1 X2 Y2 Z2 in let r := t +! t in let v := U X1 Z2 *! i in
  r *! r -! j -! (v +! v).
Definition add_y (X1 Y1 Z1 X2 Y2 Z2 : R) : R :=
  let h := add_h X1 Y1 Z1 X2 Y2 Z2 in let i := (h +! h) *! (h +! h) in let j := h *! i in
  let t := add_s X1 Y1 Z1 X2 Y2 Z2 in let r := t +! t in let v := U X1 Z2 *! i in
  r *! (v -! add_x X1 Y1 Z1 X2 Y2 Z2) -! (S_ Y1 Z2 *! j +! S_ Y1 Z2 *! j).
Definition add_z (X1 Y1 Z1 X2 Y2 Z2 : R) : R :=
  ((Z1 +! Z2) *! (Z1 +! Z2) -! Z1 *! Z1 -! Z2 *! Z2) *! add_h X1 Y1 Z1 X2 Y2 Z2.

Lemma dbl_inf X Y Z : Z =! c0 -> dbl_z X Y Z =! c0.
Proof. intros H. unfold dbl_z. rewrite H. ring. Qed.
Lemma dbl_ok X Y Z x y : represents X Y Z (Some (x, y)) ->
  (y =! c0 -> dbl_z X Y Z =! c0) /\
  (forall m, ~ y =! c0 -> m *! (y +! y) =! (c1 +! c1 +! c1) *! (x *! x) ->
    let x3 := m *! m -! x -! x in
    represents (dbl_x X Y Z) (dbl_y X Y Z) (dbl_z X Y Z) (Some (x3, m *! (x -! x3) -! y))).
Proof.
  intros (NZ & HX & HY). split.
  - intros H. unfold dbl_z. rewrite HY, H. ring.
  - intros m Ny Hm x3. assert (E : (c1 +! c1 +! c1) *! (X *! X) =! m *! dbl_z X Y Z).
    { unfold dbl_z. rewrite HX, HY. transitivity (((c1 +! c1 +! c1) *! (x *! x)) *! (Z *! Z *! (Z *! Z))); [ring|]. rewrite <- Hm. ring. }
    assert (ZE : dbl_z X Y Z =! (y +! y) *! (Z *! Z *! (Z *! Z))) by (unfold dbl_z; rewrite HY; ring).
    split; [|split].
    + rewrite ZE. apply nz_mul; [now apply nz_two|]. apply nz_mul; apply nz_mul; auto.
    + unfold x3. transitivity ((m *! dbl_z X Y Z) *! (m *! dbl_z X Y Z) -! (x +! x) *! (dbl_z X Y Z *! dbl_z X Y Z)); [|ring].
      rewrite <- E. rewrite ZE. unfold dbl_x. rewrite HX, HY. ring.
    + transitivity ((m *! dbl_z X Y Z) *! (x *! (dbl_z X Y Z *! dbl_z X Y Z) -! x3 *! (dbl_z X Y Z *! dbl_z X Y Z)) -! y *! (dbl_z X Y Z *! dbl_z X Y Z *! dbl_z X Y Z)); [|ring].
      assert (X3 : x3 *! (dbl_z X Y Z *! dbl_z X Y Z) =! dbl_x X Y Z).
      { unfold x3. transitivity ((m *! dbl_z X Y Z) *! (m *! dbl_z X Y Z) -! (x +! x) *! (dbl_z X Y Z *! dbl_z X Y Z)); [ring|].
        rewrite <- E. rewrite ZE. unfold dbl_x. rewrite HX, HY. ring. }
      rewrite X3, <- E. unfold dbl_y. cbv zeta. set (D := dbl_x X Y Z). clearbody D. rewrite ZE, HX, HY. ring.
Qed.

Lemma add_h_eq X1 Y1 Z1 X2 Y2 Z2 x1 y1 x2 y2 : represents X1 Y1 Z1 (Some (x1, y1)) -> represents X2 Y2 Z2 (Some (x2, y2)) ->
  add_h X1 Y1 Z1 X2 Y2 Z2 =! (x2 -! x1) *! (Z1 *! Z1 *! (Z2 *! Z2)) /\
  add_s X1 Y1 Z1 X2 Y2 Z2 =! (y2 -! y1) *! (Z1 *! Z1 *! Z1 *! (Z2 *! Z2 *! Z2)).
Proof.
  intros (N1 & HX1 & HY1) (N2 & HX2 & HY2). unfold add_h, add_s, U, S_. rewrite HX1, HX2, HY1, HY2. split; ring.
Qed.
Lemma add_h_0 X1 Y1 Z1 X2 Y2 Z2 x1 y1 x2 y2 : represents X1 Y1 Z1 (Some (x1, y1)) -> represents X2 Y2 Z2 (Some (x2, y2)) ->
  (add_h X1 Y1 Z1 X2 Y2 Z2 =! c0 <-> x1 =! x2) /\ (add_s X1 Y1 Z1 X2 Y2 Z2 =! c0 <-> y1 =! y2).
Proof.
  intros A B. destruct (add_h_eq X1 Y1 Z1 X2 Y2 Z2 x1 y1 x2 y2 A B) as [H S].
  destruct A as (N1 & _), B as (N2 & _). rewrite H, S. split; split; intros E.
  - apply (f_integral R F) in E. destruct E as [E|E]; [symmetry; now apply f_sub|].
    exfalso. revert E. apply nz_mul; apply nz_mul; auto.
  - rewrite E. ring.
  - apply (f_integral R F) in E. destruct E as [E|E]; [symmetry; now apply f_sub|].
    exfalso. revert E. apply nz_mul; apply nz_mul; auto; apply nz_mul; auto.
  - rewrite E. ring.
Qed.
Lemma add_ok X1 Y1 Z1 X2 Y2 Z2 x1 y1 x2 y2 : represents X1 Y1 Z1 (Some (x1, y1)) -> represents X2 Y2 Z2 (Some (x2, y2)) ->
  (x1 =! x2 -> add_z X1 Y1 Z1 X2 Y2 Z2 =! c0) /\
  (forall m, ~ x1 =! x2 -> m *! (x2 -! x1) =! y2 -! y1 ->
    let x3 := m *! m -! x1 -! x2 in
    represents (add_x X1 Y1 Z1 X2 Y2 Z2) (add_y X1 Y1 Z1 X2 Y2 Z2) (add_z X1 Y1 Z1 X2 Y2 Z2) (Some (x3, m *! (x1 -! x3) -! y1))).
Proof.
  intros A B. destruct (add_h_eq X1 Y1 Z1 X2 Y2 Z2 x1 y1 x2 y2 A B) as [H S].
  assert (A' := A). assert (B' := B). destruct A' as (N1 & HX1 & HY1), B' as (N2 & HX2 & HY2).
  assert (ZE : add_z X1 Y1 Z1 X2 Y2 Z2 =! (Z1 *! Z2 +! Z1 *! Z2) *! add_h X1 Y1 Z1 X2 Y2 Z2) by (unfold add_z; ring).
  split.
  - intros E. rewrite ZE. destruct (add_h_0 X1 Y1 Z1 X2 Y2 Z2 x1 y1 x2 y2 A B) as [[_ H0] _]. rewrite (H0 E). ring.
  - intros m N Hm x3.
    assert (HE : add_s X1 Y1 Z1 X2 Y2 Z2 =! m *! (Z1 *! Z2) *! add_h X1 Y1 Z1 X2 Y2 Z2) by (rewrite S, H, <- Hm; ring).
    assert (U1 : U X1 Z2 =! x1 *! (Z1 *! Z1 *! (Z2 *! Z2))) by (unfold U; rewrite HX1; ring).
    assert (S1 : S_ Y1 Z2 =! y1 *! (Z1 *! Z1 *! Z1 *! (Z2 *! Z2 *! Z2))) by (unfold S_; rewrite HY1; ring).
    assert (X3 : add_x X1 Y1 Z1 X2 Y2 Z2 =! x3 *! (add_z X1 Y1 Z1 X2 Y2 Z2 *! add_z X1 Y1 Z1 X2 Y2 Z2)).
    { unfold x3, add_x. cbv zeta. rewrite ZE, HE, U1. 
      set (h := add_h X1 Y1 Z1 X2 Y2 Z2) in *. clearbody h.
      transitivity ((m *! (Z1 *! Z2) *! h +! m *! (Z1 *! Z2) *! h) *! (m *! (Z1 *! Z2) *! h +! m *! (Z1 *! Z2) *! h) -! ((h +! h) *! (h +! h)) *! ((x2 -! x1) *! (Z1 *! Z1 *! (Z2 *! Z2))) -! (x1 *! (Z1 *! Z1 *! (Z2 *! Z2)) *! ((h +! h) *! (h +! h)) +! x1 *! (Z1 *! Z1 *! (Z2 *! Z2)) *! ((h +! h) *! (h +! h)))); [|ring].
      rewrite <- H. ring. }
    split; [|split].
    + rewrite ZE. apply nz_mul; [apply nz_two, nz_mul; auto|]. intros E. apply N. now apply (add_h_0 X1 Y1 Z1 X2 Y2 Z2 x1 y1 x2 y2 A B).
    + exact X3.
    + unfold add_y. cbv zeta. rewrite X3, HE, U1, S1. rewrite ZE. ring.
Qed.

(** The sum exists, and is on the curve. *)
Lemma sum_exists (p r : apoint R) : on_curve b p -> on_curve b r -> exists s, ct_sum p r s.
Proof.
  destruct p as [[x1 y1]|]; [|intros _ _; exists r; unfold ct_sum; destruct r as [[x y]|]; cbn; auto; split; reflexivity].
  destruct r as [[x2 y2]|]; [|intros _ _; exists (Some (x1, y1)); cbn; split; reflexivity].
  cbn [on_curve ct_sum]. intros P1 P2.
  destruct (f_eq_dec x1 x2) as [EX|NX].
  - destruct (f_eq_dec y1 (-! y2)) as [EY|NY]; [exists None; auto|].
    assert (Y : y1 =! y2).
    { assert (Z : (y1 -! y2) *! (y1 +! y2) =! c0).
      { transitivity (y1 *! y1 -! y2 *! y2); [ring|]. rewrite P1, P2, EX. ring. }
      apply (f_integral R F) in Z. destruct Z as [Z|Z]; [now apply f_sub|]. exfalso. apply NY. apply f_sub. rewrite <- Z. ring. }
    assert (NY0 : ~ y1 +! y1 =! c0).
    { apply nz_two. intros Z. apply NY. rewrite <- Y, Z. ring. }
    destruct F as [_ I]. destruct (I (y1 +! y1)) as [Z|[i Hi]]; [tauto|].
    eexists. right. exists (i *! ((c1 +! c1 +! c1) *! (x1 *! x1))). eexists; eexists. split; [|split; [reflexivity|split; reflexivity]].
    right. split; [exact EX|]. split; [exact Y|]. split; [exact NY|].
    transitivity (((y1 +! y1) *! i) *! ((c1 +! c1 +! c1) *! (x1 *! x1))); [ring|]. rewrite Hi. ring.
  - assert (N : ~ x2 -! x1 =! c0) by (intros Z; apply NX; symmetry; now apply f_sub).
    destruct F as [_ I]. destruct (I (x2 -! x1)) as [Z|[i Hi]]; [tauto|].
    eexists. right. exists (i *! (y2 -! y1)). eexists; eexists. split; [|split; [reflexivity|split; reflexivity]].
    left. split; [exact NX|]. transitivity (((x2 -! x1) *! i) *! (y2 -! y1)); [ring|]. rewrite Hi. ring.
Qed.
Lemma sum_on_curve (p r s : apoint R) : on_curve b p -> on_curve b r -> ct_sum p r s -> on_curve b s.
Proof.
  assert (ME : forall p r : apoint R, apoint_eq p r -> on_curve b r -> on_curve b p).
  { intros [[x y]|] [[x' y']|]; cbn; try tauto. intros [-> ->]. auto. }
  destruct p as [[x1 y1]|]; [|intros _ A S; now apply (ME s r)].
  destruct r as [[x2 y2]|]; [|intros A _ S; cbn in S; now apply (ME s (Some (x1, y1)))].
  cbn [on_curve ct_sum]. intros P1 P2 [(_ & _ & ->)|(m & x3 & y3 & SL & -> & X3 & Y3)]; [exact Logic.I|]. cbn [on_curve].
  destruct SL as [[N L]|(EX & EY & NY & L)].
  - (* (x3 - x1)(x3 - x2)-style argument, division by (x2 - x1) *)
    assert (N0 : ~ x2 -! x1 =! c0) by (intros Z; apply N; symmetry; now apply f_sub).
    apply (f_cancel R F (x2 -! x1)); auto.
    apply f_sub. rewrite Y3.
    transitivity ((x2 -! x3) *! (y1 *! y1 -! (x1 *! x1 *! x1 +! b)) +! (x3 -! x1) *! (y2 *! y2 -! (x2 *! x2 *! x2 +! b))).
    + assert (Y2 : y2 =! y1 +! m *! (x2 -! x1)) by (rewrite L; ring). rewrite Y2, X3. ring.
    + rewrite (eq_sub0 _ _ P1), (eq_sub0 _ _ P2). ring.
  - assert (N0 : ~ y1 +! y1 =! c0).
    { intros Z. apply NY. apply f_sub. rewrite <- EY, <- Z. ring. }
    rewrite Y3.
    transitivity (y1 *! y1 +! (x3 -! x1) *! (m *! (y1 +! y1)) +! (m *! m) *! ((x3 -! x1) *! (x3 -! x1))); [ring|].
    rewrite L, P1. assert (M2 : m *! m =! x3 +! x1 +! x1) by (rewrite X3, EX; ring). rewrite M2. ring.
Qed.
(** The sum is unique. *)
Lemma cmulC (x y : R) : x *! y =! y *! x. Proof. ring. Qed.
Lemma slope_unique s s' x1 y1 x2 y2 : slope (R := R) s x1 y1 x2 y2 -> slope s' x1 y1 x2 y2 -> s =! s'.
Proof.
  intros [[N L]|(EX & EY & NY & L)] [[N' L']|(EX' & EY' & NY' & L')]; try tauto.
  - apply (f_cancel R F (x2 -! x1)); [intros Z; apply N; symmetry; now apply f_sub|]. rewrite !(cmulC (x2 -! x1)), L, L'. reflexivity.
  - apply (f_cancel R F (y1 +! y1)).
    + intros Z. apply NY. apply f_sub. rewrite <- EY, <- Z. ring.
    + rewrite !(cmulC (y1 +! y1)), L, L'. reflexivity.
Qed.
Lemma sum_unique (p r s s' : apoint R) : ct_sum p r s -> ct_sum p r s' -> apoint_eq s s'.
Proof.
  assert (TR : forall p q r : apoint R, apoint_eq p q -> apoint_eq r q -> apoint_eq p r).
  { intros [[x y]|] [[x' y']|] [[x'' y'']|]; cbn; try tauto. intros [-> ->] [-> ->]. split; reflexivity. }
  destruct p as [[x1 y1]|]; [|intros A B; exact (TR _ _ _ A B)].
  destruct r as [[x2 y2]|]; [|intros A B; cbn in A, B; exact (TR _ _ _ A B)].
  cbn [ct_sum]. intros [(E1 & E2 & ->)|(m & x3 & y3 & SL & -> & X3 & Y3)] [(E1' & E2' & ->)|(m' & x3' & y3' & SL' & -> & X3' & Y3')].
  - exact Logic.I.
  - destruct SL' as [[N L]|(EX & EY & NY & L)]; tauto.
  - destruct SL as [[N L]|(EX & EY & NY & L)]; tauto.
  - assert (M := slope_unique _ _ _ _ _ _ SL SL'). cbn.
    assert (X : x3 =! x3') by (rewrite X3, X3', M; reflexivity). split; [exact X|]. rewrite Y3, Y3', M, X. reflexivity.
Qed.
(** Representations of the same point, and of equal points. *)
Lemma rep_exists X Y Z : exists p, represents (R := R) X Y Z p.
Proof.
  destruct F as [_ I]. destruct (I Z) as [E|[i Hi]]; [exists None; exact E|].
  exists (Some (X *! (i *! i), Y *! (i *! i *! i))). split; [now apply (f_unit_nz R F Z i)|]. split.
  - transitivity (X *! ((Z *! i) *! (Z *! i))); [rewrite Hi; ring|ring].
  - transitivity (Y *! ((Z *! i) *! (Z *! i) *! (Z *! i))); [rewrite Hi; ring|ring].
Qed.
Lemma rep_unique X Y Z p r : represents (R := R) X Y Z p -> represents X Y Z r -> apoint_eq p r.
Proof.
  destruct p as [[x y]|], r as [[x' y']|]; cbn; try tauto.
  intros (N & HX & HY) (_ & HX' & HY'). rewrite HX in HX'. rewrite HY in HY'. split.
  - apply (f_cancel R F (Z *! Z)); [apply nz_mul; auto|]. rewrite !(cmulC (Z *! Z)). exact HX'.
  - apply (f_cancel R F (Z *! Z *! Z)); [apply nz_mul; [apply nz_mul|]; auto|]. rewrite !(cmulC (Z *! Z *! Z)). exact HY'.
Qed.
Lemma rep_eq X Y Z p r : represents (R := R) X Y Z p -> apoint_eq p r -> represents X Y Z r.
Proof.
  destruct p as [[x y]|], r as [[x' y']|]; cbn; try tauto. intros (N & HX & HY) [E E']. rewrite <- E, <- E'. auto.
Qed.
End Jac.

(** The Miller loop of optate.go computes, up to factors the final exponentiation removes, the
    product of line values that defines the pairing. *)
Require Import ZArith NArith Setoid Morphisms Ring Ring_theory Bool Lia Znumtheory List.
Require Import Verif.Cong Verif.Ext Verif.FqModel Verif.FqProofs Verif.Pocklington Verif.TowerModel Verif.TowerSpec Verif.TowerProofs Verif.FieldProofs Verif.FrobProofs
  Verif.FrobProofs2 Verif.FinalProofs Verif.CurveModel Verif.CurveSpec Verif.JacProofs Verif.AssocProofs Verif.CurveGroup Verif.CurveProofs
  Verif.OrderCheck Verif.OrderProofs Verif.LineProofs Verif.BilinProofs Verif.HomProofs Verif.PairField Verif.PairAlg Verif.PairModel.
Import ListNotations.
Open Scope Z_scope.
#[local] Existing Instance apoint_equiv.

(** ** The formulas of the two line functions over any ring. *)
Section Formulas.
Variable R : cring.
Add Ring Rr : (c_ring R) (setoid (c_equiv R) (c_ext R)).
Definition la_h (X T x2 : R) : R := x2 *! T -! X.
Definition la_l (Y Z T y2 r2 : R) : R := ((y2 +! Z) *! (y2 +! Z) -! r2 -! T) *! T -! Y -! Y.
Definition la_e (X T x2 : R) : R := let I := la_h X T x2 *! la_h X T x2 in (I +! I) +! (I +! I).
Definition la_x (X Y Z T x2 y2 r2 : R) : R :=
  let l := la_l Y Z T y2 r2 in let e := la_e X T x2 in let v := X *! e in l *! l -! la_h X T x2 *! e -! v -! v.
Definition la_z (X Z T x2 : R) : R :=
  (Z +! la_h X T x2) *! (Z +! la_h X T x2) -! T -! la_h X T x2 *! la_h X T x2.
Definition la_y (X Y Z T x2 y2 r2 : R) : R :=
  let l := la_l Y Z T y2 r2 in let e := la_e X T x2 in let j := la_h X T x2 *! e in let v := X *! e in
  (v -! la_x X Y Z T x2 y2 r2) *! l -! (Y *! j +! Y *! j).
Definition la_a (X Y Z T x2 y2 r2 : R) : R :=
  let z := la_z X Z T x2 in let l := la_l Y Z T y2 r2 in
  (l *! x2 +! l *! x2) -! ((y2 +! z) *! (y2 +! z) -! r2 -! z *! z).

Definition ld_d (X Y : R) : R :=
  let A := X *! X in let B := Y *! Y in let C := B *! B in
  let d := (X +! B) *! (X +! B) -! A -! C in d +! d.
Definition ld_e (X : R) : R := X *! X +! X *! X +! X *! X.
Definition ld_x (X Y : R) : R := ld_e X *! ld_e X -! ld_d X Y -! ld_d X Y.
Definition ld_z (Y Z T : R) : R := (Y +! Z) *! (Y +! Z) -! Y *! Y -! T.
Definition ld_y (X Y : R) : R :=
  let C := (Y *! Y) *! (Y *! Y) in let t := C +! C in let t := t +! t in let t := t +! t in
  (ld_d X Y -! ld_x X Y) *! ld_e X -! t.
Definition ld_a (X Y : R) : R :=
  let B := Y *! Y in let t := B +! B in let t := t +! t in
  (X +! ld_e X) *! (X +! ld_e X) -! X *! X -! ld_e X *! ld_e X -! t.

Section Add.
Variables (X Y Z T x2 y2 r2 : R).
Hypothesis HT : T =! Z *! Z.
Hypothesis Hr : r2 =! y2 *! y2.
Lemma la_h_eq : la_h X T x2 =! add_h R X Y Z x2 y2 c1.
Proof. unfold la_h, add_h, U. rewrite HT. ring. Qed.
Lemma la_l_eq : la_l Y Z T y2 r2 =! add_s R X Y Z x2 y2 c1 +! add_s R X Y Z x2 y2 c1.
Proof. unfold la_l, add_s, S_. rewrite HT, Hr. ring. Qed.
Lemma la_x_eq : la_x X Y Z T x2 y2 r2 =! add_x R X Y Z x2 y2 c1.
Proof. unfold la_x, add_x, la_e. cbv zeta. rewrite la_l_eq, la_h_eq. unfold U. ring. Qed.
Lemma la_z_eq : la_z X Z T x2 =! add_z R X Y Z x2 y2 c1.
Proof. unfold la_z, add_z. rewrite la_h_eq, HT. ring. Qed.
Lemma la_y_eq : la_y X Y Z T x2 y2 r2 =! add_y R X Y Z x2 y2 c1.
Proof. unfold la_y, add_y, la_e. cbv zeta. rewrite la_x_eq, la_l_eq, la_h_eq. unfold U, S_. ring. Qed.
Variables x1 y1 m : R.
Hypothesis HX : X =! x1 *! (Z *! Z).
Hypothesis HY : Y =! y1 *! (Z *! Z *! Z).
Hypothesis Hm : m *! (x2 -! x1) =! y2 -! y1.
Lemma la_l_m : la_l Y Z T y2 r2 =! m *! la_z X Z T x2.
Proof.
  rewrite la_l_eq, la_z_eq. unfold add_s, add_z, add_h, U, S_. rewrite HX, HY.
  transitivity (((y2 -! y1) +! (y2 -! y1)) *! (Z *! Z *! Z)); [ring|]. rewrite <- Hm. ring.
Qed.
Lemma la_a_m : la_a X Y Z T x2 y2 r2 =! (la_z X Z T x2 +! la_z X Z T x2) *! (m *! x1 -! y1).
Proof.
  unfold la_a. cbv zeta. rewrite la_l_m, Hr. set (z := la_z X Z T x2). 
  transitivity ((z +! z) *! (m *! x1 +! m *! (x2 -! x1) -! y2)); [ring|]. rewrite Hm. ring.
Qed.
End Add.
Section Double.
Variables (X Y Z T : R).
Hypothesis HT : T =! Z *! Z.
Lemma ld_x_eq : ld_x X Y =! dbl_x R X Y Z.
Proof. unfold ld_x, dbl_x, ld_e, ld_d. cbv zeta. ring. Qed.
Lemma ld_z_eq : ld_z Y Z T =! dbl_z R X Y Z.
Proof. unfold ld_z, dbl_z. rewrite HT. ring. Qed.
Lemma ld_y_eq : ld_y X Y =! dbl_y R X Y Z.
Proof. unfold ld_y, dbl_y. cbv zeta. rewrite ld_x_eq. unfold ld_e, ld_d. cbv zeta. ring. Qed.
Variables x y m : R.
Hypothesis HX : X =! x *! (Z *! Z).
Hypothesis HY : Y =! y *! (Z *! Z *! Z).
Hypothesis Hm : m *! (y +! y) =! (c1 +! c1 +! c1) *! (x *! x).
Lemma ld_e_m : ld_e X =! m *! ld_z Y Z T.
Proof.
  rewrite ld_z_eq. unfold ld_e, dbl_z. rewrite HX, HY.
  transitivity (((c1 +! c1 +! c1) *! (x *! x)) *! (Z *! Z *! (Z *! Z))); [ring|]. rewrite <- Hm. ring.
Qed.
Lemma ld_a_m : ld_a X Y =! (ld_z Y Z T *! T +! ld_z Y Z T *! T) *! (m *! x -! y).
Proof.
  transitivity ((m *! ld_z Y Z T) *! (x *! T) +! (m *! ld_z Y Z T) *! (x *! T) -! (ld_z Y Z T *! T *! y +! ld_z Y Z T *! T *! y)); [|ring].
  rewrite <- ld_e_m. unfold ld_a, ld_e. cbv zeta. rewrite ld_z_eq, HT. unfold dbl_z. rewrite HX, HY. ring.
Qed.
End Double.
Section Steps.
Hypothesis F : is_field R.
Hypothesis two : ~ (c1 : R) +! c1 =! c0.
Lemma gen_div (a n : R) : ~ n =! c0 -> exists m, m *! n =! a.
Proof. intros N. destruct F as [_ I]. destruct (I n) as [H|[i H]]; [tauto|]. exists (i *! a). transitivity ((n *! i) *! a); [ring|]. rewrite H. ring. Qed.
Lemma gen_add X Y Z T x2 y2 r2 x1 y1 : T =! Z *! Z -> r2 =! y2 *! y2 -> represents X Y Z (Some (x1, y1)) -> ~ x1 =! x2 ->
  exists m x3 y3, slope m x1 y1 x2 y2 /\ ct_sum (Some (x1, y1)) (Some (x2, y2)) (Some (x3, y3)) /\
    represents (la_x X Y Z T x2 y2 r2) (la_y X Y Z T x2 y2 r2) (la_z X Z T x2) (Some (x3, y3)) /\
    la_l Y Z T y2 r2 =! m *! la_z X Z T x2 /\
    la_a X Y Z T x2 y2 r2 =! (la_z X Z T x2 +! la_z X Z T x2) *! (m *! x1 -! y1).
Proof.
  intros HT Hr H N. assert (N' : ~ x2 -! x1 =! c0) by (intros E; apply N; symmetry; now apply f_sub).
  destruct (gen_div (y2 -! y1) _ N') as [m Hm]. assert (SL : slope m x1 y1 x2 y2) by (left; auto).
  assert (H2 : represents x2 y2 c1 (Some (x2, y2))) by (split; [exact (proj1 F)|split; ring]).
  destruct (add_ok R F two _ _ _ _ _ _ _ _ _ _ H H2) as [_ K]. specialize (K m N Hm). cbv zeta in K.
  exists m. eexists. eexists. split; [exact SL|]. split; [|split].
  - right. exists m. eexists. eexists. split; [exact SL|]. split; [reflexivity|]. split; reflexivity.
  - eapply represents_m; [exact (la_x_eq X Y Z T x2 y2 r2 HT Hr)|exact (la_y_eq X Y Z T x2 y2 r2 HT Hr)|exact (la_z_eq X Y Z T x2 y2 HT)|reflexivity|exact K].
  - destruct H as (_ & HX & HY). split; [eapply la_l_m; eassumption|eapply la_a_m; eassumption].
Qed.
Lemma gen_double X Y Z T x y : T =! Z *! Z -> represents X Y Z (Some (x, y)) -> ~ y =! c0 ->
  exists m x3 y3, slope m x y x y /\ ct_sum (Some (x, y)) (Some (x, y)) (Some (x3, y3)) /\
    represents (ld_x X Y) (ld_y X Y) (ld_z Y Z T) (Some (x3, y3)) /\
    ld_e X =! m *! ld_z Y Z T /\
    ld_a X Y =! (ld_z Y Z T *! T +! ld_z Y Z T *! T) *! (m *! x -! y).
Proof.
  intros HT H N. destruct (gen_div ((c1 +! c1 +! c1) *! (x *! x)) (y +! y)) as [m Hm]; [now apply nz_two|].
  assert (N2 : ~ y =! -! y).
  { intros E. apply (nz_two R F two y N). rewrite E at 1. ring. }
  assert (SL : slope m x y x y) by (right; split; [reflexivity|split; [reflexivity|split; assumption]]).
  destruct (dbl_ok R F two _ _ _ _ _ H) as [_ K]. specialize (K m N Hm). cbv zeta in K.
  exists m. eexists. eexists. split; [exact SL|]. split; [|split].
  - right. exists m. eexists. eexists. split; [exact SL|]. split; [reflexivity|]. split; reflexivity.
  - eapply represents_m; [exact (ld_x_eq X Y Z)|exact (ld_y_eq X Y Z)|exact (ld_z_eq X Y Z T HT)|reflexivity|exact K].
  - destruct H as (_ & HX & HY). split; [eapply ld_e_m; eassumption|eapply ld_a_m; eassumption].
Qed.
End Steps.
(** What a line element is worth. *)
Lemma line_value (w px py k m x y : R) :
  (k *! py) +! (-! (k *! m) *! px) *! w +! k *! (m *! x -! y) *! (w *! w *! w)
    =! k *! lval R px py (w *! m) (w *! w *! x) (w *! w *! w *! y).
Proof. unfold lval. ring. Qed.
Lemma alg_mul_x (rx ry s k : R) : (rx +! ry) *! (s +! k) -! s *! rx -! ry *! k =! rx *! k +! ry *! s.
Proof. ring. Qed.
Lemma alg_mul_y (rx ry s k t : R) : ry *! k +! t *! (s *! rx) =! ry *! k +! t *! (rx *! s).
Proof. ring. Qed.
Lemma alg_opp_b (k l p : R) : (c0 -! l) *! p +! (c0 -! l) *! p =! -! (l +! l) *! p. Proof. ring. Qed.
Lemma alg_opp_b1 (l p : R) : (c0 -! l) *! p =! -! l *! p. Proof. ring. Qed.
Lemma alg_mm (m z : R) : m *! z +! m *! z =! (z +! z) *! m. Proof. ring. Qed.
Lemma alg_et (m z t : R) : m *! z *! t +! m *! z *! t =! (z *! t +! z *! t) *! m. Proof. ring. Qed.
Lemma alg_cc (z p : R) : z *! p +! z *! p =! (z +! z) *! p. Proof. ring. Qed.
End Formulas.

(** ** Multiplying by a line. *)
Definition lelem (a b c : FP2) : FP12 := (((c0, a, b) : FP6), cemb FP2 xi c).
Lemma mul_line_ok (ret : FP12) (a b c : FP2) : mul_line ret a b c =[FP12]= ret *! lelem a b c.
Proof.
  destruct ret as [rx ry]. unfold mul_line, lelem. cbv zeta. cbn [fst snd].
  assert (E : ((g2_zero, a, g2_add b c) : FP6) =! ((c0, a, b) : FP6) +! cemb FP2 xi c).
  { split; [|split]; cbn [pr1 pr2 pr3 cadd cubic FP6 cemb cub_add fst snd]; unfold cub_add; cbn [pr1 pr2 pr3 fst snd cemb].
    - symmetry. apply (Radd_0_l (c_ring FP2)).
    - rewrite (Radd_comm (c_ring FP2)). symmetry. apply (Radd_0_l (c_ring FP2)).
    - apply g2_add_ok. }
  split; cbn [fst snd cmul FP12 quad]; unfold quad_mul; cbn [fst snd].
  - rewrite !g6_sub_ok, !g6_mul_ok, g6_add_ok, g6_mul_scalar_ok, E. apply (alg_mul_x FP6).
  - rewrite g6_add_ok, g6_mul_tau_ok, g6_mul_ok, g6_mul_scalar_ok. apply (alg_mul_y FP6).
Qed.
Section Lel.
Variable R : cring.
Add Ring Rr : (c_ring R) (setoid (c_equiv R) (c_ext R)).
Lemma cub_low (c a b : R) : ((c0, a, b) : cubic R c) =! cemb R c b +! cemb R c a *! croot R c.
Proof. cbn. unfold cub_eq, cub_mul, cub_add, pr1, pr2, pr3; cbn. repeat split; ring. Qed.
Lemma quad_of (c u v : R) : ((u, v) : quad R c) =! qemb R c v +! qemb R c u *! qroot R c.
Proof. cbn. unfold quad_eq, quad_mul, quad_add; cbn. split; ring. Qed.
Lemma alg_lel (a b c w : R) : c +! (b +! a *! (w *! w)) *! w =! c +! b *! w +! a *! (w *! w *! w).
Proof. ring. Qed.
End Lel.
Lemma lelem_ok (a b c : FP2) : lelem a b c =! e2 c +! e2 b *! omega +! e2 a *! (omega *! omega *! omega).
Proof.
  unfold lelem. rewrite (quad_of FP6). fold omega. fold (e2 c).
  rewrite (qemb_eq FP6 tau _ _ (cub_low FP2 xi a b)). fold tau. rewrite (qemb_add FP6), (qemb_mul FP6). fold (e2 b). fold (e2 a).
  rewrite <- (qroot_sq FP6 tau). fold omega. apply (alg_lel FP12).
Qed.
(** A line with slope m through (x, y) on the twist, scaled by k. *)
Lemma lelem_line (px py : Z) (a b c k m x y : FP2) :
  c =! k *! qemb FP (-1) py -> b =! -! (k *! m) *! qemb FP (-1) px -> a =! k *! (m *! x -! y) ->
  lelem a b c =! e2 k *! lval FP12 (e1 px) (e1 py) (omega *! e2 m) (hx FP2 FP12 e2 omega x) (hy FP2 FP12 e2 omega y).
Proof.
  intros Hc Hb Ha. rewrite lelem_ok, Hc, Hb, Ha, !e2_mul', e2_opp, !e2_mul'. fold (e1 px). fold (e1 py).
  assert (S : e2 (m *! x -! y) =! e2 m *! e2 x -! e2 y).
  { rewrite (Rsub_def (c_ring FP2)), e2_add, e2_opp, e2_mul'. symmetry. apply (Rsub_def (c_ring FP12)). }
  rewrite S. apply (line_value FP12).
Qed.

(** ** One step. *)
Lemma qemb_x (a : FP2) (b : Z) : g2_mul_scalar a b =[FP2]= a *! qemb FP (-1) b. Proof. apply g2_mul_scalar_ok. Qed.
Ltac lock3 := match goal with
  | |- g2_mul_scalar ?a ?b =[FP2]= _ => etransitivity; [apply g2_mul_scalar_ok|lock3]
  | |- g2_square ?a =[FP2]= _ => etransitivity; [apply g2_square_ok|lock3]
  | |- g2_mul ?a ?b =[FP2]= _ => etransitivity; [apply g2_mul_ok|lock3]
  | |- g2_add ?a ?b =[FP2]= _ => etransitivity; [apply g2_add_ok|lock3]
  | |- g2_sub ?a ?b =[FP2]= _ => etransitivity; [apply g2_sub_ok|lock3]
  | |- @cadd _ ?a ?b =[FP2]= @cadd _ ?c ?d => apply (cadd_morph FP2); lock3
  | |- @csub _ ?a ?b =[FP2]= @csub _ ?c ?d => apply (csub_morph FP2); lock3
  | |- @cmul _ ?a ?b =[FP2]= @cmul _ ?c ?d => apply (cmul_morph FP2); lock3
  | |- _ => reflexivity end.
Section Step.
Variables (r p : tpoint) (q : cpoint) (r2 : gfp2).
Let X : FP2 := tx r. Let Y : FP2 := ty r. Let Z : FP2 := tz r. Let T : FP2 := tt r. Let x2 : FP2 := tx p. Let y2 : FP2 := ty p.
Lemma line_add_forms : let '(a, b, c, n) := line_add r p q r2 in
  a =[FP2]= la_a FP2 X Y Z T x2 y2 r2 /\
  b =[FP2]= (c0 -! la_l FP2 Y Z T y2 r2) *! qemb FP (-1) (cx q) +! (c0 -! la_l FP2 Y Z T y2 r2) *! qemb FP (-1) (cx q) /\
  c =[FP2]= la_z FP2 X Z T x2 *! qemb FP (-1) (cy q) +! la_z FP2 X Z T x2 *! qemb FP (-1) (cy q) /\
  tx n =[FP2]= la_x FP2 X Y Z T x2 y2 r2 /\ ty n =[FP2]= la_y FP2 X Y Z T x2 y2 r2 /\ tz n =[FP2]= la_z FP2 X Z T x2 /\
  tt n =[FP2]= (tz n : FP2) *! tz n.
Proof.
  unfold line_add. cbv zeta. cbn [tx ty tz tt]. unfold la_a, la_y, la_x, la_z, la_e, la_l, la_h. cbv zeta.
  split; [lock3|]. split; [lock3|]. split; [lock3|]. split; [lock3|]. split; [lock3|]. split; [lock3|]. apply g2_square_ok.
Qed.
Lemma line_double_forms : let '(a, b, c, n) := line_double r q in
  a =[FP2]= ld_a FP2 X Y /\
  b =[FP2]= (c0 -! (ld_e FP2 X *! T +! ld_e FP2 X *! T)) *! qemb FP (-1) (cx q) /\
  c =[FP2]= (ld_z FP2 Y Z T *! T +! ld_z FP2 Y Z T *! T) *! qemb FP (-1) (cy q) /\
  tx n =[FP2]= ld_x FP2 X Y /\ ty n =[FP2]= ld_y FP2 X Y /\ tz n =[FP2]= ld_z FP2 Y Z T /\
  tt n =[FP2]= (tz n : FP2) *! tz n.
Proof.
  unfold line_double. cbv zeta. cbn [tx ty tz tt]. unfold ld_a, ld_y, ld_x, ld_z, ld_e, ld_d. cbv zeta.
  split; [lock3|]. split; [lock3|]. split; [lock3|]. split; [lock3|]. split; [lock3|]. split; [lock3|]. apply g2_square_ok.
Qed.
End Step.

(** What the code computes with a point of the loop and a fixed point of the curve. *)
Definition lcq (q : cpoint) (i k : Z) : FP12 := lc FP12 inv12 eq12f E pt (e1 (cx q)) (e1 (cy q)) i k.
Definition at_mul (r : tpoint) (i : Z) : Prop :=
  represents (R := FP2) (tx r) (ty r) (tz r) (q2 i) /\ tt r =[FP2]= (tz r : FP2) *! tz r.
Lemma q2_some i : ~ i ==[Order] 0 -> exists x y, q2 i = Some (x, y).
Proof. intros N. destruct (q2 i) as [[x y]|] eqn:Q; eauto. apply q2_none in Q. tauto. Qed.
Lemma q2_x i k x1 y1 x2 y2 : q2 i = Some (x1, y1) -> q2 k = Some (x2, y2) -> x1 =[FP2]= x2 -> i ==[Order] k \/ i ==[Order] - k.
Proof.
  intros Q Q' X. assert (O := q2_on i). assert (O' := q2_on k). rewrite Q in O. rewrite Q' in O'.
  destruct (same_x FP2 FP2_field twistB x1 y1 y2 O (on_x FP2 twistB x1 x2 y2 X O')) as [Y|Y]; [left|right]; apply q2_cong.
  - rewrite Q, Q'. split; assumption.
  - rewrite q2_opp, Q, Q'. split; assumption.
Qed.
Lemma lval_E px py k m x1 y1 x2 y2 : E2 (Some (x1, y1)) -> E2 (Some (x2, y2)) -> slope m x1 y1 x2 y2 -> ~ k =[FP2]= c0 ->
  E (e2 k *! lval FP12 px py (omega *! e2 m) (hx FP2 FP12 e2 omega x1) (hy FP2 FP12 e2 omega y1))
    =! E (line FP12 inv12 eq12f px py (psi (Some (x1, y1))) (psi (Some (x2, y2)))).
Proof.
  intros O1 O2 SL N. rewrite E_mul, (E_e2 k N). rewrite (Rmul_1_l (c_ring FP12)). apply E_m. symmetry.
  apply (line_slope FP12 FP12_field b12 inv12 inv12_ok eq12f eq12f_ok); [exact (psi_on _ O1)|exact (psi_on _ O2)|].
  exact (hom_slope FP2 FP12 e2 e2_m e2_add e2_mul' e2_opp e2_1 e2_inj FP12_field omega omega_nz _ _ _ _ _ SL).
Qed.
Lemma add_step (r p : tpoint) (q : cpoint) (r2 : gfp2) i k x2 y2 : at_mul r i -> q2 k = Some (x2, y2) -> tx p =[FP2]= x2 -> ty p =[FP2]= y2 ->
  r2 =[FP2]= (ty p : FP2) *! ty p -> ~ i ==[Order] 0 -> ~ i ==[Order] k -> ~ i ==[Order] - k ->
  let '(a, b, c, n) := line_add r p q r2 in
  at_mul n (i + k) /\ forall ret, E (mul_line ret a b c) =! E ret *! lcq q i k.
Proof.
  intros (H & HT) Q2 PX PY Hr N0 N1 N2. destruct (q2_some i N0) as (x1 & y1 & Q1). rewrite Q1 in H.
  assert (NX : ~ x1 =[FP2]= x2) by (intros X; destruct (q2_x i k _ _ _ _ Q1 Q2 X); tauto).
  assert (NX' : ~ x1 =[FP2]= tx p) by (now rewrite PX).
  assert (O1 := q2_on i). assert (O2 := q2_on k). rewrite Q1 in O1. rewrite Q2 in O2.
  destruct (gen_add FP2 FP2_field FP2_two _ _ _ _ _ _ _ _ _ HT Hr H NX') as (m & x3 & y3 & SL & SU & RE & L & A).
  assert (FO := line_add_forms r p q r2). destruct (line_add r p q r2) as [[[a b] c] n]. destruct FO as (FA & FB & FC & FX & FY & FZ & FT).
  assert (E12 : apoint_eq (Some (tx p, ty p) : apoint FP2) (q2 k)) by (rewrite Q2; split; assumption).
  split; [split|].
  - apply (rep_eq FP2 _ _ _ (Some (x3, y3))); [eapply represents_m; [exact FX|exact FY|exact FZ|reflexivity|exact RE]|].
    apply (sum_unique FP2 FP2_field (q2 i) (q2 k)); [|apply q2_sum]. rewrite Q1 at 1. apply (sum_m FP2 _ _ _ _ _ _ ltac:(reflexivity) E12 ltac:(reflexivity)). exact SU.
  - exact FT.
  - intros ret. rewrite (E_m _ _ (mul_line_ok ret a b c)), E_mul. apply (cmul_morph FP12); [reflexivity|].
    set (z := la_z FP2 (tx r) (tz r) (tt r) (tx p)) in *.
    assert (NZ : ~ z +! z =[FP2]= c0) by (apply (nz_two FP2 FP2_field FP2_two); exact (proj1 RE)).
    rewrite (E_m _ _ (lelem_line (cx q) (cy q) a b c (z +! z) m x1 y1
       ltac:(rewrite FC; apply (alg_cc FP2)) ltac:(rewrite FB, L, (alg_opp_b FP2 c0), (alg_mm FP2); reflexivity) ltac:(rewrite FA, A; reflexivity))).
    assert (SL' : slope m x1 y1 x2 y2).
    { destruct SL as [[N S]|(EX & _)]; [|tauto]. left. split; [exact NX|]. now rewrite <- PX, <- PY. }
    rewrite (lval_E _ _ _ m x1 y1 x2 y2 O1 O2 SL' NZ). unfold lcq, lc, pt. rewrite Q1, Q2. reflexivity.
Qed.
Lemma double_step (r : tpoint) (q : cpoint) i : at_mul r i -> ~ i ==[Order] 0 ->
  let '(a, b, c, n) := line_double r q in
  at_mul n (i + i) /\ forall ret, E (mul_line ret a b c) =! E ret *! lcq q i i.
Proof.
  intros (H & HT) N0. destruct (q2_some i N0) as (x1 & y1 & Q1). rewrite Q1 in H.
  assert (O1 := q2_on i). assert (Y := q2_y i x1 y1 Q1). rewrite Q1 in O1.
  destruct (gen_double FP2 FP2_field FP2_two _ _ _ _ _ _ HT H Y) as (m & x3 & y3 & SL & SU & RE & L & A).
  assert (FO := line_double_forms r q). destruct (line_double r q) as [[[a b] c] n]. destruct FO as (FA & FB & FC & FX & FY & FZ & FT).
  split; [split|].
  - apply (rep_eq FP2 _ _ _ (Some (x3, y3))); [eapply represents_m; [exact FX|exact FY|exact FZ|reflexivity|exact RE]|].
    apply (sum_unique FP2 FP2_field (q2 i) (q2 i)); [|apply q2_sum]. rewrite Q1. exact SU.
  - exact FT.
  - intros ret. rewrite (E_m _ _ (mul_line_ok ret a b c)), E_mul. apply (cmul_morph FP12); [reflexivity|].
    set (z := ld_z FP2 (ty r) (tz r) (tt r)) in *.
    assert (NT : ~ tt r =[FP2]= c0).
    { rewrite HT. apply (nz_mul FP2 FP2_field); exact (proj1 H). }
    assert (NZ : ~ z *! tt r +! z *! tt r =[FP2]= c0) by (apply (nz_two FP2 FP2_field FP2_two), (nz_mul FP2 FP2_field); [exact (proj1 RE)|exact NT]).
    rewrite (E_m _ _ (lelem_line (cx q) (cy q) a b c (z *! tt r +! z *! tt r) m x1 y1
       ltac:(rewrite FC; reflexivity) ltac:(rewrite FB, L, (alg_opp_b1 FP2), (alg_et FP2); reflexivity) ltac:(rewrite FA, A; reflexivity))).
    rewrite (lval_E _ _ _ m x1 y1 x1 y1 O1 O1 SL NZ). unfold lcq, lc, pt. rewrite Q1. reflexivity.
Qed.

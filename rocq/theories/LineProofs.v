(** Lines on the curve y^2 = x^3 + b: the product of the lines A B and (A+B) C depends, up to
    vertical lines, only on the set {A, B, C}; two lines evaluated on each other's points. *)
Require Import ZArith Setoid Morphisms Ring Ring_theory.
Require Import Verif.Ext Verif.TowerSpec Verif.FieldProofs Verif.CurveSpec Verif.JacProofs Verif.AssocProofs Verif.CurveGroup Verif.OrderProofs.

Section Line.
Variable R : cring.
Hypothesis F : is_field R.
Hypothesis two : ~ (c1 : R) +! c1 =! c0.
Hypothesis three : ~ (c1 : R) +! c1 +! c1 =! c0.
Variable b : R.
Hypothesis nonsing : ~ b =! c0.
Add Ring Rr : (c_ring R) (setoid (c_equiv R) (c_ext R)).
#[local] Existing Instance apoint_equiv.

Definition rel (m x1 y1 x2 y2 : R) : Prop :=
  y1 =! y2 +! m *! (x1 -! x2) /\ m *! (y1 +! y2) =! x1 *! x1 +! x1 *! x2 +! x2 *! x2.
Lemma rel_sym m x1 y1 x2 y2 : rel m x1 y1 x2 y2 -> rel m x2 y2 x1 y1.
Proof.
  intros [A B]. split; [rewrite A; ring|]. transitivity (m *! (y1 +! y2)); [ring|]. rewrite B. ring.
Qed.
Lemma rel_third m x1 y1 x2 y2 s t : rel m x1 y1 x2 y2 -> s =! m *! m -! x1 -! x2 -> t =! y1 +! m *! (s -! x1) -> rel m x1 y1 s t.
Proof.
  intros [A B] S T. split; [rewrite T; ring|]. rewrite T.
  assert (M : m *! m =! s +! x1 +! x2) by (rewrite S; ring).
  assert (B' : m *! (y1 +! y1) =! x1 *! x1 +! x1 *! x2 +! x2 *! x2 +! m *! m *! (x1 -! x2)).
  { rewrite <- B. transitivity (m *! (y1 +! (y2 +! m *! (x1 -! x2)))); [rewrite <- A; ring|ring]. }
  transitivity (m *! (y1 +! y1) +! m *! m *! (s -! x1)); [ring|]. rewrite B', M. ring.
Qed.
Lemma rel_third2 m x1 y1 x2 y2 s t : rel m x1 y1 x2 y2 -> s =! m *! m -! x1 -! x2 -> t =! y1 +! m *! (s -! x1) -> rel m x2 y2 s t.
Proof.
  intros H S T. apply (rel_third m x2 y2 x1 y1); [now apply rel_sym|rewrite S; ring|]. rewrite T. destruct H as [A _]. rewrite A. ring.
Qed.

(** f = l1 l2 / v for the lines of slopes la and mu through the points (s, t) and (s, -t). *)
Definition quadr (s t la mu x y : R) : R :=
  x *! x +! x *! s +! s *! s -! la *! (y +! t) -! mu *! (y -! t) +! la *! mu *! (x -! s).
Lemma lines_product s t la mu x y : y *! y =! x *! x *! x +! b -> t *! t =! s *! s *! s +! b ->
  (y -! t -! la *! (x -! s)) *! (y +! t -! mu *! (x -! s)) =! (x -! s) *! quadr s t la mu x y.
Proof.
  intros A B. unfold quadr.
  transitivity (y *! y -! t *! t -! (x -! s) *! (la *! (y +! t) +! mu *! (y -! t)) +! la *! mu *! ((x -! s) *! (x -! s))); [ring|].
  rewrite A, B. ring.
Qed.
Lemma quadr_1 s t la mu x y : rel la x y s t -> quadr s t la mu x y =! c0.
Proof.
  intros [A B]. unfold quadr. rewrite B.
  transitivity ((-! mu) *! (y -! (t +! la *! (x -! s)))); [ring|]. rewrite <- A. ring.
Qed.
Lemma quadr_2 s t la mu x y : rel mu x y s (-! t) -> quadr s t la mu x y =! c0.
Proof.
  intros [A B]. unfold quadr.
  transitivity (x *! x +! x *! s +! s *! s -! mu *! (y +! -! t) -! la *! (y -! (-! t +! mu *! (x -! s)))); [ring|].
  rewrite B, <- A. ring.
Qed.
(** The difference of two such functions is linear. *)
Lemma quadr_diff s t la mu s' t' la' mu' x y :
  quadr s t la mu x y -! quadr s' t' la' mu' x y =!
  (la' +! mu' -! la -! mu) *! y +! (s +! la *! mu -! s' -! la' *! mu') *! x
  +! (s *! s -! la *! t +! mu *! t -! la *! mu *! s -! (s' *! s' -! la' *! t' +! mu' *! t' -! la' *! mu' *! s')).
Proof. unfold quadr. ring. Qed.

Lemma sq_eq (x y : R) : x *! x =! y *! y -> x =! y \/ x =! -! y.
Proof.
  intros H. assert (E : (x -! y) *! (x +! y) =! c0) by (transitivity (x *! x -! y *! y); [ring|]; rewrite H; ring).
  apply (f_integral R F) in E. destruct E as [E|E]; [left; now apply f_sub|right].
  apply f_sub. transitivity (x +! y); [ring|exact E].
Qed.
Lemma same_x x y y' : on_curve b (Some (x, y)) -> on_curve b (Some (x, y')) -> y =! y' \/ y =! -! y'.
Proof. cbn. intros A B. apply sq_eq. now rewrite A, B. Qed.
Lemma on_x x x' y : x =! x' -> on_curve b (Some (x', y)) -> on_curve b (Some (x, y)).
Proof. cbn. intros ->. auto. Qed.

(** A linear function with three zeros whose sum is not neutral is zero. *)
Lemma three_points (al be ga u1 u2 v1 v2 w1 w2 : R) s :
  on_curve b (Some (u1, u2)) -> on_curve b (Some (v1, v2)) -> on_curve b (Some (w1, w2)) ->
  ~ apoint_eq (Some (u1, u2)) (Some (v1, v2)) -> ~ apoint_eq (Some (u1, u2)) (Some (w1, w2)) -> ~ apoint_eq (Some (v1, v2)) (Some (w1, w2)) ->
  ct_sum (Some (u1, u2)) (Some (v1, v2)) s -> ~ apoint_eq s (Some (w1, -! w2)) ->
  al *! u2 +! be *! u1 +! ga =! c0 -> al *! v2 +! be *! v1 +! ga =! c0 -> al *! w2 +! be *! w1 +! ga =! c0 ->
  al =! c0 /\ be =! c0 /\ ga =! c0.
Proof.
  intros Ou Ov Ow Nuv Nuw Nvw HS NS Eu Ev Ew. cbn [apoint_eq] in Nuv, Nuw, Nvw.
  destruct (f_dec R F al) as [Ea|Na].
  - split; [exact Ea|]. rewrite Ea in Eu, Ev, Ew.
    destruct (f_dec R F be) as [Eb|Nb].
    + split; [exact Eb|]. rewrite Eb in Eu. rewrite <- Eu. ring.
    + exfalso.
      assert (X : forall a c d e : R, c0 *! c +! be *! a +! ga =! c0 -> c0 *! e +! be *! d +! ga =! c0 -> a =! d).
      { intros a c d e H H'. apply (f_cancel R F be); auto.
        transitivity ((c0 *! c +! be *! a +! ga) -! ga); [ring|]. rewrite H, <- H'. ring. }
      assert (Xv := X _ _ _ _ Eu Ev). assert (Xw := X _ _ _ _ Eu Ew).
      destruct (same_x u1 u2 v2 Ou) as [A|A]; [now apply (on_x u1 v1)|tauto|].
      destruct (same_x u1 u2 w2 Ou) as [C|C]; [now apply (on_x u1 w1)|tauto|].
      apply Nvw. split; [now rewrite <- Xv|]. transitivity (-! (-! v2)); [ring|]. rewrite <- A, C. ring.
  - exfalso.
    assert (X : forall a c d e : R, al *! c +! be *! a +! ga =! c0 -> al *! e +! be *! d +! ga =! c0 -> a =! d -> a =! d /\ c =! e).
    { intros a c d e H H' E. split; auto. apply (f_cancel R F al); auto.
      transitivity ((al *! c +! be *! a +! ga) -! be *! a -! ga); [ring|]. rewrite H, E, <- H'. ring. }
    assert (Xuv : ~ u1 =! v1) by (intros E; apply Nuv; now apply (X _ _ _ _ Eu Ev)).
    assert (Xuw : ~ u1 =! w1) by (intros E; apply Nuw; now apply (X _ _ _ _ Eu Ew)).
    assert (Xvw : ~ v1 =! w1) by (intros E; apply Nvw; now apply (X _ _ _ _ Ev Ew)).
    destruct (proj2 F al) as [?|[i Hi]]; [tauto|].
    set (m := -! be *! i).
    assert (L : forall a c d e : R, al *! c +! be *! a +! ga =! c0 -> al *! e +! be *! d +! ga =! c0 -> m *! (d -! a) =! e -! c).
    { intros a c d e H H'. apply (f_cancel R F al); auto. unfold m.
      transitivity (-! be *! (d -! a) *! (al *! i)); [ring|]. rewrite Hi.
      transitivity ((al *! e +! be *! d +! ga) -! (al *! c +! be *! a +! ga) -! be *! (d -! a)); [rewrite H, H'; ring|ring]. }
    assert (SL : slope m u1 u2 v1 v2) by (left; split; [exact Xuv|exact (L _ _ _ _ Eu Ev)]).
    destruct HS as [(A & _)|(m' & x3 & y3 & SL' & -> & X3 & Y3)]; [tauto|].
    assert (M := slope_unique R F m' m u1 u2 v1 v2 SL' SL). rewrite M in X3, Y3.
    destruct (line_facts R F b m u1 u2 v1 v2 Ou Ov SL) as [L1 L2].
    assert (Hc := line_cubic R b m u1 u2 v1 v2 w1 Ov L1 L2).
    assert (Wl : w2 =! v2 +! m *! (w1 -! v1)) by (rewrite (L _ _ _ _ Ev Ew); ring).
    rewrite <- Wl in Hc. cbn [on_curve] in Ow.
    assert (Z : (w1 -! u1) *! (w1 -! v1) *! (w1 -! (m *! m -! u1 -! v1)) =! c0).
    { transitivity (-! (-! ((w1 -! u1) *! (w1 -! v1) *! (w1 -! (m *! m -! u1 -! v1))))); [ring|]. rewrite <- Hc, Ow. ring. }
    apply (f_integral R F) in Z. destruct Z as [Z|Z].
    + apply (f_integral R F) in Z. destruct Z as [Z|Z]; apply f_sub in Z; [apply Xuw|apply Xvw]; now symmetry.
    + apply f_sub in Z. apply NS. cbn. split; [rewrite X3, Z; reflexivity|].
      rewrite Y3, X3, Wl, Z, L1. ring.
Qed.

Lemma apoint_eq_dec (p r : apoint R) : apoint_eq p r \/ ~ apoint_eq p r.
Proof.
  destruct p as [[x y]|], r as [[x' y']|]; cbn; try tauto.
  destruct (f_eq_dec R F x x'), (f_eq_dec R F y y'); tauto.
Qed.
Lemma on_t s t : on_curve b (Some (s, t)) -> on_curve b (Some (s, -! t)).
Proof. exact (opp_on R b (Some (s, t))). Qed.
(** Slope and third point of a sum. *)
Lemma sum_rel x1 y1 x2 y2 x3 y3 m : on_curve b (Some (x1, y1)) -> on_curve b (Some (x2, y2)) -> slope m x1 y1 x2 y2 ->
  x3 =! m *! m -! x1 -! x2 -> y3 =! m *! (x1 -! x3) -! y1 ->
  rel m x1 y1 x2 y2 /\ rel m x1 y1 x3 (-! y3) /\ rel m x2 y2 x3 (-! y3).
Proof.
  intros O1 O2 SL X3 Y3. assert (H : rel m x1 y1 x2 y2) by exact (line_facts R F b m x1 y1 x2 y2 O1 O2 SL).
  assert (T : -! y3 =! y1 +! m *! (x3 -! x1)) by (rewrite Y3; ring).
  split; [exact H|]. split; [now apply (rel_third m x1 y1 x2 y2)|now apply (rel_third2 m x1 y1 x2 y2)].
Qed.

(** The value at (px, py) of the line of slope m through (x, y). *)
Definition lval (px py m x y : R) : R := py -! y -! m *! (px -! x).
Lemma lval_rel px py m x1 y1 x2 y2 : rel m x1 y1 x2 y2 -> lval px py m x1 y1 =! lval px py m x2 y2.
Proof. intros [A _]. unfold lval. rewrite A. ring. Qed.

(** ** The line of slope m1 on the points of the line of slope m2, and conversely. *)
Lemma vieta m x1 y1 x2 y2 x3 n : on_curve b (Some (x2, y2)) -> rel m x1 y1 x2 y2 -> x3 =! m *! m -! x1 -! x2 -> n =! y1 -! m *! x1 ->
  x1 +! x2 +! x3 =! m *! m /\ x1 *! x2 +! x1 *! x3 +! x2 *! x3 =! -! (m *! n +! m *! n) /\ x1 *! x2 *! x3 =! n *! n -! b.
Proof.
  intros O2 H X3 N. destruct H as [L1 L2]. split; [rewrite X3; ring|]. split.
  - assert (M : m *! m =! x3 +! x1 +! x2) by (rewrite X3; ring).
    transitivity (m *! m *! (x1 +! x2) -! (x1 *! x1 +! x1 *! x2 +! x2 *! x2)); [rewrite M; ring|]. rewrite <- L2.
    transitivity (-! (m *! (y1 -! m *! x1) +! m *! (y2 -! m *! x2))); [ring|].
    assert (N' : y2 -! m *! x2 =! n) by (rewrite N, L1; ring). rewrite N', <- N. reflexivity.
  - assert (H := line_cubic R b m x1 y1 x2 y2 c0 O2 L1 L2).
    assert (N' : n =! y2 +! m *! (c0 -! x2)) by (rewrite N, L1; ring).
    rewrite <- N' in H. transitivity (-! ((c0 -! x1) *! (c0 -! x2) *! (c0 -! (m *! m -! x1 -! x2)))); [rewrite X3; ring|].
    rewrite <- H. ring.
Qed.
Lemma prod3 (d e x1 x2 x3 m n : R) : x1 +! x2 +! x3 =! m *! m -> x1 *! x2 +! x1 *! x3 +! x2 *! x3 =! -! (m *! n +! m *! n) -> x1 *! x2 *! x3 =! n *! n -! b ->
  (d *! x1 +! e) *! (d *! x2 +! e) *! (d *! x3 +! e) =! d *! ((d *! n -! e *! m) *! (d *! n -! e *! m)) -! b *! (d *! d *! d) +! e *! e *! e.
Proof.
  intros A B C. transitivity (d *! d *! d *! (x1 *! x2 *! x3) +! d *! d *! e *! (x1 *! x2 +! x1 *! x3 +! x2 *! x3) +! d *! e *! e *! (x1 +! x2 +! x3) +! e *! e *! e); [ring|].
  rewrite A, B, C. ring.
Qed.
Lemma lval_line px py m x y m' x' y' : py =! y' +! m' *! (px -! x') ->
  lval px py m x y =! (m' -! m) *! px +! ((y' -! m' *! x') -! (y -! m *! x)).
Proof. intros E. unfold lval. rewrite E. ring. Qed.
Lemma reciprocity x1 y1 x2 y2 x3 y3 m a1 b1 a2 b2 a3 b3 k :
  on_curve b (Some (x1, y1)) -> on_curve b (Some (x2, y2)) -> slope m x1 y1 x2 y2 -> x3 =! m *! m -! x1 -! x2 -> y3 =! m *! (x1 -! x3) -! y1 ->
  on_curve b (Some (a1, b1)) -> on_curve b (Some (a2, b2)) -> slope k a1 b1 a2 b2 -> a3 =! k *! k -! a1 -! a2 -> b3 =! k *! (a1 -! a3) -! b1 ->
  lval x1 y1 k a1 b1 *! lval x2 y2 k a1 b1 *! lval x3 (-! y3) k a1 b1 =!
  -! (lval a1 b1 m x1 y1 *! lval a2 b2 m x1 y1 *! lval a3 (-! b3) m x1 y1).
Proof.
  intros O1 O2 SL X3 Y3 Oa Ob SK A3 B3.
  assert (H : rel m x1 y1 x2 y2) by exact (line_facts R F b m x1 y1 x2 y2 O1 O2 SL).
  assert (K : rel k a1 b1 a2 b2) by exact (line_facts R F b k a1 b1 a2 b2 Oa Ob SK).
  set (n := y1 -! m *! x1). set (l := b1 -! k *! a1).
  destruct (vieta m x1 y1 x2 y2 x3 n O2 H X3) as (V1 & V2 & V3); [reflexivity|].
  destruct (vieta k a1 b1 a2 b2 a3 l Ob K A3) as (W1 & W2 & W3); [reflexivity|].
  rewrite (lval_line x1 y1 k a1 b1 m x1 y1) by ring.
  rewrite (lval_line x2 y2 k a1 b1 m x1 y1) by (destruct (rel_sym _ _ _ _ _ H) as [E _]; exact E).
  rewrite (lval_line x3 (-! y3) k a1 b1 m x1 y1) by (rewrite Y3; ring).
  rewrite (lval_line a1 b1 m x1 y1 k a1 b1) by ring.
  rewrite (lval_line a2 b2 m x1 y1 k a1 b1) by (destruct (rel_sym _ _ _ _ _ K) as [E _]; exact E).
  rewrite (lval_line a3 (-! b3) m x1 y1 k a1 b1) by (rewrite B3; ring).
  fold n l. rewrite (prod3 (m -! k) (n -! l) x1 x2 x3 m n V1 V2 V3), (prod3 (k -! m) (l -! n) a1 a2 a3 k l W1 W2 W3). ring.
Qed.

Variables px py : R.
Hypothesis Op : on_curve b (Some (px, py)).
(** The product of the lines A B and (A+B) C is the product of the lines B C and A (B+C), up to
    verticals, in general position. *)
Lemma cocycle_general x1 y1 x2 y2 x3 y3 s1 s2 r1 r2 w1 w2 la mu la' mu' :
  on_curve b (Some (x1, y1)) -> on_curve b (Some (x2, y2)) -> on_curve b (Some (x3, y3)) ->
  slope la x1 y1 x2 y2 -> s1 =! la *! la -! x1 -! x2 -> s2 =! la *! (x1 -! s1) -! y1 ->
  slope la' x2 y2 x3 y3 -> r1 =! la' *! la' -! x2 -! x3 -> r2 =! la' *! (x2 -! r1) -! y2 ->
  slope mu s1 s2 x3 y3 -> w1 =! mu *! mu -! s1 -! x3 -> w2 =! mu *! (s1 -! w1) -! s2 ->
  slope mu' x1 y1 r1 r2 -> w1 =! mu' *! mu' -! x1 -! r1 -> w2 =! mu' *! (x1 -! w1) -! y1 ->
  ~ s2 =! c0 -> ~ r2 =! c0 ->
  ~ apoint_eq (Some (x1, y1)) (Some (x3, y3)) -> ~ apoint_eq (Some (x2, y2)) (Some (w1, -! w2)) ->
  exists f, lval px py la x1 y1 *! lval px py mu s1 s2 =! (px -! s1) *! f /\
            lval px py la' x2 y2 *! lval px py mu' x1 y1 =! (px -! r1) *! f.
Proof.
  intros O1 O2 O3 SL1 S1 S2 SL2 R1 R2 SL3 W1 W2 SL4 V1 V2 NS NR N13 N2W.
  assert (CS : ct_sum (Some (x1, y1)) (Some (x2, y2)) (Some (s1, s2))) by (right; exists la, s1, s2; auto).
  assert (CR : ct_sum (Some (x2, y2)) (Some (x3, y3)) (Some (r1, r2))) by (right; exists la', r1, r2; auto).
  assert (CW : ct_sum (Some (s1, s2)) (Some (x3, y3)) (Some (w1, w2))) by (right; exists mu, w1, w2; auto).
  assert (CV : ct_sum (Some (x1, y1)) (Some (r1, r2)) (Some (w1, w2))) by (right; exists mu', w1, w2; auto).
  assert (Os := sum_on_curve R F b _ _ _ O1 O2 CS). assert (Or := sum_on_curve R F b _ _ _ O2 O3 CR).
  assert (Ow := sum_on_curve R F b _ _ _ Os O3 CW).
  destruct (sum_rel _ _ _ _ _ _ _ O1 O2 SL1 S1 S2) as (A1 & A2 & A3).
  destruct (sum_rel _ _ _ _ _ _ _ O2 O3 SL2 R1 R2) as (B1 & B2 & B3).
  destruct (sum_rel _ _ _ _ _ _ _ Os O3 SL3 W1 W2) as (C1 & C2 & C3).
  destruct (sum_rel _ _ _ _ _ _ _ O1 Or SL4 V1 V2) as (D1 & D2 & D3).
  set (f := quadr s1 (-! s2) la mu). set (g := quadr r1 (-! r2) la' mu').
  assert (dneg : forall x : R, -! -! x =! x) by (intros; ring).
  assert (rel_dneg : forall m x y u v, rel m x y u v -> rel m x y u (-! -! v)) by (intros m x y u v H; unfold rel in *; now rewrite dneg).
  (* zeros of f and g *)
  assert (F1 : f x1 y1 =! c0) by (now apply quadr_1). assert (F2 : f x2 y2 =! c0) by (now apply quadr_1).
  assert (F3 : f x3 y3 =! c0) by (apply quadr_2, rel_dneg, rel_sym, C1).
  assert (F4 : f w1 (-! w2) =! c0) by (apply quadr_2, rel_dneg, rel_sym, C2).
  assert (G1 : g x1 y1 =! c0) by (apply quadr_2, rel_dneg, D1).
  assert (G2 : g x2 y2 =! c0) by (now apply quadr_1). assert (G3 : g x3 y3 =! c0) by (now apply quadr_1).
  assert (G4 : g w1 (-! w2) =! c0) by (apply quadr_2, rel_dneg, rel_sym, D3).
  assert (D : forall x y, f x y -! g x y =! _) by (intros x y; apply quadr_diff). 
  match type of D with forall x y, _ =! ?al *! y +! ?be *! x +! ?ga => set (al0 := al) in D; set (be0 := be) in D; set (ga0 := ga) in D end.
  assert (Z : forall x y, f x y =! c0 -> g x y =! c0 -> al0 *! y +! be0 *! x +! ga0 =! c0).
  { intros x y H H'. rewrite <- D, H, H'. ring. }
  assert (K : al0 =! c0 /\ be0 =! c0 /\ ga0 =! c0).
  { assert (Z1 := Z _ _ F1 G1). assert (Z2 := Z _ _ F2 G2). assert (Z3 := Z _ _ F3 G3). assert (Z4 := Z _ _ F4 G4).
    clearbody al0 be0 ga0. clear Z D F1 F2 F3 F4 G1 G2 G3 G4 f g.
    destruct (apoint_eq_dec (Some (x1, y1)) (Some (x2, y2))) as [E12|N12].
    - (* A, C, D *)
      apply (three_points al0 be0 ga0 x1 y1 x3 y3 w1 (-! w2) (Some (r1, r2))); auto.
      + now apply on_t.
      + intros E. apply N2W. now rewrite <- E12.
      + (* C = D: twice B + C is neutral *)
        intros E. apply NR.
        assert (H : ct_sum (Some (r1, r2)) (Some (r1, r2)) None).
        { (* A + R = W = - C, and R + R = (A + B) ... *)
          assert (E' : apoint_eq (Some (w1, w2)) (opposite (Some (x3, y3)))).
          { destruct E as [Ea Eb]. cbn. split; [now symmetry|]. rewrite Eb. ring. }
          assert (H1 : ct_sum (Some (x1, y1)) (Some (r1, r2)) (opposite (Some (x3, y3)))) by (apply (sum_eq R _ _ (Some (w1, w2))); auto).
          assert (H2 : ct_sum (Some (x3, y3)) (Some (x1, y1)) (Some (r1, r2))).
          { apply (sum_m R (Some (x3, y3)) (Some (x3, y3)) (Some (x2, y2)) (Some (x1, y1)) (Some (r1, r2)) (Some (r1, r2))); try reflexivity; [now symmetry|now apply sum_comm]. }
          apply (assoc R F two three b nonsing (Some (x3, y3)) (Some (x1, y1)) (Some (r1, r2)) (Some (r1, r2)) (opposite (Some (x3, y3))) None O3 O1 Or H2 H1).
          apply sum_opp. }
        destruct H as [(_ & H & _)|(? & ? & ? & _ & H & _)]; [|discriminate].
        destruct (f_dec R F r2) as [H0|H0]; auto. exfalso. apply (nz_two R F two r2 H0). rewrite H at 1. ring.
      + apply (sum_m R (Some (x2, y2)) (Some (x1, y1)) (Some (x3, y3)) (Some (x3, y3)) (Some (r1, r2)) (Some (r1, r2))); try reflexivity; auto. now symmetry.
      + (* R = W: A is neutral *)
        intros [Ea Eb].
        assert (H : ct_sum (Some (r1, r2)) (Some (x1, y1)) (Some (r1, r2))).
        { apply (sum_eq R _ _ (Some (w1, w2))); [now apply sum_comm|]. split; [now symmetry|]. rewrite Eb. ring. }
        assert (H' : ct_sum (Some (r1, r2)) None (Some (r1, r2))) by (cbn; split; reflexivity).
        destruct (cancel_l R F two three b nonsing (Some (r1, r2)) (Some (x1, y1)) None (Some (r1, r2)) Or O1 I H H').
    - destruct (apoint_eq_dec (Some (x2, y2)) (Some (x3, y3))) as [E23|N23].
      + (* A, B, D *)
        apply (three_points al0 be0 ga0 x1 y1 x2 y2 w1 (-! w2) (Some (s1, s2))); auto.
        * now apply on_t.
        * (* A = D *)
          intros E. apply NS.
          assert (H : ct_sum (Some (s1, s2)) (Some (s1, s2)) None).
          { assert (E' : apoint_eq (Some (w1, w2)) (opposite (Some (x1, y1)))).
            { destruct E as [Ea Eb]. cbn. split; [now symmetry|]. rewrite Eb. ring. }
            assert (H1 : ct_sum (Some (x3, y3)) (Some (s1, s2)) (opposite (Some (x1, y1)))) by (apply (sum_eq R _ _ (Some (w1, w2))); auto; now apply sum_comm).
            assert (H2 : ct_sum (Some (x1, y1)) (Some (x3, y3)) (Some (s1, s2))).
            { apply (sum_m R (Some (x1, y1)) (Some (x1, y1)) (Some (x2, y2)) (Some (x3, y3)) (Some (s1, s2)) (Some (s1, s2))); try reflexivity; auto. }
            apply (assoc R F two three b nonsing (Some (x1, y1)) (Some (x3, y3)) (Some (s1, s2)) (Some (s1, s2)) (opposite (Some (x1, y1))) None O1 O3 Os H2 H1).
            apply sum_opp. }
          destruct H as [(_ & H & _)|(? & ? & ? & _ & H & _)]; [|discriminate].
          destruct (f_dec R F s2) as [H0|H0]; auto. exfalso. apply (nz_two R F two s2 H0). rewrite H at 1. ring.
        * (* S = W: C is neutral *)
          intros [Ea Eb].
          assert (H : ct_sum (Some (s1, s2)) (Some (x3, y3)) (Some (s1, s2))).
          { apply (sum_eq R _ _ (Some (w1, w2))); auto. split; [now symmetry|]. rewrite Eb. ring. }
          assert (H' : ct_sum (Some (s1, s2)) None (Some (s1, s2))) by (cbn; split; reflexivity).
          destruct (cancel_l R F two three b nonsing (Some (s1, s2)) (Some (x3, y3)) None (Some (s1, s2)) Os O3 I H H').
      + (* A, B, C *)
        apply (three_points al0 be0 ga0 x1 y1 x2 y2 x3 y3 (Some (s1, s2))); auto.
        intros E. assert (H : ct_sum (Some (s1, s2)) (Some (x3, y3)) None).
        { apply (sum_m R (opposite (Some (x3, y3))) (Some (s1, s2)) (Some (x3, y3)) (Some (x3, y3)) None None); try reflexivity; [now symmetry|].
          apply sum_comm, sum_opp. }
        destruct (sum_unique R F _ _ _ _ H CW). }
  destruct K as (Ka & Kb & Kc).
  assert (E : f px py =! g px py).
  { apply f_sub. rewrite D, Ka, Kb, Kc. ring. }
  exists (f px py). split.
  - rewrite (lval_rel px py la x1 y1 s1 (-! s2) A2).
    unfold f. rewrite <- (lines_product s1 (-! s2) la mu px py Op (on_t _ _ Os)). unfold lval. ring.
  - rewrite E, (lval_rel px py la' x2 y2 r1 (-! r2) B2), (lval_rel px py mu' x1 y1 r1 r2 D1).
    unfold g. rewrite <- (lines_product r1 (-! r2) la' mu' px py Op (on_t _ _ Or)). unfold lval. ring.
Qed.
End Line.

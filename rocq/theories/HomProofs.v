(** Maps between curves: (x, y) to (w^2 e(x), w^3 e(y)) for an embedding e of fields.  Multiples of
    a point as a function on the integers. *)
Require Import ZArith Setoid Morphisms Ring Ring_theory Bool Lia.
Require Import Verif.Cong Verif.Ext Verif.TowerSpec Verif.FieldProofs Verif.CurveSpec Verif.JacProofs Verif.AssocProofs Verif.CurveGroup Verif.OrderProofs Verif.BilinProofs.

Section Hom.
Variables R R' : cring.
Add Ring Rr : (c_ring R) (setoid (c_equiv R) (c_ext R)).
Add Ring Rr' : (c_ring R') (setoid (c_equiv R') (c_ext R')).
Variable e : R -> R'.
Hypothesis e_m : Proper (@ceq R ==> @ceq R') e.
Hypothesis e_add : forall x y, e (x +! y) =! e x +! e y.
Hypothesis e_mul : forall x y, e (x *! y) =! e x *! e y.
Hypothesis e_opp : forall x, e (-! x) =! -! e x.
Hypothesis e_1 : e c1 =! c1.
Hypothesis e_inj : forall x y, e x =! e y -> x =! y.
Hypothesis F' : is_field R'.
Variable w : R'.
Hypothesis w_nz : ~ w =! c0.
#[local] Existing Instance e_m.
#[local] Existing Instance apoint_equiv.
Definition hx (x : R) : R' := w *! w *! e x.
Definition hy (y : R) : R' := w *! w *! w *! e y.
Definition hom (p : apoint R) : apoint R' := match p with None => None | Some (x, y) => Some (hx x, hy y) end.
Lemma e_sub x y : e (x -! y) =! e x -! e y.
Proof. rewrite (Rsub_def (c_ring R)), e_add, e_opp. ring. Qed.
Lemma w_cancel x y : w *! x =! w *! y -> x =! y.
Proof. apply (f_cancel R' F' w). exact w_nz. Qed.
Lemma hx_inj x y : hx x =! hx y -> x =! y.
Proof. unfold hx. intros H. apply e_inj. apply w_cancel, w_cancel. rewrite !(Rmul_assoc (c_ring R')). exact H. Qed.
Lemma hy_inj x y : hy x =! hy y -> x =! y.
Proof. unfold hy. intros H. apply e_inj. apply w_cancel, w_cancel, w_cancel. rewrite !(Rmul_assoc (c_ring R')). exact H. Qed.
Lemma hom_m p p' : apoint_eq p p' -> apoint_eq (hom p) (hom p').
Proof.
  destruct p as [[x y]|], p' as [[x' y']|]; cbn; try tauto. intros [A B]. unfold hx, hy. now rewrite A, B.
Qed.
Lemma hom_inj p p' : apoint_eq (hom p) (hom p') -> apoint_eq p p'.
Proof.
  destruct p as [[x y]|], p' as [[x' y']|]; cbn; try tauto. intros [A B]. split; [now apply hx_inj|now apply hy_inj].
Qed.
Lemma hom_opp p : apoint_eq (hom (opposite p)) (opposite (hom p)).
Proof. destruct p as [[x y]|]; cbn; [|exact I]. unfold hx, hy. rewrite e_opp. split; ring. Qed.
Lemma hom_slope m x1 y1 x2 y2 : slope m x1 y1 x2 y2 -> slope (w *! e m) (hx x1) (hy y1) (hx x2) (hy y2).
Proof.
  intros [[N L]|(A & B & N & L)]; [left|right].
  - split; [intros H; apply N; now apply hx_inj|]. unfold hx, hy.
    transitivity (w *! w *! w *! (e (m *! (x2 -! x1)))); [rewrite e_mul, e_sub; ring|]. rewrite L, e_sub. ring.
  - split; [unfold hx; now rewrite A|]. split; [unfold hy; now rewrite B|]. split.
    + intros H. apply N. apply hy_inj. rewrite H. unfold hy. rewrite e_opp. ring.
    + unfold hx, hy. transitivity (w *! w *! w *! w *! (e (m *! (y1 +! y1)))); [rewrite e_mul, e_add; ring|]. rewrite L, !e_mul, !e_add, e_1. ring.
Qed.
Lemma hom_sum p1 p2 p3 : ct_sum p1 p2 p3 -> ct_sum (hom p1) (hom p2) (hom p3).
Proof.
  destruct p1 as [[x1 y1]|]; [|apply hom_m]. destruct p2 as [[x2 y2]|]; [|exact (hom_m _ (Some (x1, y1)))].
  intros [(A & B & ->)|(m & x3 & y3 & SL & -> & X3 & Y3)]; [left|right].
  - unfold hx, hy. rewrite A, B, e_opp. split; [reflexivity|]. split; [ring|reflexivity].
  - exists (w *! e m), (hx x3), (hy y3). split; [now apply hom_slope|]. split; [reflexivity|]. unfold hx, hy. split.
    + rewrite X3, !e_sub, e_mul. ring.
    + rewrite Y3 at 1. rewrite e_sub, e_mul, e_sub. ring.
Qed.
Lemma hom_multiple p n s : multiple p n s -> multiple (hom p) n (hom s).
Proof.
  induction 1 as [|n s t H IH S]; [constructor|]. apply (multiple_S (hom p) n (hom s) (hom t)); auto. now apply hom_sum.
Qed.
Lemma hom_on b b' p : w *! w *! w *! w *! w *! w *! e b =! b' -> on_curve b p -> on_curve b' (hom p).
Proof.
  intros B. destruct p as [[x y]|]; [|auto]. cbn [hom on_curve]. intros O. unfold hx, hy. rewrite <- B.
  transitivity (w *! w *! w *! w *! w *! w *! e (y *! y)); [rewrite e_mul; ring|]. rewrite O, e_add, !e_mul. ring.
Qed.
End Hom.

(** ** Multiples of a point of prime order q, as a function on the integers. *)
Section Mult.
Variable R : cring.
Hypothesis F : is_field R.
Hypothesis two : ~ (c1 : R) +! c1 =! c0.
Hypothesis three : ~ (c1 : R) +! c1 +! c1 =! c0.
Variable b : R.
Hypothesis nonsing : ~ b =! c0.
Add Ring Rr : (c_ring R) (setoid (c_equiv R) (c_ext R)).
#[local] Existing Instance apoint_equiv.
Variable inv : R -> R.
Hypothesis inv_ok : forall a, ~ a =! c0 -> a *! inv a =! c1.
Variable eqb : R -> R -> bool.
Hypothesis eqb_ok : forall x y, eqb x y = true <-> x =! y.
Definition addf (p r : apoint R) : apoint R :=
  match p, r with
  | None, _ => r
  | _, None => p
  | Some (x1, y1), Some (x2, y2) =>
      if eqb x1 x2 && eqb y1 (-! y2) then None
      else let m := slope_of R inv eqb x1 y1 x2 y2 in
           let x3 := m *! m -! x1 -! x2 in Some (x3, m *! (x1 -! x3) -! y1)
  end.
Lemma addf_ok p r : on_curve b p -> on_curve b r -> ct_sum p r (addf p r).
Proof.
  intros Op Or. destruct p as [[x1 y1]|]; [|apply (reflexivity (R := apoint_eq))]. destruct r as [[x2 y2]|]; [|apply (reflexivity (R := apoint_eq))].
  cbn [addf ct_sum]. destruct (eqb x1 x2 && eqb y1 (-! y2)) eqn:E.
  - left. apply andb_true_iff in E. rewrite !eqb_ok in E. tauto.
  - right. eexists _, _, _. split; [|split; [reflexivity|split; reflexivity]].
    apply (slope_of_ok R F b inv inv_ok eqb eqb_ok); auto. intros [A B]. apply eqb_ok in A, B. rewrite A, B in E. discriminate.
Qed.
Variable g : apoint R.
Hypothesis Og : on_curve b g.
Variable q : Z.
Hypothesis Pq : Znumtheory.prime q.
Hypothesis g_q : multiple g (Z.to_nat q) None.
Hypothesis g_nz : g <> None.
Fixpoint mulf (n : nat) : apoint R := match n with O => None | S n => addf (mulf n) g end.
Lemma mulf_ok n : multiple g n (mulf n) /\ on_curve b (mulf n).
Proof.
  induction n as [|n [IH O]]; [split; [constructor|exact I]|]. cbn [mulf].
  assert (H := addf_ok (mulf n) g O Og). split; [exact (multiple_S g n _ _ IH H)|exact (sum_on_curve R F b _ _ _ O Og H)].
Qed.
Definition zmul (i : Z) : apoint R := mulf (Z.to_nat (i mod q)).
Lemma q_gt : (1 < q)%Z. Proof. now destruct Pq. Qed.
Lemma zmul_on i : on_curve b (zmul i). Proof. apply mulf_ok. Qed.
Lemma zmul_multiple i : multiple g (Z.to_nat (i mod q)) (zmul i). Proof. apply mulf_ok. Qed.
Lemma zmul_0 : zmul 0 = None. Proof. reflexivity. Qed.
Lemma mod_range i : (0 <= i mod q < q)%Z. Proof. apply Z.mod_pos_bound. assert (H := q_gt). lia. Qed.
Lemma multiple_zmul n s : multiple g n s <-> apoint_eq s (zmul (Z.of_nat n)).
Proof.
  assert (M := mult_cong R F two three b nonsing g Og q Pq g_q g_nz). split.
  - intros H. apply (M n (Z.to_nat (Z.of_nat n mod q)) s _ H (zmul_multiple _)).
    rewrite Z2Nat.id by apply mod_range. symmetry. apply cong_mod.
  - intros H. destruct (mult_ex R F two b g n Og) as [t T]. apply (mult_eq R g n t s T). transitivity (zmul (Z.of_nat n)); [|now symmetry].
    apply (M n (Z.to_nat (Z.of_nat n mod q)) t _ T (zmul_multiple _)).
    rewrite Z2Nat.id by apply mod_range. symmetry. apply cong_mod.
Qed.
Lemma zmul_cong i j : apoint_eq (zmul i) (zmul j) <-> i ==[q] j.
Proof.
  assert (M := mult_cong R F two three b nonsing g Og q Pq g_q g_nz (Z.to_nat (i mod q)) (Z.to_nat (j mod q)) _ _ (zmul_multiple i) (zmul_multiple j)).
  rewrite !Z2Nat.id in M by apply mod_range. rewrite M, !cong_mod. reflexivity.
Qed.
Lemma zmul_none i : zmul i = None <-> i ==[q] 0.
Proof.
  rewrite <- zmul_cong, zmul_0. destruct (zmul i) as [[? ?]|]; cbn; split; intros H; try discriminate; try reflexivity; try exact I; destruct H.
Qed.
Lemma zmul_sum i j : ct_sum (zmul i) (zmul j) (zmul (i + j)).
Proof.
  assert (H := addf_ok _ _ (zmul_on i) (zmul_on j)). apply (sum_eq R _ _ _ _ H).
  assert (A := mult_add R F two three b nonsing g _ _ _ _ _ Og (zmul_multiple i) (zmul_multiple j) H).
  apply multiple_zmul in A. rewrite A. apply zmul_cong. rewrite Nat2Z.inj_add, !Z2Nat.id by apply mod_range. now rewrite !cong_mod.
Qed.
Lemma zmul_opp i : apoint_eq (zmul (- i)) (opposite (zmul i)).
Proof. apply opp_unique. rewrite <- zmul_0. replace 0%Z with (i + - i)%Z by lia. apply zmul_sum. Qed.
(** There are no points of order two. *)
Lemma zmul_y i x y : Z.odd q = true -> zmul i = Some (x, y) -> ~ y =! c0.
Proof.
  intros Od E Y. assert (S := zmul_sum i i). rewrite E in S.
  assert (N : zmul (i + i) = None).
  { destruct S as [(_ & _ & H)|(m & x3 & y3 & SL & _)]; [exact H|]. exfalso.
    destruct SL as [[H _]|(_ & _ & H & _)]; [apply H; reflexivity|]. apply H. rewrite Y. ring. }
  apply zmul_none in N. assert (D : zmul i = None); [|congruence]. apply zmul_none.
  destruct N as [k N]. assert (N' : (i + i = k * q)%Z) by lia.
  assert (K : Z.even k = true).
  { assert (V : Z.even (i + i) = true) by (rewrite Z.even_add; apply Bool.eqb_reflx). rewrite N', Z.even_mul in V.
    apply orb_true_iff in V. destruct V as [V|V]; [exact V|]. rewrite <- Z.negb_odd, Od in V. discriminate. }
  apply Z.even_spec in K. destruct K as [k' K]. exists k'. nia.
Qed.
End Mult.

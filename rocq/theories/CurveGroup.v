(** Jacobian formulas against the group law, and multiples of a point. *)
Require Import ZArith Setoid Morphisms Ring Ring_theory Lia.
Require Import Verif.Ext Verif.TowerSpec Verif.FieldProofs Verif.CurveSpec Verif.JacProofs Verif.AssocProofs.

Section Group.
Variable R : cring.
Hypothesis F : is_field R.
Hypothesis two : ~ (c1 : R) +! c1 =! c0.
Hypothesis three : ~ (c1 : R) +! c1 +! c1 =! c0.
Variable b : R.
Hypothesis nonsing : ~ b =! c0.
Add Ring Rr : (c_ring R) (setoid (c_equiv R) (c_ext R)).
Local Existing Instance apoint_equiv.

#[global] Instance represents_m : Proper (@ceq R ==> @ceq R ==> @ceq R ==> eq ==> iff) (@represents R).
Proof.
  intros X X' HX Y Y' HY Z Z' HZ p p' <-. destruct p as [[x y]|]; cbn.
  - rewrite HX, HY, HZ. reflexivity.
  - rewrite HZ. reflexivity.
Qed.
Lemma jac_double X Y Z p : represents X Y Z p -> on_curve b p ->
  exists s, ct_sum p p s /\ represents (dbl_x R X Y Z) (dbl_y R X Y Z) (dbl_z R X Y Z) s.
Proof.
  intros H O. destruct p as [[x y]|].
  2:{ exists None. cbn in *. split; [exact I|]. now apply dbl_inf. }
  destruct (dbl_ok R F two X Y Z x y H) as [D1 D2].
  destruct (f_dec R F y) as [E|N].
  - exists None. split; [|exact (D1 E)]. left. split; [reflexivity|]. split; [rewrite E; ring|reflexivity].
  - destruct (sum_exists R F two b _ _ O O) as [s Hs]. exists s. split; auto.
    destruct Hs as [(_ & B & _)|(m & x3 & y3 & SL & -> & X3 & Y3)].
    + exfalso. apply (nz_two R F two y N). rewrite B at 1. ring.
    + destruct SL as [[A _]|(_ & _ & _ & L)]; [exfalso; now apply A|].
      eapply rep_eq; [exact (D2 m N L)|]. cbn. rewrite X3, Y3, X3. split; reflexivity.
Qed.
Lemma jac_same X1 Y1 Z1 X2 Y2 Z2 p1 p2 : represents X1 Y1 Z1 (Some p1) -> represents X2 Y2 Z2 (Some p2) ->
  add_h R X1 Y1 Z1 X2 Y2 Z2 =! c0 -> add_s R X1 Y1 Z1 X2 Y2 Z2 =! c0 -> apoint_eq (Some p1) (Some p2).
Proof.
  destruct p1 as [x1 y1], p2 as [x2 y2]. intros H1 H2 H S. destruct (add_h_0 R F X1 Y1 Z1 X2 Y2 Z2 x1 y1 x2 y2 H1 H2) as [A B]. cbn. tauto.
Qed.
Lemma jac_add X1 Y1 Z1 X2 Y2 Z2 p1 p2 : represents X1 Y1 Z1 (Some p1) -> represents X2 Y2 Z2 (Some p2) ->
  on_curve b (Some p1) -> on_curve b (Some p2) ->
  ~ (add_h R X1 Y1 Z1 X2 Y2 Z2 =! c0 /\ add_s R X1 Y1 Z1 X2 Y2 Z2 =! c0) ->
  exists s, ct_sum (Some p1) (Some p2) s /\
    represents (add_x R X1 Y1 Z1 X2 Y2 Z2) (add_y R X1 Y1 Z1 X2 Y2 Z2) (add_z R X1 Y1 Z1 X2 Y2 Z2) s.
Proof.
  destruct p1 as [x1 y1], p2 as [x2 y2]. intros H1 H2 O1 O2 N.
  destruct (add_h_0 R F X1 Y1 Z1 X2 Y2 Z2 x1 y1 x2 y2 H1 H2) as [A B].
  destruct (add_ok R F two X1 Y1 Z1 X2 Y2 Z2 x1 y1 x2 y2 H1 H2) as [C D].
  destruct (sum_exists R F two b _ _ O1 O2) as [s Hs]. exists s. split; auto.
  destruct Hs as [(EX & EY & ->)|(m & x3 & y3 & SL & -> & X3 & Y3)].
  - exact (C EX).
  - destruct SL as [[NX L]|(EX & EY & _)]; [|exfalso; apply N; tauto].
    eapply rep_eq; [exact (D m NX L)|]. cbn. rewrite X3, Y3, X3. split; reflexivity.
Qed.

Lemma opp_mul (a c : R) : -! (a *! c) =! (-! a) *! c. Proof. ring. Qed.
(** ** Multiples. *)
Lemma sum_ex p r : on_curve b p -> on_curve b r -> exists s, ct_sum p r s /\ on_curve b s.
Proof.
  intros O O'. destruct (sum_exists R F two b p r O O') as [s H]. exists s. split; auto. exact (sum_on_curve R F b p r s O O' H).
Qed.
Lemma sum_eq (p r s s' : apoint R) : ct_sum p r s -> apoint_eq s s' -> ct_sum p r s'.
Proof. intros H E. apply (sum_m R p p r r s s'); auto; reflexivity. Qed.
Lemma sum_inf_r (p s : apoint R) : ct_sum p None s <-> apoint_eq s p.
Proof. destruct p as [[x y]|]; cbn; reflexivity. Qed.
Lemma on_eq (p r : apoint R) : apoint_eq p r -> on_curve b p -> on_curve b r.
Proof. destruct p as [[x y]|], r as [[x' y']|]; cbn; try tauto. intros [A B]. now rewrite A, B. Qed.
Lemma mult_on p n s : on_curve b p -> multiple p n s -> on_curve b s.
Proof. intros O. induction 1; [exact I|]. now apply (sum_on_curve R F b s p). Qed.
Lemma mult_ex p n : on_curve b p -> exists s, multiple p n s.
Proof.
  intros O. induction n as [|n [s IH]]; [exists None; constructor|].
  destruct (sum_ex s p) as (t & H & _); auto; [now apply (mult_on p n)|]. exists t. econstructor; eauto.
Qed.
Lemma mult_unique (p : apoint R) n s s' : multiple p n s -> multiple p n s' -> apoint_eq s s'.
Proof.
  intros H. revert s'. induction H as [|n s t H IH E]; intros s' H'; inversion H' as [|? u ? H2 E2]; subst; [reflexivity|].
  apply (sum_unique R F s p); auto. apply (sum_m R u s p p s' s'); auto; try reflexivity. symmetry. now apply IH.
Qed.
Lemma mult_eq (p : apoint R) n s s' : multiple p n s -> apoint_eq s s' -> multiple p n s'.
Proof.
  intros H E. destruct H as [|n s t H H'].
  - destruct s'; [contradiction|constructor].
  - econstructor; [exact H|]. now apply (sum_eq _ _ t).
Qed.
Lemma mult_arg (p p' : apoint R) n s : apoint_eq p p' -> multiple p n s -> multiple p' n s.
Proof.
  intros E. induction 1; [constructor|]. econstructor; [eassumption|]. apply (sum_m R s s p p' t t); auto; reflexivity.
Qed.
Lemma mult_1 (p : apoint R) : multiple p 1 p.
Proof. apply (multiple_S p 0 None); [constructor|]. cbn. reflexivity. Qed.
(** (p + q) + (r + s) and friends. *)
Lemma assoc (p r t u w z : apoint R) : on_curve b p -> on_curve b r -> on_curve b t ->
  ct_sum p r u -> ct_sum r t w -> ct_sum p w z -> ct_sum u t z.
Proof.
  intros P1 P2 P3 U W Z. assert (Pu := sum_on_curve R F b p r u P1 P2 U).
  destruct (sum_ex u t Pu P3) as (v & V & _). apply (sum_eq _ _ v); auto.
  exact (sum_assoc R F two three b nonsing p r t u v w z P1 P2 P3 U V W Z).
Qed.
Lemma assoc_r (p r t u w z : apoint R) : on_curve b p -> on_curve b r -> on_curve b t ->
  ct_sum p r u -> ct_sum r t w -> ct_sum u t z -> ct_sum p w z.
Proof.
  intros P1 P2 P3 U W Z. assert (Pw := sum_on_curve R F b r t w P2 P3 W).
  destruct (sum_ex p w P1 Pw) as (v & V & _). apply (sum_eq _ _ v); auto. symmetry.
  exact (sum_assoc R F two three b nonsing p r t u z w v P1 P2 P3 U Z W V).
Qed.
Lemma mult_add p n m s t u : on_curve b p -> multiple p n s -> multiple p m t -> ct_sum s t u -> multiple p (n + m) u.
Proof.
  intros O H. revert m t u. induction H as [|n s0 s H IH E]; intros m t u H' S.
  - cbn in S. cbn [Nat.add]. apply (mult_eq p m t); auto. now symmetry.
  - assert (O0 := mult_on p n s0 O H). assert (Ot := mult_on p m t O H').
    destruct (sum_ex s0 t O0 Ot) as (w & W & Ow). assert (Hw := IH m t w H' W).
    cbn [Nat.add]. econstructor; [exact Hw|].
    destruct (sum_ex p t O Ot) as (v & V & Ov).
    assert (A : ct_sum s0 v u) by exact (assoc_r s0 p t s v u O0 O Ot E V S).
    apply (assoc s0 t p w v u); auto. now apply sum_comm.
Qed.
Lemma mult_double p n s t : on_curve b p -> multiple p n s -> ct_sum s s t -> multiple p (2 * n) t.
Proof. intros O H S. replace (2 * n)%nat with (n + n)%nat by lia. now apply (mult_add p n n s s). Qed.
Lemma mult_add_inv p n m s t u : on_curve b p -> multiple p n s -> multiple p m t -> multiple p (n + m) u -> ct_sum s t u.
Proof.
  intros O H H' H2. destruct (sum_ex s t) as (v & V & _); [now apply (mult_on p n)|now apply (mult_on p m)|].
  apply (sum_eq _ _ v); auto. apply (mult_unique p (n + m)); auto. now apply (mult_add p n m s t).
Qed.
Lemma mult_mul p n m s t : on_curve b p -> multiple p n s -> multiple s m t -> multiple p (m * n) t.
Proof.
  intros O H H'. induction H' as [|m u v H' IH E]; [constructor|]. cbn [Nat.mul].
  replace (n + m * n)%nat with (m * n + n)%nat by lia. now apply (mult_add p (m * n) n u s).
Qed.
Lemma mult_inf n s : multiple (None : apoint R) n s -> apoint_eq s None.
Proof. induction 1; [reflexivity|]. apply sum_inf_r in H0. now rewrite H0. Qed.
(** n (p + r) = n p + n r *)
Lemma mult_sum p r u n s t v : on_curve b p -> on_curve b r -> ct_sum p r u -> multiple p n s -> multiple r n t -> ct_sum s t v -> multiple u n v.
Proof.
  intros Op Or U H. assert (Ou := sum_on_curve R F b p r u Op Or U). revert t v. induction H as [|n s0 s H IH E]; intros t v H' V.
  - inversion H'; subst. cbn in V. destruct v as [[? ?]|]; [contradiction|constructor].
  - inversion H' as [|? t0 ? H0 E0]; subst.
    assert (Os := mult_on p n s0 Op H). assert (Ot := mult_on r n t0 Or H0).
    destruct (sum_ex s0 t0 Os Ot) as (w & W & Ow). econstructor; [exact (IH t0 w H0 W)|].
    (* (s0 + p) + (t0 + r) = (s0 + t0) + (p + r) *)
    assert (Ot' := sum_on_curve R F b t0 r t Ot Or E0).
    destruct (sum_ex t0 u Ot Ou) as (x & X & Ox).
    destruct (sum_ex p t Op Ot') as (y & Y & Oy).
    assert (A1 : ct_sum s0 y v) by exact (assoc_r s0 p t s y v Os Op Ot' E Y V).
    (* p + (t0 + r) = t0 + (p + r) *)
    destruct (sum_ex p t0 Op Ot) as (z & Z & Oz).
    assert (A2 : ct_sum z r y) by exact (assoc p t0 r z t y Op Ot Or Z E0 Y).
    apply sum_comm in Z. assert (A3 : ct_sum t0 u y) by exact (assoc_r t0 p r z u y Ot Op Or Z U A2).
    exact (assoc s0 t0 u w y v Os Ot Ou W A3 A1).
Qed.
Lemma mult_opp p n s : on_curve b p -> multiple p n s -> multiple (opposite p) n (opposite s).
Proof. intros O. induction 1; [constructor|]. econstructor; [exact IHmultiple|]. now apply opp_sum. Qed.
End Group.

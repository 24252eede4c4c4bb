(** A checker for multiples of a point: an addition chain with, for every step, the slope, the
    resulting point and the quotients by P of the three equations of the chord and tangent law. *)
Require Import ZArith NArith Bool List Lia.
Require Import Verif.Cong Verif.Ext Verif.FqModel Verif.Pocklington Verif.TowerModel Verif.TowerSpec Verif.TowerProofs Verif.FieldProofs Verif.FrobProofs
  Verif.CurveModel Verif.CurveSpec Verif.JacProofs Verif.AssocProofs Verif.CurveGroup Verif.CurveProofs.
Import ListNotations.
Open Scope Z_scope.

(** C s x3 y3 q1 q2 q3 *)
Inductive cert (A : Type) := C (s x y q1 q2 q3 : A).
Arguments C {A}.
(** Double, add the i-th entry of the table, append to the table, load the i-th entry. *)
Inductive op (A : Type) := OD (c : cert A) | OA (i : nat) (c : cert A) | OS | OL (i : nat).
Arguments OD {A}. Arguments OA {A}. Arguments OS {A}. Arguments OL {A}.

Section Run.
Variable A : Type.
Variable dbl : A -> A -> cert A -> bool.
Variable add : A -> A -> A -> A -> cert A -> bool.
Definition entry : Type := N * (A * A).
Fixpoint run (l : list (op A)) (acc : entry) (tab : list entry) : option entry :=
  match l with
  | [] => Some acc
  | OD (C s x y q1 q2 q3 as c) :: l =>
      let '(n, (x1, y1)) := acc in if dbl x1 y1 c then run l (2 * n, (x, y))%N tab else None
  | OA i (C s x y q1 q2 q3 as c) :: l =>
      let '(n, (x1, y1)) := acc in
      match nth_error tab i with
      | None => None
      | Some (m, (x2, y2)) => if add x1 y1 x2 y2 c then run l (n + m, (x, y))%N tab else None
      end
  | OS :: l => run l acc (tab ++ [acc])
  | OL i :: l => match nth_error tab i with None => None | Some e => run l e tab end
  end.
End Run.

Section Sound.
Variables (R : cring) (b : R).
Hypothesis F : is_field R.
Hypothesis two : ~ (c1 : R) +! c1 =! c0.
Hypothesis three : ~ (c1 : R) +! c1 +! c1 =! c0.
Hypothesis nonsing : ~ b =! c0.
Variable dbl : R -> R -> cert R -> bool.
Variable add : R -> R -> R -> R -> cert R -> bool.
Hypothesis dbl_ok : forall x1 y1 s x y q1 q2 q3, dbl x1 y1 (C s x y q1 q2 q3) = true -> ct_sum (Some (x1, y1)) (Some (x1, y1)) (Some (x, y)).
Hypothesis add_ok : forall x1 y1 x2 y2 s x y q1 q2 q3, add x1 y1 x2 y2 (C s x y q1 q2 q3) = true -> ct_sum (Some (x1, y1)) (Some (x2, y2)) (Some (x, y)).
Variable p : apoint R.
Hypothesis Op : on_curve b p.
Definition good (e : entry R) : Prop := multiple p (N.to_nat (fst e)) (Some (snd e)).
Lemma run_ok l : forall acc tab e, good acc -> Forall good tab -> run R dbl add l acc tab = Some e -> good e.
Proof.
  induction l as [|o l IH]; intros acc tab e Ha Ht H.
  - cbn in H. now injection H as <-.
  - destruct o as [[s x y q1 q2 q3]|i [s x y q1 q2 q3]| |i]; cbn [run] in H; destruct acc as [n [x1 y1]].
    + destruct (dbl x1 y1 _) eqn:D; [|discriminate]. apply (IH _ _ e) in H; auto. apply dbl_ok in D. unfold good in *. cbn [fst snd] in *.
      rewrite N2Nat.inj_mul. now apply (mult_double R F two three b nonsing p _ _ _ Op Ha).
    + destruct (nth_error tab i) as [[m [x2 y2]]|] eqn:E; [|discriminate].
      destruct (add x1 y1 x2 y2 _) eqn:D; [|discriminate]. apply (IH _ _ e) in H; auto. apply add_ok in D.
      apply nth_error_In in E. rewrite Forall_forall in Ht. apply Ht in E. unfold good in *. cbn [fst snd] in *.
      rewrite N2Nat.inj_add. exact (mult_add R F two three b nonsing p _ _ _ _ _ Op Ha E D).
    + apply (IH _ _ e) in H; auto. apply Forall_app. auto.
    + destruct (nth_error tab i) as [e'|] eqn:E; [|discriminate]. apply (IH _ _ e) in H; auto.
      apply nth_error_In in E. rewrite Forall_forall in Ht. auto.
Qed.
End Sound.

(** Over Z/P: x in [0, P), y in (0, P). *)
Definition in1 (x : Z) : bool := (0 <=? x) && (x <? P).
Definition rest1 (x1 y1 x2 : Z) (c : cert Z) : bool :=
  let '(C s x y q1 q2 q3) := c in (s * s =? x + x1 + x2 + q2 * P) && (s * (x1 - x) =? y + y1 + q3 * P).
Definition dbl1 (x1 y1 : Z) (c : cert Z) : bool :=
  let '(C s x y q1 q2 q3) := c in
  (0 <? y1) && (y1 <? P) && (s * (y1 + y1) =? 3 * (x1 * x1) + q1 * P) && rest1 x1 y1 x1 c.
Definition add1 (x1 y1 x2 y2 : Z) (c : cert Z) : bool :=
  let '(C s x y q1 q2 q3) := c in
  in1 x1 && in1 x2 && negb (x1 =? x2) && (s * (x2 - x1) =? y2 - y1 + q1 * P) && rest1 x1 y1 x2 c.
Lemma mult_q q : q * P ==[P] 0.
Proof. rewrite Z.mul_comm. apply cong_mul_q_l. Qed.
Lemma rest1_ok x1 y1 x2 s x y q1 q2 q3 : rest1 x1 y1 x2 (C s x y q1 q2 q3) = true ->
  x ==[P] s * s - x1 - x2 /\ y ==[P] s * (x1 - x) - y1.
Proof.
  unfold rest1. rewrite andb_true_iff, !Z.eqb_eq. intros [-> ->]. rewrite !mult_q. split; apply cong_eq; ring.
Qed.
Lemma dbl1_ok x1 y1 s x y q1 q2 q3 : dbl1 x1 y1 (C s x y q1 q2 q3) = true ->
  ct_sum (R := FP) (Some (x1, y1)) (Some (x1, y1)) (Some (x, y)).
Proof.
  unfold dbl1. rewrite !andb_true_iff, Z.eqb_eq, !Z.ltb_lt. intros [[[Y0 Y1] L] H]. apply rest1_ok in H. destruct H as [HX HY].
  right. exists s, x, y. split; [|split; [reflexivity|split; [exact HX|exact HY]]].
  right. split; [reflexivity|]. split; [reflexivity|]. split.
  - intros E. change (y1 ==[P] - y1) in E.
    assert (Z2 : y1 + y1 ==[P] 0) by (rewrite E at 1; apply cong_eq; ring).
    apply (proj2 (z_ok_double y1 ltac:(lia))) in Z2. lia.
  - change (s * (y1 + y1) ==[P] (1 + 1 + 1) * (x1 * x1)). rewrite L, mult_q. apply cong_eq. ring.
Qed.
Lemma in1_ok x : in1 x = true -> 0 <= x < P.
Proof. unfold in1. rewrite andb_true_iff, Z.leb_le, Z.ltb_lt. auto. Qed.
Lemma add1_ok x1 y1 x2 y2 s x y q1 q2 q3 : add1 x1 y1 x2 y2 (C s x y q1 q2 q3) = true ->
  ct_sum (R := FP) (Some (x1, y1)) (Some (x2, y2)) (Some (x, y)).
Proof.
  unfold add1. rewrite !andb_true_iff, Z.eqb_eq, negb_true_iff, Z.eqb_neq. intros [[[[I1 I2] N] L] H].
  apply rest1_ok in H. destruct H as [HX HY]. apply in1_ok in I1, I2.
  right. exists s, x, y. split; [|split; [reflexivity|split; [exact HX|exact HY]]].
  left. split.
  - intros E. apply N. now apply (cong_canon_unique P).
  - change (s * (x2 - x1) ==[P] y2 - y1). rewrite L, mult_q. apply cong_eq. ring.
Qed.

(** Over Z/P[i], elements x i + y as (x, y). *)
Definition mul2 (a b : gfp2) : gfp2 :=
  let t := fst a * fst b in let u := snd a * snd b in ((fst a + snd a) * (fst b + snd b) - t - u, u - t).
Definition sq2 (a : gfp2) : gfp2 := (2 * (fst a * snd a), (snd a - fst a) * (snd a + fst a)).
Definition eq2 (a b q : gfp2) : bool := (fst a =? fst b + fst q * P) && (snd a =? snd b + snd q * P).
Definition rest2 (x1 y1 x2 : gfp2) (c : cert gfp2) : bool :=
  let '(C s x y q1 q2 q3) := c in eq2 (sq2 s) (g2_add (g2_add x x1) x2) q2 && eq2 (mul2 s (g2_sub x1 x)) (g2_add y y1) q3.
Definition dbl2 (x1 y1 : gfp2) (c : cert gfp2) : bool :=
  let '(C s x y q1 q2 q3) := c in
  (0 <? fst y1) && (fst y1 <? P) && (let xx := sq2 x1 in eq2 (mul2 s (g2_add y1 y1)) (g2_add (g2_add xx xx) xx) q1) && rest2 x1 y1 x1 c.
Definition add2 (x1 y1 x2 y2 : gfp2) (c : cert gfp2) : bool :=
  let '(C s x y q1 q2 q3) := c in
  in1 (fst x1) && in1 (fst x2) && negb (fst x1 =? fst x2) && eq2 (mul2 s (g2_sub x2 x1)) (g2_sub y2 y1) q1 && rest2 x1 y1 x2 c.
Lemma mul2_ok (a b : FP2) : mul2 a b =[FP2]= a *! b.
Proof.
  destruct a as [a1 a2], b as [b1 b2]. split.
  - change ((a1 + a2) * (b1 + b2) - a1 * b1 - a2 * b2 ==[P] a1 * b2 + a2 * b1). apply cong_eq. ring.
  - change (a2 * b2 - a1 * b1 ==[P] a2 * b2 + -1 * (a1 * b1)). apply cong_eq. ring.
Qed.
Lemma sq2_ok (a : FP2) : sq2 a =[FP2]= a *! a.
Proof.
  destruct a as [a1 a2]. split.
  - change (2 * (a1 * a2) ==[P] a1 * a2 + a2 * a1). apply cong_eq. ring.
  - change ((a2 - a1) * (a2 + a1) ==[P] a2 * a2 + -1 * (a1 * a1)). apply cong_eq. ring.
Qed.
Lemma eq2_ok (a b q : FP2) : eq2 a b q = true -> a =! b.
Proof.
  unfold eq2. rewrite andb_true_iff, !Z.eqb_eq. destruct a as [a1 a2], b as [b1 b2], q as [q1 q2]. cbn [fst snd]. intros [-> ->].
  split; [change (b1 + q1 * P ==[P] b1)|change (b2 + q2 * P ==[P] b2)]; rewrite mult_q; apply cong_eq; ring.
Qed.
Lemma Zplus_is_double0 y : y + y = 0 -> y = 0. Proof. lia. Qed.
Section Alg.
Variable R : cring.
Add Ring Rr : (c_ring R) (setoid (c_equiv R) (c_ext R)).
Lemma alg_x (ss x x1 x2 : R) : ss =! x +! x1 +! x2 -> x =! ss -! x1 -! x2. Proof. intros ->. ring. Qed.
Lemma alg_y (m y y1 : R) : m =! y +! y1 -> y =! m -! y1. Proof. intros ->. ring. Qed.
Lemma alg_3 (a : R) : a +! a +! a =! (c1 +! c1 +! c1) *! a. Proof. ring. Qed.
End Alg.
Lemma rest2_ok (x1 y1 x2 s x y q1 q2 q3 : FP2) : rest2 x1 y1 x2 (C s x y q1 q2 q3) = true ->
  x =! s *! s -! x1 -! x2 /\ y =! s *! (x1 -! x) -! y1.
Proof.
  unfold rest2. rewrite andb_true_iff. intros [A B]. apply eq2_ok in A, B. rewrite (sq2_ok s) in A. rewrite (mul2_ok s _) in B.
  split; [exact (alg_x FP2 _ x x1 x2 A)|exact (alg_y FP2 _ y y1 B)].
Qed.
Lemma dbl2_ok (x1 y1 s x y q1 q2 q3 : FP2) : dbl2 x1 y1 (C s x y q1 q2 q3) = true ->
  ct_sum (R := FP2) (Some (x1, y1)) (Some (x1, y1)) (Some (x, y)).
Proof.
  unfold dbl2. cbv zeta. rewrite !andb_true_iff, !Z.ltb_lt. intros [[[Y0 Y1] L] H]. apply rest2_ok in H. destruct H as [HX HY].
  right. exists s, x, y. split; [|split; [reflexivity|split; [exact HX|exact HY]]].
  right. split; [reflexivity|]. split; [reflexivity|]. split.
  - intros [E _]. change (fst y1 ==[P] - fst y1) in E.
    assert (Z2 : fst y1 + fst y1 ==[P] 0) by (rewrite E at 1; apply cong_eq; ring).
    apply (proj2 (z_ok_double (fst y1) (conj (Z.lt_le_incl _ _ Y0) Y1))) in Z2.
    apply Zplus_is_double0 in Z2. exact (Z.lt_neq _ _ Y0 (eq_sym Z2)).
  - apply eq2_ok in L. rewrite (mul2_ok s _) in L. etransitivity; [exact L|]. etransitivity; [|apply alg_3].
    apply (cadd_morph FP2); [apply (cadd_morph FP2)|]; apply sq2_ok.
Qed.
Lemma add2_ok (x1 y1 x2 y2 s x y q1 q2 q3 : FP2) : add2 x1 y1 x2 y2 (C s x y q1 q2 q3) = true ->
  ct_sum (R := FP2) (Some (x1, y1)) (Some (x2, y2)) (Some (x, y)).
Proof.
  unfold add2. rewrite !andb_true_iff, negb_true_iff, Z.eqb_neq. intros [[[[I1 I2] N] L] H].
  apply rest2_ok in H. destruct H as [HX HY]. apply in1_ok in I1, I2.
  right. exists s, x, y. split; [|split; [reflexivity|split; [exact HX|exact HY]]].
  left. split.
  - intros [E _]. apply N. now apply (cong_canon_unique P).
  - apply eq2_ok in L. rewrite (mul2_ok s _) in L. exact L.
Qed.

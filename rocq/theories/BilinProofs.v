(** Why the pairing is bilinear.  E is the final exponentiation: it kills everything fixed by the
    conjugation sg.  The points p are fixed by sg, the points pt i are turned into their opposites.
    The lines through pt i and pt j, evaluated at p, form a symmetric cocycle. *)
Require Import ZArith Setoid Morphisms Ring Ring_theory Bool Lia.
Require Import Verif.Ext Verif.TowerSpec Verif.FieldProofs Verif.CurveSpec Verif.JacProofs Verif.AssocProofs Verif.CurveGroup Verif.OrderProofs Verif.LineProofs.

Section Lines.
Variable R : cring.
Hypothesis F : is_field R.
Hypothesis two : ~ (c1 : R) +! c1 =! c0.
Hypothesis three : ~ (c1 : R) +! c1 +! c1 =! c0.
Variable b : R.
Hypothesis nonsing : ~ b =! c0.
Add Ring Rr : (c_ring R) (setoid (c_equiv R) (c_ext R)).
#[local] Existing Instance apoint_equiv.
#[local] Existing Instance slope_m.
Variable inv : R -> R.
Hypothesis inv_ok : forall a, ~ a =! c0 -> a *! inv a =! c1.
Variable eqb : R -> R -> bool.
Hypothesis eqb_ok : forall x y, eqb x y = true <-> x =! y.

Lemma canc (x y z : R) : ~ z =! c0 -> x *! z =! y *! z -> x =! y.
Proof. intros N H. apply (f_cancel R F z _ _ N). rewrite (cmulC R z x), (cmulC R z y). exact H. Qed.

Definition slope_of (x1 y1 x2 y2 : R) : R :=
  if eqb x1 x2 then (c1 +! c1 +! c1) *! (x1 *! x1) *! inv (y1 +! y1) else (y2 -! y1) *! inv (x2 -! x1).
(** The line through the points p1 and p2 at (px, py); one if it is vertical or a point is infinite. *)
Definition line (px py : R) (p1 p2 : apoint R) : R :=
  match p1, p2 with
  | Some (x1, y1), Some (x2, y2) =>
      if eqb x1 x2 && eqb y1 (-! y2) then c1 else lval R px py (slope_of x1 y1 x2 y2) x1 y1
  | _, _ => c1
  end.
Lemma slope_of_ok x1 y1 x2 y2 : on_curve b (Some (x1, y1)) -> on_curve b (Some (x2, y2)) -> ~ (x1 =! x2 /\ y1 =! -! y2) ->
  slope (slope_of x1 y1 x2 y2) x1 y1 x2 y2.
Proof.
  intros O1 O2 N. unfold slope_of. destruct (eqb x1 x2) eqn:E.
  - apply eqb_ok in E. right. split; [exact E|].
    destruct (same_x R F b x1 y1 y2 O1 (on_x R b x1 x2 y2 E O2)) as [Y|Y]; [|tauto].
    assert (N' : ~ y1 =! -! y2) by tauto. split; [exact Y|]. split; [exact N'|].
    assert (N2 : ~ y1 +! y1 =! c0). { intros H. apply N'. rewrite <- Y. apply f_sub. rewrite <- H. ring. }
    rewrite <- (Rmul_assoc (c_ring R)). rewrite (cmulC R (inv (y1 +! y1))), (inv_ok _ N2). ring.
  - assert (N1 : ~ x1 =! x2) by (intros H; apply eqb_ok in H; congruence).
    left. split; [exact N1|]. rewrite <- (Rmul_assoc (c_ring R)). rewrite (cmulC R (inv (x2 -! x1))), inv_ok; [ring|].
    intros H. apply N1. symmetry. now apply f_sub.
Qed.
Lemma line_slope px py m x1 y1 x2 y2 : on_curve b (Some (x1, y1)) -> on_curve b (Some (x2, y2)) -> slope m x1 y1 x2 y2 ->
  line px py (Some (x1, y1)) (Some (x2, y2)) =! lval R px py m x1 y1.
Proof.
  intros O1 O2 SL. cbn [line].
  assert (N : ~ (x1 =! x2 /\ y1 =! -! y2)).
  { intros [A B]. destruct SL as [[N _]|(_ & Y & N & _)]; tauto. }
  destruct (eqb x1 x2 && eqb y1 (-! y2)) eqn:E.
  - apply andb_true_iff in E. rewrite !eqb_ok in E. tauto.
  - unfold lval. rewrite (slope_unique R F _ _ _ _ _ _ (slope_of_ok x1 y1 x2 y2 O1 O2 N) SL). reflexivity.
Qed.
Lemma line_opp px py p1 p2 : ct_sum p1 p2 None -> line px py p1 p2 =! c1.
Proof.
  destruct p1 as [[x1 y1]|], p2 as [[x2 y2]|]; cbn [line]; intros H; try reflexivity.
  destruct H as [(A & B & _)|(? & ? & ? & _ & H & _)]; [|discriminate].
  apply eqb_ok in A, B. now rewrite A, B.
Qed.
(** Cases of two points with a given sum. *)
Lemma line_cases p1 p2 s : on_curve b p1 -> on_curve b p2 -> ct_sum p1 p2 s ->
  (p1 = None \/ p2 = None \/ s = None) \/
  exists m x1 y1 x2 y2 x3 y3, p1 = Some (x1, y1) /\ p2 = Some (x2, y2) /\ s = Some (x3, y3) /\
    slope m x1 y1 x2 y2 /\ x3 =! m *! m -! x1 -! x2 /\ y3 =! m *! (x1 -! x3) -! y1 /\
    forall px py, line px py p1 p2 =! lval R px py m x1 y1.
Proof.
  intros O1 O2 H. destruct p1 as [[x1 y1]|]; [|tauto]. destruct p2 as [[x2 y2]|]; [|tauto].
  destruct H as [(_ & _ & ->)|(m & x3 & y3 & SL & -> & X3 & Y3)]; [tauto|]. right.
  exists m, x1, y1, x2, y2, x3, y3. repeat (split; [solve [auto]|]). intros px py. now apply line_slope.
Qed.
Lemma line_m px py p1 p2 p1' p2' : on_curve b p1 -> on_curve b p2 -> apoint_eq p1 p1' -> apoint_eq p2 p2' ->
  line px py p1 p2 =! line px py p1' p2'.
Proof.
  intros O1 O2 E1 E2. assert (O1' := on_eq R b _ _ E1 O1). assert (O2' := on_eq R b _ _ E2 O2).
  destruct (sum_ex R F two b p1 p2 O1 O2) as (s & H & _).
  destruct (line_cases p1 p2 s O1 O2 H) as [[-> | [-> | ->] ] | (m & x1 & y1 & x2 & y2 & x3 & y3 & -> & -> & -> & SL & _ & _ & L)].
  - destruct p1' as [[? ?]|]; [destruct E1|]. destruct p2, p2'; reflexivity.
  - destruct p2' as [[? ?]|]; [destruct E2|]. destruct p1 as [[? ?]|], p1' as [[? ?]|]; reflexivity.
  - rewrite (line_opp px py p1 p2 H). symmetry. apply line_opp. apply (sum_m R p1 p1' p2 p2' None None); auto. reflexivity.
  - destruct p1' as [[x1' y1']|]; [|destruct E1]. destruct p2' as [[x2' y2']|]; [|destruct E2].
    destruct E1 as [A B], E2 as [C D]. rewrite L. rewrite (line_slope px py m x1' y1' x2' y2'); auto.
    + unfold lval. now rewrite A, B.
    + now rewrite <- A, <- B, <- C, <- D.
Qed.
Lemma line_sym px py p1 p2 : on_curve b p1 -> on_curve b p2 -> line px py p1 p2 =! line px py p2 p1.
Proof.
  intros O1 O2. destruct (sum_ex R F two b p1 p2 O1 O2) as (s & H & _).
  destruct (line_cases p1 p2 s O1 O2 H) as [[-> | [-> | ->] ] | (m & x1 & y1 & x2 & y2 & x3 & y3 & -> & -> & -> & SL & _ & _ & L)].
  - destruct p2 as [[? ?]|]; reflexivity.
  - destruct p1 as [[? ?]|]; reflexivity.
  - rewrite (line_opp px py p1 p2 H). symmetry. apply line_opp. now apply sum_comm.
  - rewrite L, (line_slope px py m x2 y2 x1 y1) by (auto; now apply slope_sym).
    apply lval_rel. exact (line_facts R F b m x1 y1 x2 y2 O1 O2 SL).
Qed.
(** Three points on a line. *)
Lemma line_third px py p1 p2 s : on_curve b p1 -> on_curve b p2 -> ct_sum p1 p2 s ->
  line px py p1 p2 =! line px py p2 (opposite s).
Proof.
  intros O1 O2 H. assert (Os := sum_on_curve R F b _ _ _ O1 O2 H).
  destruct (line_cases p1 p2 s O1 O2 H) as [[-> | [-> | ->] ] | (m & x1 & y1 & x2 & y2 & x3 & y3 & -> & -> & -> & SL & X3 & Y3 & L)].
  - transitivity (c1 : R); [reflexivity|]. symmetry. apply line_opp. cbn in H.
    apply (sum_m R p2 p2 (opposite p2) (opposite s) None None); try reflexivity; [|apply sum_opp].
    destruct p2 as [[? ?]|], s as [[? ?]|]; cbn in *; try tauto. destruct H as [A B]. rewrite A, B. split; reflexivity.
  - destruct p1 as [[? ?]|]; reflexivity.
  - rewrite (line_opp _ _ _ _ H). destruct p2 as [[? ?]|]; reflexivity.
  - rewrite L. destruct (sum_rel R F b _ _ _ _ _ _ _ O1 O2 SL X3 Y3) as (A & B & C).
    rewrite (lval_rel R px py m x1 y1 x2 y2 A).
    symmetry. cbn [opposite]. apply line_slope; auto; [exact (on_t R b _ _ Os)|].
    (* slope from the relation *)
    destruct C as [C1 C2]. destruct (f_eq_dec R F x2 x3) as [E|N].
    + right. split; [exact E|]. assert (Y : y2 =! -! y3) by (rewrite C1, E; ring). split; [exact Y|].
      assert (T : m *! (y2 +! y2) =! (c1 +! c1 +! c1) *! (x2 *! x2)).
      { transitivity (m *! (y2 +! -! y3)); [rewrite Y; ring|]. rewrite C2, <- E. ring. }
      split; [|exact T]. intros Z.
      assert (D : y2 +! y2 =! c0) by (rewrite Y at 1; rewrite Z; ring).
      refine (y0_contra R F three b nonsing x2 y2 O2 _ _); [rewrite <- T, D; ring|].
      destruct (f_dec R F y2) as [H0|H0]; [exact H0|]. exfalso. exact (nz_two R F two y2 H0 D).
    + left. split; [exact N|]. rewrite C1. ring.
Qed.
Lemma lval_nz_m px px' py py' m x y : px =! px' -> py =! py' -> lval R px py m x y =! lval R px' py' m x y.
Proof. unfold lval. intros -> ->. reflexivity. Qed.
Lemma line_at px px' py py' p1 p2 : px =! px' -> py =! py' -> line px py p1 p2 =! line px' py' p1 p2.
Proof.
  intros A B. destruct p1 as [[x1 y1]|], p2 as [[x2 y2]|]; cbn [line]; try reflexivity.
  destruct (_ && _); [reflexivity|now apply lval_nz_m].
Qed.

(** ** Conjugation and the final exponentiation. *)
Variable sg : R -> R.
Hypothesis sg_m : Proper (@ceq R ==> @ceq R) sg.
Hypothesis sg_add : forall x y, sg (x +! y) =! sg x +! sg y.
Hypothesis sg_mul : forall x y, sg (x *! y) =! sg x *! sg y.
Hypothesis sg_opp : forall x, sg (-! x) =! -! sg x.
Hypothesis sg_sg : forall x, sg (sg x) =! x.
Hypothesis sg_1 : sg c1 =! c1.
Variable E : R -> R.
Hypothesis E_m : Proper (@ceq R ==> @ceq R) E.
Hypothesis E_mul : forall x y, E (x *! y) =! E x *! E y.
Hypothesis E_fix : forall x, sg x =! x -> ~ x =! c0 -> E x =! c1.
#[local] Existing Instance sg_m.
#[local] Existing Instance E_m.

Lemma sg_sub x y : sg (x -! y) =! sg x -! sg y.
Proof. rewrite (Rsub_def (c_ring R)), sg_add, sg_opp. ring. Qed.
Lemma sg_0 : sg c0 =! c0.
Proof. transitivity (sg (c1 -! c1)); [apply sg_m; ring|]. rewrite sg_sub. ring. Qed.
Lemma sg_nz x : sg x =! c0 -> x =! c0.
Proof. intros H. rewrite <- (sg_sg x), H. apply sg_0. Qed.
Lemma E_norm x : ~ x =! c0 -> E (x *! sg x) =! c1.
Proof.
  intros N. apply E_fix.
  - rewrite sg_mul, sg_sg. ring.
  - apply nz_mul; auto. intros H. apply N. now apply sg_nz.
Qed.
Lemma E_1 : E c1 =! c1.
Proof. apply E_fix; [exact sg_1|exact (proj1 F)]. Qed.
Lemma one_nz : ~ -! c1 =[R]= c0.
Proof. intros H. apply (proj1 F). transitivity (-! -! c1 : R); [ring|]. rewrite H. ring. Qed.
Lemma E_opp x : E (-! x) =! E x.
Proof.
  assert (H : -! x =! (-! c1) *! x) by ring. rewrite H, E_mul, E_fix; [ring| |exact one_nz]. rewrite sg_opp, sg_1. reflexivity.
Qed.

(** Points of the two groups. *)
Definition fixed (px py : R) : Prop := on_curve b (Some (px, py)) /\ sg px =! px /\ sg py =! py /\ ~ py =! c0.
Definition anti (p : apoint R) : Prop :=
  on_curve b p /\ match p with None => True | Some (x, y) => sg x =! x /\ sg y =! -! y /\ ~ y =! c0 end.
Lemma anti_eq p p' : apoint_eq p p' -> anti p -> anti p'.
Proof.
  intros H [A B]. split; [exact (on_eq R b _ _ H A)|]. destruct p as [[x y]|], p' as [[x' y']|]; cbn in H; try tauto.
  destruct H as [X Y]. now rewrite <- X, <- Y.
Qed.
(** The slope of a line through two anti points. *)
Lemma sg_slope m x1 y1 x2 y2 : anti (Some (x1, y1)) -> anti (Some (x2, y2)) -> slope m x1 y1 x2 y2 -> sg m =! -! m.
Proof.
  intros (O1 & X1 & Y1 & N1) (O2 & X2 & Y2 & N2) SL.
  assert (H : slope (-! sg m) x1 y1 x2 y2).
  { destruct SL as [[N L]|(A & B & N & L)]; [left|right].
    - split; [exact N|]. transitivity (-! sg (m *! (x2 -! x1))); [rewrite sg_mul, sg_sub, X1, X2; ring|].
      rewrite L, sg_sub, Y1, Y2. ring.
    - split; [exact A|]. split; [exact B|]. split; [exact N|].
      transitivity (sg (m *! (y1 +! y1))); [rewrite sg_mul, sg_add, Y1; ring|]. rewrite L, !sg_mul, !sg_add, X1, sg_1. reflexivity. }
  assert (E0 := slope_unique R F _ _ _ _ _ _ H SL). rewrite <- E0 at 2. ring.
Qed.
(** The slope of a line through two fixed points. *)
Lemma sg_slope1 m x1 y1 x2 y2 : fixed x1 y1 -> fixed x2 y2 -> slope m x1 y1 x2 y2 -> sg m =! m.
Proof.
  intros (O1 & X1 & Y1 & N1) (O2 & X2 & Y2 & N2) SL.
  assert (H : slope (sg m) x1 y1 x2 y2).
  { destruct SL as [[N L]|(A & B & N & L)]; [left|right].
    - split; [exact N|]. transitivity (sg (m *! (x2 -! x1))); [rewrite sg_mul, sg_sub, X1, X2; ring|].
      rewrite L, sg_sub, Y1, Y2. reflexivity.
    - split; [exact A|]. split; [exact B|]. split; [exact N|].
      transitivity (sg (m *! (y1 +! y1))); [rewrite sg_mul, sg_add, Y1; reflexivity|]. rewrite L, !sg_mul, !sg_add, X1, sg_1. reflexivity. }
  exact (slope_unique R F _ _ _ _ _ _ H SL).
Qed.

(** ** The cocycle. *)
Variable pt : Z -> apoint R.
Hypothesis pt_anti : forall i, anti (pt i).
Hypothesis pt_sum : forall i j, ct_sum (pt i) (pt j) (pt (i + j)).
Hypothesis pt_0 : pt 0 = None.
Lemma pt_on i : on_curve b (pt i). Proof. exact (proj1 (pt_anti i)). Qed.
Lemma pt_opp i : apoint_eq (pt (- i)) (opposite (pt i)).
Proof. apply opp_unique. rewrite <- pt_0. replace 0%Z with (i + - i)%Z by lia. apply pt_sum. Qed.

Section Fixed.
Variables px py : R.
Hypothesis Hp : fixed px py.
Definition lc (i j : Z) : R := E (line px py (pt i) (pt j)).
#[local] Notation c := lc.

Lemma lc_ext i j i' j' : apoint_eq (pt i) (pt i') -> apoint_eq (pt j) (pt j') -> c i j =! c i' j'.
Proof. intros A B. unfold lc. apply E_m. apply line_m; auto using pt_on. Qed.
Lemma c_sym i j : c i j =! c j i.
Proof. unfold lc. apply E_m. apply line_sym; auto using pt_on. Qed.
Lemma c_trivial i j : pt i = None \/ pt j = None \/ pt (i + j) = None -> c i j =! c1.
Proof.
  intros H. unfold lc. transitivity (E c1); [|exact E_1]. apply E_m.
  destruct H as [H|[H|H]].
  - now rewrite H.
  - rewrite H. destruct (pt i) as [[? ?]|]; reflexivity.
  - apply line_opp. rewrite <- H. apply pt_sum.
Qed.
Lemma c_0_r i : c i 0 =! c1. Proof. apply c_trivial. rewrite pt_0. tauto. Qed.
Lemma c_0_l i : c 0 i =! c1. Proof. apply c_trivial. rewrite pt_0. tauto. Qed.
Lemma c_third i j : c i j =! c j (- (i + j)).
Proof.
  unfold lc. apply E_m. rewrite (line_third px py (pt i) (pt j) (pt (i + j)) (pt_on _) (pt_on _) (pt_sum _ _)).
  apply line_m; [apply pt_on|apply opp_on, pt_on|reflexivity|symmetry; apply pt_opp].
Qed.
(** The line at p, conjugated, is the line through the opposite points. *)
Lemma lval_nz m x1 y1 x2 y2 : anti (Some (x1, y1)) -> anti (Some (x2, y2)) -> slope m x1 y1 x2 y2 ->
  ~ lval R px py m x1 y1 =! c0 /\ sg (lval R px py m x1 y1) =! lval R px py (-! m) x1 (-! y1).
Proof.
  intros A1 A2 SL. assert (M := sg_slope m x1 y1 x2 y2 A1 A2 SL). destruct A1 as (_ & X1 & Y1 & _), Hp as (_ & PX & PY & PN).
  assert (S1 : sg (lval R px py m x1 y1) =! lval R px py (-! m) x1 (-! y1)).
  { unfold lval. rewrite !sg_sub, sg_mul, sg_sub, PX, PY, X1, Y1, M. reflexivity. }
  split; [|exact S1]. intros Z. assert (Z' := Z). apply sg_m in Z'. rewrite sg_0, S1 in Z'. apply (nz_two R F two py PN).
  transitivity (lval R px py m x1 y1 +! lval R px py (-! m) x1 (-! y1)); [unfold lval; ring|]. rewrite Z, Z'. ring.
Qed.
Lemma slope_opp m x1 y1 x2 y2 : slope (R := R) m x1 y1 x2 y2 -> slope (-! m) x1 (-! y1) x2 (-! y2).
Proof.
  intros [[N L]|(A & B & N & L)]; [left|right].
  - split; [exact N|]. transitivity (-! (m *! (x2 -! x1))); [ring|]. rewrite L. ring.
  - split; [exact A|]. split; [now rewrite B|]. split; [|rewrite <- L; ring].
    intros Z. apply N. transitivity (-! -! y1); [ring|]. rewrite Z. ring.
Qed.
Lemma c_neg i j : c i j *! c (- i) (- j) =! c1.
Proof.
  destruct (line_cases (pt i) (pt j) (pt (i + j)) (pt_on _) (pt_on _) (pt_sum _ _)) as [T|(m & x1 & y1 & x2 & y2 & x3 & y3 & E1 & E2 & E3 & SL & X3 & Y3 & L)].
  - rewrite (c_trivial i j T), c_trivial; [ring|].
    assert (N : forall k, pt k = None -> pt (- k) = None).
    { intros k H. assert (O := pt_opp k). rewrite H in O. destruct (pt (- k)) as [[? ?]|]; [destruct O|reflexivity]. }
    replace (- i + - j)%Z with (- (i + j))%Z by lia. destruct T as [T|[T|T]]; apply N in T; tauto.
  - assert (A1 := pt_anti i). assert (A2 := pt_anti j). rewrite E1 in A1. rewrite E2 in A2.
    destruct (lval_nz m x1 y1 x2 y2 A1 A2 SL) as [N S1].
    unfold lc. rewrite L, <- E_mul. rewrite <- (E_norm (lval R px py m x1 y1) N). apply E_m. apply cmul_morph; [reflexivity|].
    rewrite S1. rewrite (line_m px py _ _ _ _ (pt_on _) (pt_on _) (pt_opp i) (pt_opp j)). rewrite E1, E2. cbn [opposite].
    apply line_slope; [exact (on_t R b _ _ (proj1 A1))|exact (on_t R b _ _ (proj1 A2))|now apply slope_opp].
Qed.
Lemma c_nz i j : ~ c i j =! c0.
Proof. intros H. apply (proj1 F). rewrite <- (c_neg i j), H. ring. Qed.
Lemma vertical_fixed x y : anti (Some (x, y)) -> E (px -! x) =! c1.
Proof.
  intros (O & X & Y & N). destruct Hp as (Op & PX & PY & PN). apply E_fix; [rewrite sg_sub, PX, X; reflexivity|].
  intros Z. apply f_sub in Z. destruct (same_x R F b px py y Op (on_x R b px x y Z O)) as [H|H].
  - apply (nz_two R F two py PN). transitivity (py +! sg py); [rewrite PY; reflexivity|]. rewrite H, Y. ring.
  - apply (nz_two R F two py PN). transitivity (py +! sg py); [rewrite PY; reflexivity|]. rewrite H, sg_opp, Y. ring.
Qed.
Lemma pt_none_l i j : pt i = None -> apoint_eq (pt (i + j)) (pt j).
Proof. intros H. assert (S := pt_sum i j). rewrite H in S. exact S. Qed.
Lemma pt_none_r i j : pt j = None -> apoint_eq (pt (i + j)) (pt i).
Proof. intros H. replace (i + j)%Z with (j + i)%Z by lia. now apply pt_none_l. Qed.
Lemma none_opp k : pt k = None -> pt (- k) = None.
Proof. intros H. assert (O := pt_opp k). rewrite H in O. destruct (pt (- k)) as [[? ?]|]; [destruct O|reflexivity]. Qed.
Lemma pt_inj_r i j k : apoint_eq (pt i) (pt j) -> apoint_eq (pt (i + k)) (pt (j + k)).
Proof.
  intros H. apply (sum_unique R F (pt j) (pt k)); [|apply pt_sum].
  apply (sum_m R (pt i) (pt j) (pt k) (pt k) (pt (i + k)) (pt (i + k))); try reflexivity; auto.
Qed.
Lemma pt_none_eq i j : pt (i + j) = None -> apoint_eq (pt i) (pt (- j)).
Proof.
  intros H. assert (A := pt_inj_r (i + j) 0 (- j)). rewrite H, pt_0 in A. specialize (A I).
  now replace (i + j + - j)%Z with i in A by lia.
Qed.
Lemma c_cocycle i j k : c i j *! c (i + j) k =! c j k *! c i (j + k).
Proof.
  destruct (pt i) as [[x1 y1]|] eqn:Ei.
  2:{ rewrite (c_trivial i j), (c_trivial i (j + k)) by tauto. rewrite (lc_ext (i + j) k j k); [ring|now apply pt_none_l|reflexivity]. }
  destruct (pt j) as [[x2 y2]|] eqn:Ej.
  2:{ rewrite (c_trivial i j), (c_trivial j k) by tauto. rewrite (lc_ext (i + j) k i k), (lc_ext i (j + k) i k); try reflexivity; [now apply pt_none_l|now apply pt_none_r]. }
  destruct (pt k) as [[x3 y3]|] eqn:Ek.
  2:{ rewrite (c_trivial (i + j) k), (c_trivial j k) by tauto. rewrite (lc_ext i (j + k) i j); [ring|reflexivity|now apply pt_none_r]. }
  destruct (pt (i + j)) as [[s1 s2]|] eqn:Es.
  2:{ rewrite (c_trivial i j), (c_trivial (i + j) k) by tauto.
      rewrite (c_third i (j + k)), (c_third (j + k)), <- (c_neg j k).
      transitivity (c j k *! c (- k) (- j)); [rewrite (c_sym (- k)), c_neg; ring|]. apply cmul_morph; [reflexivity|].
      apply lc_ext.
      - transitivity (pt (- (i + j) + - k)); [symmetry; apply pt_none_l; now apply none_opp|]. 
        replace (- (i + j) + - k)%Z with (- (i + (j + k)))%Z by lia. reflexivity.
      - replace (- (j + k + - (i + (j + k))))%Z with i by lia. symmetry. now apply pt_none_eq. }
  destruct (pt (j + k)) as [[r1 r2]|] eqn:Er.
  2:{ rewrite (c_trivial j k), (c_trivial i (j + k)) by tauto.
      rewrite (c_third (i + j) k), <- (c_neg i j). transitivity (c i j *! c (- j) (- i)); [|rewrite (c_sym (- j)), c_neg; ring].
      apply cmul_morph; [reflexivity|]. apply lc_ext.
      - apply pt_none_eq. now replace (k + j)%Z with (j + k)%Z by lia.
      - transitivity (pt (- i + - (j + k))); [replace (- i + - (j + k))%Z with (- (i + j + k))%Z by lia; reflexivity|].
        apply pt_none_r. now apply none_opp. }
  destruct (pt (i + j + k)) as [[w1 w2]|] eqn:Ew.
  2:{ rewrite (c_trivial (i + j) k) by tauto. rewrite (c_trivial i (j + k)) by (rewrite Z.add_assoc; tauto).
      rewrite (c_third i j). rewrite (lc_ext j (- (i + j)) j k); [ring|reflexivity|].
      symmetry. apply pt_none_eq. now replace (k + (i + j))%Z with (i + j + k)%Z by lia. }
  destruct (apoint_eq_dec R F (pt i) (pt k)) as [Eik|Nik].
  { rewrite (lc_ext (i + j) k (k + j) i).
    - rewrite (lc_ext i j k j); [|exact Eik|reflexivity]. rewrite (c_sym k j), (c_sym (k + j) i). replace (k + j)%Z with (j + k)%Z by lia. reflexivity.
    - now apply pt_inj_r.
    - now symmetry. }
  destruct (apoint_eq_dec R F (pt j) (pt (- (i + j + k)))) as [Ejw|Njw].
  { rewrite (c_third (i + j) k). rewrite (lc_ext k (- (i + j + k)) k j); [|reflexivity|now symmetry].
    rewrite (c_sym i (j + k)), (c_third (j + k) i). rewrite (lc_ext i (- (j + k + i)) i j); [rewrite (c_sym k j); ring|reflexivity|].
    symmetry. now replace (j + k + i)%Z with (i + j + k)%Z by lia. }
  assert (A1 := pt_anti i). assert (A2 := pt_anti j). assert (A3 := pt_anti k). assert (As := pt_anti (i + j)). assert (Ar := pt_anti (j + k)).
  assert (S1 := pt_sum i j). assert (S2 := pt_sum j k). assert (S3 := pt_sum (i + j) k). assert (S4 := pt_sum i (j + k)). rewrite Z.add_assoc in S4.
  assert (Ow := pt_opp (i + j + k)). unfold lc. rewrite Ei, Ej, Ek, Es, Er, Ew in *.
  destruct (line_cases _ _ _ (proj1 A1) (proj1 A2) S1) as [[?|[?|?]]|(la & ? & ? & ? & ? & ? & ? & [= <- <-] & [= <- <-] & [= <- <-] & SL1 & X1 & Y1 & L1)]; try discriminate.
  destruct (line_cases _ _ _ (proj1 A2) (proj1 A3) S2) as [[?|[?|?]]|(la' & ? & ? & ? & ? & ? & ? & [= <- <-] & [= <- <-] & [= <- <-] & SL2 & X2 & Y2 & L2)]; try discriminate.
  destruct (line_cases _ _ _ (proj1 As) (proj1 A3) S3) as [[?|[?|?]]|(mu & ? & ? & ? & ? & ? & ? & [= <- <-] & [= <- <-] & [= <- <-] & SL3 & X3 & Y3 & L3)]; try discriminate.
  destruct (line_cases _ _ _ (proj1 A1) (proj1 Ar) S4) as [[?|[?|?]]|(mu' & ? & ? & ? & ? & ? & ? & [= <- <-] & [= <- <-] & [= <- <-] & SL4 & X4 & Y4 & L4)]; try discriminate.
  destruct (cocycle_general R F two three b nonsing px py (proj1 Hp) x1 y1 x2 y2 x3 y3 s1 s2 r1 r2 w1 w2 la mu la' mu') as (f & H1 & H2);
    try assumption; [exact (proj1 A1)|exact (proj1 A2)|exact (proj1 A3)|exact (proj2 (proj2 (proj2 As)))|exact (proj2 (proj2 (proj2 Ar)))| |].
  { intros H. apply Njw. rewrite H. now symmetry. }
  rewrite L1, L2, L3, L4, <- !E_mul, H1, H2, !E_mul, (vertical_fixed s1 s2 As), (vertical_fixed r1 r2 Ar). reflexivity.
Qed.
End Fixed.
(** The opposite of p. *)
Lemma fixed_opp px py : fixed px py -> fixed px (-! py).
Proof.
  intros (O & X & Y & N). split; [exact (on_t R b _ _ O)|]. split; [exact X|]. split; [now rewrite sg_opp, Y|].
  intros Z. apply N. transitivity (-! -! py); [ring|]. rewrite Z. ring.
Qed.
Lemma c_opp_p px py i j : fixed px py -> lc px py i j *! lc px (-! py) i j =! c1.
Proof.
  intros Hp.
  destruct (line_cases (pt i) (pt j) (pt (i + j)) (pt_on _) (pt_on _) (pt_sum _ _)) as [T|(m & x1 & y1 & x2 & y2 & x3 & y3 & E1 & E2 & E3 & SL & X3 & Y3 & L)].
  - rewrite !(c_trivial _ _ i j T). ring.
  - assert (A1 := pt_anti i). assert (A2 := pt_anti j). rewrite E1 in A1. rewrite E2 in A2.
    destruct (lval_nz px py Hp m x1 y1 x2 y2 A1 A2 SL) as [N S1].
    unfold lc. rewrite !L. rewrite <- (E_opp (lval R px (-! py) m x1 y1)), <- E_mul, <- (E_norm _ N). apply E_m. apply cmul_morph; [reflexivity|].
    rewrite S1. unfold lval. ring.
Qed.

(** ** The Miller function: w n j is the product of the lines met when n * pt j is computed. *)
Section Miller.
Variables px py : R.
Hypothesis Hp : fixed px py.
#[local] Notation c := (lc px py).
Definition lw (n : N) (j : Z) : R := N.peano_rect (fun _ => car R) c1 (fun n acc => acc *! c (Z.of_N n * j) j) n.
#[local] Notation w := lw.
Lemma w_0 j : w 0 j = c1. Proof. reflexivity. Qed.
Lemma w_succ n j : w (N.succ n) j = w n j *! c (Z.of_N n * j) j.
Proof. unfold lw. now rewrite N.peano_rect_succ. Qed.
Lemma w_1 j : w 1 j =! c1.
Proof. change 1%N with (N.succ 0). rewrite w_succ, w_0. cbn [Z.of_N]. rewrite Z.mul_0_l, c_0_l. ring. Qed.
Lemma w_add n m j : w (n + m) j =! w n j *! w m j *! c (Z.of_N n * j) (Z.of_N m * j).
Proof.
  induction m as [|m IH] using N.peano_ind.
  - rewrite N.add_0_r, w_0. cbn [Z.of_N]. rewrite Z.mul_0_l, c_0_r. ring.
  - rewrite N.add_succ_r, !w_succ, IH.
    assert (H := c_cocycle px py Hp (Z.of_N n * j) (Z.of_N m * j) j).
    replace (Z.of_N (n + m) * j)%Z with (Z.of_N n * j + Z.of_N m * j)%Z by lia.
    replace (Z.of_N (N.succ m) * j)%Z with (Z.of_N m * j + j)%Z by lia.
    transitivity (w n j *! w m j *! (c (Z.of_N n * j) (Z.of_N m * j) *! c (Z.of_N n * j + Z.of_N m * j) j)); [ring|].
    rewrite H. ring.
Qed.
Lemma w_pred n j : w (N.succ n) j *! c (Z.of_N (N.succ n) * j) (- j) =! w n j.
Proof.
  rewrite w_succ. replace (Z.of_N (N.succ n) * j)%Z with (Z.of_N n * j + j)%Z by lia.
  assert (H := c_cocycle px py Hp (Z.of_N n * j) j (- j)). rewrite <- (Rmul_assoc (c_ring R)), H.
  replace (j + - j)%Z with 0%Z by lia. rewrite c_0_r.
  rewrite (c_trivial px py j (- j)); [ring|]. right. right. replace (j + - j)%Z with 0%Z by lia. exact pt_0.
Qed.
Lemma interchange a i b' j : c a i *! c b' j *! c (a + i) (b' + j) =! c a b' *! c i j *! c (a + b') (i + j).
Proof.
  (* both sides are what one gets by adding a, i, b' and j in the two orders *)
  assert (H1 := c_cocycle px py Hp (a + i) b' j). assert (H2 := c_cocycle px py Hp (a + b') i j).
  assert (H3 := c_cocycle px py Hp a i b'). assert (H4 := c_cocycle px py Hp a b' i).
  replace (b' + i)%Z with (i + b')%Z in H4 by lia. rewrite (c_sym px py b' i) in H4.
  replace (a + b' + i)%Z with (a + i + b')%Z in H2 by lia.
  assert (N := c_nz px py Hp (a + i + b') j). apply (canc _ _ _ N).
  transitivity (c a i *! (c b' j *! c (a + i) (b' + j)) *! c (a + i + b') j); [ring|]. rewrite <- H1.
  transitivity (c a b' *! (c i j *! c (a + b') (i + j)) *! c (a + i + b') j); [|ring]. rewrite <- H2.
  transitivity ((c a i *! c (a + i) b') *! c (a + i + b') j *! c (a + i + b') j); [ring|].
  transitivity ((c a b' *! c (a + b') i) *! c (a + i + b') j *! c (a + i + b') j); [|ring]. rewrite H3, H4. reflexivity.
Qed.
Lemma w_sum n i j : w n i *! w n j *! c (Z.of_N n * i) (Z.of_N n * j) =! w n (i + j) *! cpow (c i j) n.
Proof.
  induction n as [|n IH] using N.peano_ind.
  - rewrite !w_0, cpow_0. cbn [Z.of_N]. rewrite !Z.mul_0_l, c_0_l. ring.
  - rewrite !w_succ, cpow_succ. assert (H := interchange (Z.of_N n * i) i (Z.of_N n * j) j).
    replace (Z.of_N (N.succ n) * i)%Z with (Z.of_N n * i + i)%Z by lia.
    replace (Z.of_N (N.succ n) * j)%Z with (Z.of_N n * j + j)%Z by lia.
    transitivity (w n i *! w n j *! (c (Z.of_N n * i) i *! c (Z.of_N n * j) j *! c (Z.of_N n * i + i) (Z.of_N n * j + j))); [ring|].
    rewrite H. transitivity ((w n i *! w n j *! c (Z.of_N n * i) (Z.of_N n * j)) *! c i j *! c (Z.of_N n * i + Z.of_N n * j) (i + j)); [ring|].
    rewrite IH. replace (Z.of_N n * i + Z.of_N n * j)%Z with (Z.of_N n * (i + j))%Z by lia. ring.
Qed.
End Miller.

(** ** Frobenius. *)
Variables q p n0 : N.
Hypothesis n0_exp : exists k, (n0 + p + p * p * p = p * p + q * k)%N.
Hypothesis E_q : forall x, ~ x =! c0 -> cpow (E x) q =! c1.
Hypothesis pt_q : forall i j, (exists k, i - j = k * Z.of_N q)%Z -> apoint_eq (pt i) (pt j).
Variable fr : R -> R.
Hypothesis fr_m : Proper (@ceq R ==> @ceq R) fr.
Hypothesis fr_add : forall x y, fr (x +! y) =! fr x +! fr y.
Hypothesis fr_mul : forall x y, fr (x *! y) =! fr x *! fr y.
Hypothesis fr_opp : forall x, fr (-! x) =! -! fr x.
Hypothesis fr_1 : fr c1 =! c1.
Hypothesis fr_E : forall x, E (fr x) =! cpow (E x) p.
#[local] Existing Instance fr_m.
Definition frp (a : apoint R) : apoint R := match a with None => None | Some (x, y) => Some (fr x, fr y) end.
Hypothesis pt_fr : forall i, apoint_eq (pt (Z.of_N p * i)) (frp (pt i)).

Lemma fr_sub x y : fr (x -! y) =! fr x -! fr y.
Proof. rewrite (Rsub_def (c_ring R)), fr_add, fr_opp. ring. Qed.
Lemma fr_0 : fr c0 =! c0.
Proof. transitivity (fr (c1 -! c1)); [apply fr_m; ring|]. rewrite fr_sub. ring. Qed.
Lemma fr_inj x y : fr x =! fr y -> x =! y.
Proof.
  intros H. apply f_sub. destruct (f_dec R F (x -! y)) as [Z|N]; [exact Z|]. exfalso. apply (proj1 F). 
  rewrite <- fr_1, <- (inv_ok _ N), fr_mul, fr_sub, H. ring.
Qed.
Lemma fr_slope m x1 y1 x2 y2 : slope m x1 y1 x2 y2 -> slope (fr m) (fr x1) (fr y1) (fr x2) (fr y2).
Proof.
  intros [[N L]|(A & B & N & L)]; [left|right].
  - split; [intros H; apply N; now apply fr_inj|]. rewrite <- !fr_sub, <- fr_mul, L. reflexivity.
  - split; [now rewrite A|]. split; [now rewrite B|]. split; [intros H; apply N; rewrite <- fr_opp in H; now apply fr_inj|].
    rewrite <- fr_add, <- fr_mul, L, !fr_mul, !fr_add, fr_1. reflexivity.
Qed.
Lemma fr_lval x y m a b' : fr (lval R x y m a b') =! lval R (fr x) (fr y) (fr m) (fr a) (fr b').
Proof. unfold lval. now rewrite !fr_sub, fr_mul, fr_sub. Qed.

(** Exponents. *)
Definition unit_q (g : R) : Prop := cpow g q =! c1.
Lemma exp_q g : unit_q g -> cpow g (n0 + p + p * p * p) =! cpow g (p * p).
Proof. unfold unit_q. intros U. destruct n0_exp as [k ->]. rewrite cpow_add, (cpow_mul R g q k), U, cpow_one. ring. Qed.
Lemma pow_nz g n : unit_q g -> q <> 0%N -> ~ cpow g n =! c0.
Proof.
  unfold unit_q. intros U Q. apply (f_pow_nz R F). intros Z. apply (proj1 F). rewrite <- U, Z. now apply cpow_zero.
Qed.
Hypothesis q_nz : q <> 0%N.

Section FrobP.
Variables px py : R.
Hypothesis Hp : fixed px py.
Hypothesis Hfx : fr px =! px.
Hypothesis Hfy : fr py =! py.
#[local] Notation c := (lc px py).
#[local] Notation w := (lw px py).
Lemma c_unit i j : unit_q (c i j).
Proof.
  unfold unit_q, lc.
  destruct (line_cases (pt i) (pt j) (pt (i + j)) (pt_on _) (pt_on _) (pt_sum _ _)) as [T|(m & x1 & y1 & x2 & y2 & x3 & y3 & E1 & E2 & E3 & SL & X3 & Y3 & L)].
  - assert (H := c_trivial px py i j T). unfold lc in H. now rewrite H, cpow_one.
  - assert (A1 := pt_anti i). assert (A2 := pt_anti j). rewrite E1 in A1. rewrite E2 in A2.
    rewrite L. apply E_q. exact (proj1 (lval_nz px py Hp m x1 y1 x2 y2 A1 A2 SL)).
Qed.
Lemma none_fr i : pt i = None -> pt (Z.of_N p * i) = None.
Proof. intros H. assert (A := pt_fr i). rewrite H in A. destruct (pt (Z.of_N p * i)) as [[? ?]|]; [destruct A|reflexivity]. Qed.
Lemma c_fr i j : c (Z.of_N p * i) (Z.of_N p * j) =! cpow (c i j) p.
Proof.
  destruct (line_cases (pt i) (pt j) (pt (i + j)) (pt_on _) (pt_on _) (pt_sum _ _)) as [T|(m & x1 & y1 & x2 & y2 & x3 & y3 & E1 & E2 & E3 & SL & X3 & Y3 & L)].
  - rewrite (c_trivial px py i j T), cpow_one. apply c_trivial. rewrite <- Z.mul_add_distr_l. destruct T as [T|[T|T]]; apply none_fr in T; tauto.
  - unfold lc. rewrite L, <- fr_E. apply E_m. rewrite fr_lval.
    rewrite (line_m px py _ _ _ _ (pt_on _) (pt_on _) (pt_fr i) (pt_fr j)), E1, E2. cbn [frp].
    rewrite (line_slope px py (fr m)); [unfold lval; now rewrite Hfx, Hfy| | |now apply fr_slope].
    + apply (on_eq R b (pt (Z.of_N p * i))); [|apply pt_on]. rewrite pt_fr, E1. reflexivity.
    + apply (on_eq R b (pt (Z.of_N p * j))); [|apply pt_on]. rewrite pt_fr, E2. reflexivity.
Qed.
(** The pairing of (px, py) and pt j. *)
Definition mil (j : Z) : R :=
  w n0 j *! c (Z.of_N n0 * j) (Z.of_N p * j) *! c (Z.of_N (n0 + p) * j) (- (Z.of_N (p * p) * j)).
Lemma e_cong j : apoint_eq (pt (Z.of_N (n0 + p) * j + - (Z.of_N (p * p) * j))) (pt (- (Z.of_N p * (Z.of_N p * (Z.of_N p * j))))).
Proof. apply pt_q. destruct n0_exp as [k H]. exists (Z.of_N k * j)%Z. assert (H' : (Z.of_N (n0 + p + p * p * p) = Z.of_N (p * p + q * k))%Z) by now rewrite H. nia. Qed.
Theorem mil_add i j : mil i *! mil j =! mil (i + j).
Proof.
  set (g := c i j). assert (U : unit_q g) by apply c_unit.
  set (P := Z.of_N p). set (T := Z.of_N n0).
  assert (F1 := w_sum px py Hp n0 i j). fold T g in F1.
  assert (F2 := interchange px py Hp (T * i) (P * i) (T * j) (P * j)).
  assert (F3 := interchange px py Hp (Z.of_N (n0 + p) * i) (- (Z.of_N (p * p) * i)) (Z.of_N (n0 + p) * j) (- (Z.of_N (p * p) * j))).
  rewrite (lc_ext px py _ _ _ _ (e_cong i) (e_cong j)) in F3. fold P in F3.
  replace (T * i + P * i)%Z with (Z.of_N (n0 + p) * i)%Z in F2 by (unfold T, P; lia).
  replace (T * j + P * j)%Z with (Z.of_N (n0 + p) * j)%Z in F2 by (unfold T, P; lia).
  replace (T * i + T * j)%Z with (T * (i + j))%Z in F2 by lia.
  replace (P * i + P * j)%Z with (P * (i + j))%Z in F2 by lia.
  replace (Z.of_N (n0 + p) * i + Z.of_N (n0 + p) * j)%Z with (Z.of_N (n0 + p) * (i + j))%Z in F3 by lia.
  replace (- (Z.of_N (p * p) * i) + - (Z.of_N (p * p) * j))%Z with (- (Z.of_N (p * p) * (i + j)))%Z in F3 by lia.
  assert (Gp : c (P * i) (P * j) =! cpow g p) by apply c_fr.
  assert (Gpp : c (P * (P * i)) (P * (P * j)) =! cpow g (p * p)).
  { unfold P at 1 3. rewrite c_fr. fold P. rewrite Gp. now rewrite cpow_mul. }
  assert (Gm : c (- (Z.of_N (p * p) * i)) (- (Z.of_N (p * p) * j)) *! cpow g (p * p) =! c1).
  { rewrite <- Gpp. replace (Z.of_N (p * p) * i)%Z with (P * (P * i))%Z by (unfold P; lia).
    replace (Z.of_N (p * p) * j)%Z with (P * (P * j))%Z by (unfold P; lia). rewrite cmulC. now apply c_neg. }
  assert (Gpq : c (- (P * (P * (P * i)))) (- (P * (P * (P * j)))) *! cpow g (p * p * p) =! c1).
  { rewrite cpow_mul, <- Gpp. unfold P at 1 4. rewrite <- c_fr. fold P. rewrite cmulC. now apply c_neg. }
  unfold mil. fold P T.
  set (A := c (T * i) (T * j)) in *. set (B := c (Z.of_N (n0 + p) * i) (Z.of_N (n0 + p) * j)) in *.
  set (X := c (- (P * (P * (P * i)))) (- (P * (P * (P * j))))) in *. set (Y := c (- (Z.of_N (p * p) * i)) (- (Z.of_N (p * p) * j))) in *.
  assert (NA : ~ A =! c0) by now apply c_nz. assert (NB : ~ B =! c0) by now apply c_nz. assert (NX : ~ X =! c0) by now apply c_nz.
  apply (canc _ _ (A *! B *! X)); [now repeat apply nz_mul|].
  transitivity ((w n0 i *! w n0 j *! A) *! (c (T * i) (P * i) *! c (T * j) (P * j) *! B) *!
    (c (Z.of_N (n0 + p) * i) (- (Z.of_N (p * p) * i)) *! c (Z.of_N (n0 + p) * j) (- (Z.of_N (p * p) * j)) *! X)); [ring|].
  rewrite F1, F2, F3, Gp.
  assert (K : cpow g n0 *! cpow g p *! Y =! X).
  { apply (canc _ _ (cpow g (p * p * p) *! cpow g (p * p))); [apply nz_mul; auto; now apply pow_nz|].
    transitivity (cpow g n0 *! cpow g p *! cpow g (p * p * p) *! (Y *! cpow g (p * p))); [ring|].
    transitivity (X *! cpow g (p * p * p) *! cpow g (p * p)); [|ring].
    rewrite Gm, Gpq, <- (exp_q g U), !cpow_add. ring. }
  rewrite <- K. ring.
Qed.
Lemma mil_0 : mil 0 =! c1.
Proof.
  unfold mil. rewrite !Z.mul_0_r. cbn [Z.opp]. rewrite !c_0_r. transitivity (w n0 0); [ring|].
  generalize n0. intros n'. induction n' as [|n IH] using N.peano_ind; [reflexivity|]. rewrite w_succ, IH, c_0_r. ring.
Qed.
Lemma mil_unit j : unit_q (mil j).
Proof.
  assert (U : forall i k, cpow (c i k) q =! c1) by exact c_unit.
  unfold unit_q, mil. rewrite !cpow_distr, !U.
  transitivity (cpow (w n0 j) q); [ring|].
  generalize n0. intros n'. induction n' as [|n IH] using N.peano_ind; [apply cpow_one|]. rewrite w_succ, cpow_distr, IH, U. ring.
Qed.
End FrobP.

(** ** Linearity in the other argument. *)
Lemma c_at px py px' py' i j : px =! px' -> py =! py' -> lc px py i j =! lc px' py' i j.
Proof. intros A B. unfold lc. apply E_m. now apply line_at. Qed.
Lemma w_at px py px' py' n j : px =! px' -> py =! py' -> lw px py n j =! lw px' py' n j.
Proof. intros A B. induction n as [|n IH] using N.peano_ind; [reflexivity|]. rewrite !w_succ, IH, (c_at px py px' py'); auto. reflexivity. Qed.
Lemma mil_at px py px' py' j : px =! px' -> py =! py' -> mil px py j =! mil px' py' j.
Proof. intros A B. unfold mil. now rewrite !(c_at px py px' py'), (w_at px py px' py') by assumption. Qed.
Section Other.
Variables x1 y1 x2 y2 x3 y3 m : R.
Hypothesis H1 : fixed x1 y1.
Hypothesis H2 : fixed x2 y2.
Hypothesis H3 : fixed x3 y3.
Hypothesis fx1 : fr x1 =! x1. Hypothesis fy1 : fr y1 =! y1.
Hypothesis fx2 : fr x2 =! x2. Hypothesis fy2 : fr y2 =! y2.
Hypothesis fm : fr m =! m.
Hypothesis SL : slope m x1 y1 x2 y2.
Hypothesis X3 : x3 =! m *! m -! x1 -! x2.
Hypothesis Y3 : y3 =! m *! (x1 -! x3) -! y1.
Definition h (i : Z) : R := match pt i with None => c1 | Some (x, y) => E (lval R x y m x1 y1) end.
Lemma h_nz_lval x y : anti (Some (x, y)) -> ~ lval R x y m x1 y1 =! c0 /\ sg (lval R x y m x1 y1) =! lval R x (-! y) m x1 y1.
Proof.
  intros (O & X & Y & N). assert (M := sg_slope1 m x1 y1 x2 y2 H1 H2 SL). destruct H1 as (_ & PX & PY & PN).
  assert (S1 : sg (lval R x y m x1 y1) =! lval R x (-! y) m x1 y1).
  { unfold lval. rewrite !sg_sub, sg_mul, sg_sub, PX, PY, X, Y, M. reflexivity. }
  split; [|exact S1]. intros Z. assert (Z' := Z). apply sg_m in Z'. rewrite sg_0, S1 in Z'. apply (nz_two R F two y N).
  transitivity (lval R x y m x1 y1 -! lval R x (-! y) m x1 y1); [unfold lval; ring|]. rewrite Z, Z'. ring.
Qed.
Lemma h_ext i j : apoint_eq (pt i) (pt j) -> h i =! h j.
Proof.
  unfold h. destruct (pt i) as [[x y]|], (pt j) as [[x' y']|]; cbn; try tauto; try reflexivity.
  intros [A B]. apply E_m. unfold lval. now rewrite A, B.
Qed.
Lemma h_neg i : h i *! h (- i) =! c1.
Proof.
  unfold h. assert (O := pt_opp i). assert (A := pt_anti i). destruct (pt i) as [[x y]|], (pt (- i)) as [[x' y']|]; cbn in O; try tauto; [|ring].
  destruct O as [X Y]. destruct (h_nz_lval x y A) as [N S1]. rewrite <- E_mul, <- (E_norm _ N). apply E_m. apply cmul_morph; [reflexivity|].
  rewrite S1. unfold lval. now rewrite X, Y.
Qed.
Lemma h_nz i : ~ h i =! c0.
Proof. intros H. apply (proj1 F). rewrite <- (h_neg i), H. ring. Qed.
Lemma h_unit i : unit_q (h i).
Proof.
  unfold unit_q, h. assert (A := pt_anti i). destruct (pt i) as [[x y]|]; [|apply cpow_one]. apply E_q. exact (proj1 (h_nz_lval x y A)).
Qed.
Lemma h_fr i : h (Z.of_N p * i) =! cpow (h i) p.
Proof.
  assert (A := pt_fr i). unfold h. destruct (pt i) as [[x y]|], (pt (Z.of_N p * i)) as [[x' y']|]; cbn in A; try tauto; [|symmetry; apply cpow_one].
  destruct A as [X Y]. rewrite <- fr_E. apply E_m. rewrite fr_lval. unfold lval. now rewrite fx1, fy1, fm, X, Y.
Qed.
Lemma c_h i j : lc x1 y1 i j *! lc x2 y2 i j *! h (i + j) =! lc x3 y3 i j *! (h i *! h j).
Proof.
  assert (G : lc x1 y1 i j *! lc x2 y2 i j *! lc x3 (-! y3) i j =! h i *! h j *! h (- (i + j))).
  { destruct (line_cases (pt i) (pt j) (pt (i + j)) (pt_on _) (pt_on _) (pt_sum _ _)) as [T|(k & a1 & b1 & a2 & b2 & a3 & b3 & E1 & E2 & E3 & SK & A3 & B3 & L)].
    - rewrite !(c_trivial _ _ i j T). transitivity (c1 : R); [ring|]. symmetry. destruct T as [T|[T|T]].
      + rewrite (h_ext (- (i + j)) (- j)); [|replace (- (i + j))%Z with (- i + - j)%Z by lia; apply pt_none_l; now apply none_opp].
        transitivity (h i *! (h j *! h (- j))); [ring|]. rewrite h_neg. unfold h. rewrite T. ring.
      + rewrite (h_ext (- (i + j)) (- i)); [|replace (- (i + j))%Z with (- i + - j)%Z by lia; apply pt_none_r; now apply none_opp].
        transitivity (h j *! (h i *! h (- i))); [ring|]. rewrite h_neg. unfold h. rewrite T. ring.
      + rewrite (h_ext i (- j) (pt_none_eq i j T)). transitivity (h j *! h (- j) *! h (- (i + j))); [ring|].
        rewrite h_neg. unfold h. rewrite (none_opp _ T). ring.
    - unfold lc. rewrite !L, <- !E_mul. assert (O := pt_opp (i + j)). unfold h. rewrite E1, E2. rewrite E3 in O.
      destruct (pt (- (i + j))) as [[a3' b3']|]; [|destruct O]. destruct O as [OX OY]. rewrite <- !E_mul.
      assert (Oa := pt_on i). assert (Ob := pt_on j). rewrite E1 in Oa. rewrite E2 in Ob.
      rewrite (reciprocity R F b x1 y1 x2 y2 x3 y3 m a1 b1 a2 b2 a3 b3 k (proj1 H1) (proj1 H2) SL X3 Y3 Oa Ob SK A3 B3).
      rewrite E_opp. apply E_m. apply cmul_morph; [reflexivity|]. unfold lval. now rewrite OX, OY. }
  assert (N3 := c_nz x3 (-! y3) (fixed_opp _ _ H3) i j). apply (canc _ _ _ N3).
  transitivity ((lc x1 y1 i j *! lc x2 y2 i j *! lc x3 (-! y3) i j) *! h (i + j)); [ring|]. rewrite G.
  transitivity (h i *! h j *! (h (i + j) *! h (- (i + j)))); [ring|]. rewrite h_neg.
  transitivity ((lc x3 y3 i j *! lc x3 (-! y3) i j) *! (h i *! h j)); [|ring]. rewrite c_opp_p by exact H3. ring.
Qed.
Lemma w_h n j : lw x1 y1 n j *! lw x2 y2 n j *! h (Z.of_N n * j) =! lw x3 y3 n j *! cpow (h j) n.
Proof.
  induction n as [|n IH] using N.peano_ind.
  - rewrite !w_0, cpow_0. cbn [Z.of_N]. rewrite Z.mul_0_l. unfold h. rewrite pt_0. ring.
  - rewrite !w_succ, cpow_succ. replace (Z.of_N (N.succ n) * j)%Z with (Z.of_N n * j + j)%Z by lia.
    assert (H := c_h (Z.of_N n * j) j).
    transitivity (lw x1 y1 n j *! lw x2 y2 n j *! (lc x1 y1 (Z.of_N n * j) j *! lc x2 y2 (Z.of_N n * j) j *! h (Z.of_N n * j + j))); [ring|].
    rewrite H. transitivity ((lw x1 y1 n j *! lw x2 y2 n j *! h (Z.of_N n * j)) *! lc x3 y3 (Z.of_N n * j) j *! h j); [ring|].
    rewrite IH. ring.
Qed.
Theorem mil_add_p j : mil x1 y1 j *! mil x2 y2 j =! mil x3 y3 j.
Proof.
  set (P := Z.of_N p). set (T := Z.of_N n0). set (g := h j). assert (U : unit_q g) by apply h_unit.
  assert (F1 := w_h n0 j). fold T g in F1.
  assert (F2 := c_h (T * j) (P * j)). replace (T * j + P * j)%Z with (Z.of_N (n0 + p) * j)%Z in F2 by (unfold T, P; lia).
  assert (F3 := c_h (Z.of_N (n0 + p) * j) (- (Z.of_N (p * p) * j))). rewrite (h_ext _ _ (e_cong j)) in F3. fold P in F3.
  assert (Gp : h (P * j) =! cpow g p) by apply h_fr.
  assert (Gpp : h (P * (P * j)) =! cpow g (p * p)).
  { unfold P at 1. rewrite h_fr. fold P. rewrite Gp. now rewrite cpow_mul. }
  assert (Gm : h (- (Z.of_N (p * p) * j)) *! cpow g (p * p) =! c1).
  { rewrite <- Gpp. replace (Z.of_N (p * p) * j)%Z with (P * (P * j))%Z by (unfold P; lia). rewrite cmulC. apply h_neg. }
  assert (Gpq : h (- (P * (P * (P * j)))) *! cpow g (p * p * p) =! c1).
  { rewrite cpow_mul, <- Gpp. unfold P at 1 4. rewrite <- h_fr. fold P. rewrite cmulC. apply h_neg. }
  unfold mil. fold P T.
  set (A := h (T * j)) in *. set (B := h (Z.of_N (n0 + p) * j)) in *.
  set (X := h (- (P * (P * (P * j))))) in *. set (Y := h (- (Z.of_N (p * p) * j))) in *.
  assert (NA : ~ A =! c0) by apply h_nz. assert (NB : ~ B =! c0) by apply h_nz. assert (NX : ~ X =! c0) by apply h_nz.
  apply (canc _ _ (A *! B *! X)); [now repeat apply nz_mul|].
  transitivity ((lw x1 y1 n0 j *! lw x2 y2 n0 j *! A) *! (lc x1 y1 (T * j) (P * j) *! lc x2 y2 (T * j) (P * j) *! B) *!
    (lc x1 y1 (Z.of_N (n0 + p) * j) (- (Z.of_N (p * p) * j)) *! lc x2 y2 (Z.of_N (n0 + p) * j) (- (Z.of_N (p * p) * j)) *! X)); [ring|].
  rewrite F1, F2, F3, Gp.
  assert (K : cpow g n0 *! cpow g p *! Y =! X).
  { apply (canc _ _ (cpow g (p * p * p) *! cpow g (p * p))); [apply nz_mul; auto; now apply pow_nz|].
    transitivity (cpow g n0 *! cpow g p *! cpow g (p * p * p) *! (Y *! cpow g (p * p))); [ring|].
    transitivity (X *! cpow g (p * p * p) *! cpow g (p * p)); [|ring].
    rewrite Gm, Gpq, <- (exp_q g U), !cpow_add. ring. }
  rewrite <- K. ring.
Qed.
End Other.
Lemma w_opp_p px py n j : fixed px py -> lw px py n j *! lw px (-! py) n j =! c1.
Proof.
  intros Hp. induction n as [|n IH] using N.peano_ind; [rewrite !w_0; ring|]. rewrite !w_succ.
  transitivity ((lw px py n j *! lw px (-! py) n j) *! (lc px py (Z.of_N n * j) j *! lc px (-! py) (Z.of_N n * j) j)); [ring|].
  rewrite IH, c_opp_p by exact Hp. ring.
Qed.
Lemma mil_opp_p px py j : fixed px py -> mil px py j *! mil px (-! py) j =! c1.
Proof.
  intros Hp. unfold mil. set (i1 := (Z.of_N n0 * j)%Z). set (i2 := (Z.of_N p * j)%Z). set (i3 := (Z.of_N (n0 + p) * j)%Z). set (i4 := (- (Z.of_N (p * p) * j))%Z).
  transitivity ((lw px py n0 j *! lw px (-! py) n0 j) *! (lc px py i1 i2 *! lc px (-! py) i1 i2) *! (lc px py i3 i4 *! lc px (-! py) i3 i4)); [ring|].
  rewrite w_opp_p, !c_opp_p by exact Hp. ring.
Qed.
(** The pairing as a function of two points. *)
Definition milp (a : apoint R) (j : Z) : R := match a with None => c1 | Some (x, y) => mil x y j end.
Definition rational (a : apoint R) : Prop := match a with None => True | Some (x, y) => fixed x y /\ fr x =! x /\ fr y =! y end.
Theorem milp_add_r a i j : rational a -> milp a i *! milp a j =! milp a (i + j).
Proof. destruct a as [[x y]|]; cbn [milp rational]; [intros (A & B & C); now apply mil_add|intros _; ring]. Qed.
Theorem milp_add_l a1 a2 a3 j : rational a1 -> rational a2 -> rational a3 -> ct_sum a1 a2 a3 -> milp a1 j *! milp a2 j =! milp a3 j.
Proof.
  assert (T : forall a a', apoint_eq a a' -> milp a j =! milp a' j).
  { intros [[x y]|] [[x' y']|]; cbn; try tauto; try reflexivity. intros [A B]. now apply mil_at. }
  intros R1 R2 R3 H. destruct a1 as [[x1 y1]|].
  2:{ cbn in H. rewrite (T _ _ H). cbn [milp]. ring. }
  destruct a2 as [[x2 y2]|].
  2:{ cbn in H. rewrite (T _ _ H). cbn [milp]. ring. }
  destruct R1 as (A1 & B1 & C1), R2 as (A2 & B2 & C2).
  destruct H as [(X & Y & ->)|(m & x3 & y3 & SL & -> & X3 & Y3)].
  - cbn [milp]. rewrite (mil_at x1 y1 x2 (-! y2) j X Y). rewrite cmulC. now apply mil_opp_p.
  - cbn in R3. destruct R3 as (A3 & B3 & C3). apply (mil_add_p x1 y1 x2 y2 x3 y3 m); auto.
    assert (S := fr_slope m x1 y1 x2 y2 SL). refine (slope_unique R F _ _ _ _ _ _ _ SL). now rewrite <- B1, <- C1, <- B2, <- C2 at 1.
Qed.
End Lines.

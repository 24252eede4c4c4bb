(** The whole Miller loop, Pair and PairingCheck. *)
Require Import ZArith NArith Setoid Morphisms Ring Ring_theory Bool Lia Znumtheory List.
Require Import Verif.Cong Verif.Ext Verif.FqModel Verif.FqProofs Verif.Pocklington Verif.TowerModel Verif.TowerSpec Verif.TowerProofs Verif.FieldProofs Verif.FrobProofs
  Verif.FrobProofs2 Verif.FinalProofs Verif.CurveModel Verif.CurveSpec Verif.JacProofs Verif.AssocProofs Verif.CurveGroup Verif.CurveProofs
  Verif.OrderCheck Verif.OrderProofs Verif.LineProofs Verif.BilinProofs Verif.HomProofs Verif.PairField Verif.PairAlg Verif.PairModel Verif.MillerProofs.
Import ListNotations.
Open Scope Z_scope.
#[local] Existing Instance apoint_equiv.

Section Alg.
Variable R : cring.
Add Ring Rr : (c_ring R) (setoid (c_equiv R) (c_ext R)).
Lemma lval_point px py px' py' m x y : px =! px' -> py =! py' -> lval R px py m x y =! lval R px' py' m x y.
Proof. intros X Y. unfold lval. now rewrite X, Y. Qed.
Lemma opp_opp_mul (a : R) : (-! a) *! (-! a) =! a *! a. Proof. ring. Qed.
End Alg.
Section Loop.
Variables (q : cpoint) (j : Z) (jx jy : FP2).
Hypothesis Hq : fixed FP12 b12 sg (e1 (cx q)) (e1 (cy q)).
Hypothesis Qj : q2 j = Some (jx, jy).
Let w (n : N) : FP12 := lw FP12 inv12 eq12f E pt (e1 (cx q)) (e1 (cy q)) n j.
Let j_nz : ~ j ==[Order] 0.
Proof. intros H. apply q2_none in H. rewrite H in Qj. discriminate. Qed.
Let c (i k : Z) : FP12 := lcq q i k.
Lemma wadd n m : w (n + m) =! w n *! w m *! c (Z.of_N n * j) (Z.of_N m * j).
Proof.
  exact (w_add FP12 FP12_field FP12_two FP12_three b12 FP12_b inv12 inv12_ok eq12f eq12f_ok sg sg_m sg_add sg_mul sg_opp sg_sg sg_1
    E E_m E_mul E_fix pt pt_anti pt_sum pt_0 (e1 (cx q)) (e1 (cy q)) Hq n m j).
Qed.
Lemma wsucc n : w (N.succ n) =! w n *! c (Z.of_N n * j) j.
Proof. unfold w. rewrite w_succ. reflexivity. Qed.
Lemma wpred n : w (N.succ n) *! c (Z.of_N (N.succ n) * j) (- j) =! w n.
Proof.
  exact (w_pred FP12 FP12_field FP12_two FP12_three b12 FP12_b inv12 inv12_ok eq12f eq12f_ok sg sg_m sg_add sg_mul sg_opp sg_sg sg_1
    E E_m E_mul E_fix pt pt_anti pt_sum pt_0 (e1 (cx q)) (e1 (cy q)) Hq n j).
Qed.
Lemma w1 : w 1 =! c1.
Proof. exact (w_1 FP12 FP12_field inv12 eq12f eq12f_ok sg sg_1 E E_m E_fix pt pt_sum pt_0 (e1 (cx q)) (e1 (cy q)) j). Qed.

(** The multiple is prime to the order. *)
Lemma mul_j n k : n * j ==[Order] k * j -> n ==[Order] k.
Proof.
  intros H. apply cong_sub_0 in H. assert (H' : (n - k) * j ==[Order] 0) by (rewrite <- H; apply cong_eq; ring).
  apply (cong_integral Order prime_Order) in H'. destruct H' as [H'|H']; [|tauto]. now apply cong_sub_0.
Qed.
Lemma small_neq a b : a < b < a + Order -> ~ a ==[Order] b.
Proof. intros H [k K]. assert (b - a = - k * Order) by lia. assert (0 < - k) by nia. nia. Qed.

Variables (aA minusA : tpoint) (r2 : gfp2).
Hypothesis HA : tx aA =[FP2]= jx /\ ty aA =[FP2]= jy /\ tz aA = g2_one /\ tt aA = g2_one.
Hypothesis Hm : minusA = t_negative aA.
Hypothesis Hr2 : r2 = g2_square (ty aA).

Definition inv_at (n : N) (st : gfp12 * tpoint) : Prop := at_mul (snd st) (Z.of_N n * j) /\ E (fst st) =! w n.
Lemma r2_ok : r2 =[FP2]= (ty aA : FP2) *! ty aA. Proof. rewrite Hr2. apply g2_square_ok. Qed.
Lemma neg_y : ty (t_negative aA) =[FP2]= -! (ty aA : FP2). Proof. split; reflexivity. Qed.
Lemma r2_ok' : r2 =[FP2]= (ty minusA : FP2) *! ty minusA.
Proof. rewrite r2_ok, Hm, neg_y. symmetry. apply (opp_opp_mul FP2). Qed.
Lemma start_ok : inv_at 1 (g12_one, aA).
Proof.
  destruct HA as (X & Y & Z & T). split; cbn [fst snd].
  - split; [|rewrite Z, T; symmetry; apply (Rmul_1_l (c_ring FP2))].
    change (Z.of_N 1) with 1. rewrite Z.mul_1_l, Qj. split; [rewrite Z; exact (proj1 FP2_field)|].
    rewrite Z, X, Y. split; [apply (aff_1x FP2)|apply (aff_1y FP2)].
  - rewrite w1. apply E_fix; [exact sg_1|exact (proj1 FP12_field)].
Qed.
(** Digits, with the multiple reached so far. *)
Definition digit_ok (n : Z) (d : Z) : bool := (1 <=? n) && (2 * n + 2 <? Order) && ((d =? 0) || (d =? 1) || (d =? -1)).
Lemma round_ok first n st d : inv_at n st -> digit_ok (Z.of_N n) d = true -> (first = true -> fst st = g12_one) ->
  inv_at (Z.to_N (2 * Z.of_N n + d)) (miller_round aA minusA q r2 first st d).
Proof.
  intros [HR HE] D F. destruct st as [ret r]. cbn [fst snd] in HR, HE, F. unfold digit_ok in D.
  apply andb_true_iff in D. destruct D as [D D3]. apply andb_true_iff in D. destruct D as [D1 D2]. apply Z.leb_le in D1. apply Z.ltb_lt in D2.
  assert (NJ : forall a b, a < b < a + Order -> ~ a * j ==[Order] b * j) by (intros a b H K; exact (small_neq a b H (mul_j a b K))).
  assert (NN : ~ Z.of_N n * j ==[Order] 0) by (intros K; symmetry in K; exact (NJ 0 (Z.of_N n) ltac:(lia) K)).
  unfold miller_round. assert (DS := double_step r q (Z.of_N n * j) HR NN). destruct (line_double r q) as [[[a b] cc] r'].
  destruct DS as [HR' HL].
  assert (SQ : E (if first then ret else g12_square ret) =! E ret *! E ret).
  { destruct first.
    - rewrite (F eq_refl). assert (K : E g12_one =[FP12]= c1) by (apply E_fix; [exact sg_1|exact (proj1 FP12_field)]).
      rewrite K. symmetry. apply (Rmul_1_l (c_ring FP12)).
    - rewrite (E_m _ _ (g12_square_ok ret)). apply E_mul. }
  set (ret' := mul_line (if first then ret else g12_square ret) a b cc).
  assert (HE' : E ret' =! w (n + n)).
  { unfold ret'. rewrite HL, SQ, HE. symmetry. apply wadd. }
  assert (HR2 : at_mul r' (Z.of_N (n + n) * j)).
  { replace (Z.of_N (n + n) * j) with (Z.of_N n * j + Z.of_N n * j) by lia. exact HR'. }
  destruct HA as (X & Y & _).
  assert (N0 : ~ Z.of_N (n + n) * j ==[Order] 0) by (intros K; symmetry in K; exact (NJ 0 (Z.of_N (n + n)) ltac:(lia) K)).
  assert (N1 : ~ Z.of_N (n + n) * j ==[Order] j).
  { intros K. symmetry in K. rewrite <- (Z.mul_1_l j) in K at 1. exact (NJ 1 (Z.of_N (n + n)) ltac:(lia) K). }
  assert (N2 : ~ Z.of_N (n + n) * j ==[Order] - j).
  { intros K. symmetry in K. replace (- j) with (-1 * j) in K by ring. exact (NJ (-1) (Z.of_N (n + n)) ltac:(lia) K). }
  destruct (d =? 1) eqn:E1; [|destruct (d =? -1) eqn:E2].
  - apply Z.eqb_eq in E1. subst d. replace (Z.to_N (2 * Z.of_N n + 1)) with (N.succ (n + n)) by lia.
    assert (AS := add_step r' aA q r2 _ j jx jy HR2 Qj X Y r2_ok N0 N1 N2). destruct (line_add r' aA q r2) as [[[a' b'] c'] r'']. destruct AS as [AR AL].
    split; cbn [fst snd].
    + replace (Z.of_N (N.succ (n + n)) * j) with (Z.of_N (n + n) * j + j) by lia. exact AR.
    + rewrite AL, HE', wsucc. reflexivity.
  - apply Z.eqb_eq in E2. subst d. replace (Z.to_N (2 * Z.of_N n + -1)) with (N.pred (n + n)) by lia.
    assert (Qm := q2_opp j). rewrite Qj in Qm. destruct (q2 (- j)) as [[mx my]|] eqn:Q; [|destruct Qm]. destruct Qm as [MX MY].
    assert (AS := add_step r' minusA q r2 _ (- j) mx my HR2 Q).
    rewrite Hm in AS. cbn [t_negative tx] in AS. rewrite <- Hm in AS.
    assert (MY' : ty minusA =[FP2]= my) by (rewrite Hm, neg_y, Y; symmetry; exact MY).
    specialize (AS ltac:(rewrite X; symmetry; exact MX) MY' r2_ok' N0 N2 ltac:(now rewrite Z.opp_involutive)).
    destruct (line_add r' minusA q r2) as [[[a' b'] c'] r'']. destruct AS as [AR AL].
    split; cbn [fst snd].
    + replace (Z.of_N (N.pred (n + n)) * j) with (Z.of_N (n + n) * j + - j) by lia. exact AR.
    + rewrite AL, HE'. assert (P := wpred (N.pred (n + n))). rewrite (N.succ_pred (n + n)) in P by lia. exact P.
  - assert (d = 0) by lia. subst d. replace (Z.to_N (2 * Z.of_N n + 0)) with (n + n)%N by lia. split; [exact HR2|exact HE'].
Qed.
Fixpoint digits_ok (n : Z) (ds : list Z) : bool :=
  match ds with [] => true | d :: ds => digit_ok n d && digits_ok (2 * n + d) ds end.
Definition digits_val (n : Z) (ds : list Z) : Z := fold_left (fun n d => 2 * n + d) ds n.
Lemma rounds_ok ds : forall n st, inv_at n st -> digits_ok (Z.of_N n) ds = true -> 
  inv_at (Z.to_N (digits_val (Z.of_N n) ds)) (fold_left (miller_round aA minusA q r2 false) ds st).
Proof.
  induction ds as [|d ds IH]; intros n st H D; cbn [digits_val fold_left].
  - unfold digits_val. cbn [fold_left]. now rewrite N2Z.id.
  - cbn [digits_ok] in D. apply andb_true_iff in D. destruct D as [D1 D2].
    assert (P : 0 <= 2 * Z.of_N n + d).
    { unfold digit_ok in D1. apply andb_true_iff in D1. destruct D1 as [D1 D3]. lia. }
    assert (K := round_ok false n st d H D1 ltac:(discriminate)).
    specialize (IH _ _ K). rewrite Z2N.id in IH by exact P. exact (IH D2).
Qed.
End Loop.

(** ** The end of the loop. *)
Lemma opposite_m (p r : apoint FP2) : apoint_eq p r -> apoint_eq (opposite p) (opposite r).
Proof. destruct p as [[x y]|], r as [[x' y']|]; cbn; try tauto. intros [A B]. split; [exact A|]. now apply (copp_morph FP2). Qed.
Lemma frob_m p r : apoint_eq p r -> apoint_eq (frob p) (frob r). Proof. apply hom_m; exact conj_m. Qed.
Lemma neq_mod a b : (a - b) mod Order <> 0 -> ~ a ==[Order] b.
Proof. intros N H. apply N. apply Z.mod_divide; [discriminate|]. exact H. Qed.
Lemma n0_Z : Z.of_N n0 = 6 * bn_u + 2. Proof. rewrite n0_def. reflexivity. Qed.
Lemma n0_0 : ~ Z.of_N n0 ==[Order] 0. Proof. rewrite n0_Z. apply neq_mod. vm_compute. discriminate. Qed.
Lemma n0_p : ~ Z.of_N n0 ==[Order] P. Proof. rewrite n0_Z. apply neq_mod. vm_compute. discriminate. Qed.
Lemma n0_mp : ~ Z.of_N n0 ==[Order] - P. Proof. rewrite n0_Z. apply neq_mod. vm_compute. discriminate. Qed.
Lemma n1_0 : ~ Z.of_N n0 + P ==[Order] 0. Proof. rewrite n0_Z. apply neq_mod. vm_compute. discriminate. Qed.
Lemma n1_p : ~ Z.of_N n0 + P ==[Order] P * P. Proof. rewrite n0_Z. apply neq_mod. vm_compute. discriminate. Qed.
Lemma n1_mp : ~ Z.of_N n0 + P ==[Order] - (P * P). Proof. rewrite n0_Z. apply neq_mod. vm_compute. discriminate. Qed.
Definition ndigits : list Z := tl (rev sixuPlus2NAF).
Lemma ndigits_ok : digits_ok 1 ndigits = true. Proof. vm_compute. reflexivity. Qed.
Lemma ndigits_val : digits_val 1 ndigits = 6 * bn_u + 2. Proof. vm_compute. reflexivity. Qed.
Lemma ndigits_cons : exists d ds, ndigits = d :: ds. Proof. eexists. eexists. reflexivity. Qed.

Lemma frob_q1_ok aA j jx jy : q2 j = Some (jx, jy) -> tx aA =[FP2]= jx -> ty aA =[FP2]= jy ->
  apoint_eq (Some (tx (frob_q1 aA), ty (frob_q1 aA)) : apoint FP2) (q2 (P * j)).
Proof.
  intros Q X Y. rewrite <- frob_q2, Q. unfold frob, hom, frob_q1, hx, hy. cbn [tx ty apoint_eq]. split.
  - rewrite (g2_mul_ok _ _), gam_2. rewrite (Rmul_comm (c_ring FP2)). apply (cmul_morph FP2); [reflexivity|]. now apply conj_m.
  - rewrite (g2_mul_ok _ _), gam_3. rewrite (Rmul_comm (c_ring FP2)). apply (cmul_morph FP2); [reflexivity|]. now apply conj_m.
Qed.
Section Alg2.
Variable R : cring.
Add Ring Rr : (c_ring R) (setoid (c_equiv R) (c_ext R)).
Lemma alg_fx (g g' x : R) : g *! g *! (g' *! g' *! x) =! (g *! g *! (g' *! g')) *! x. Proof. ring. Qed.
Lemma alg_fy (g g' x : R) : -! (g *! g *! g *! (g' *! g' *! g' *! x)) =! -! (g *! g *! g *! (g' *! g' *! g')) *! x. Proof. ring. Qed.
End Alg2.
Lemma gam_x : gam *! gam *! ((g2_conj gam : FP2) *! (g2_conj gam : FP2)) =[FP2]= qemb FP (-1) xiToPSquaredMinus1Over3.
Proof. 
  transitivity (g2_mul (g2_mul gam gam) (g2_mul (g2_conj gam) (g2_conj gam)) : FP2); [symmetry; lock2|].
  apply eq2b_ok. vm_compute. reflexivity.
Qed.
Lemma gam_y : -! (gam *! gam *! gam *! ((g2_conj gam : FP2) *! (g2_conj gam : FP2) *! (g2_conj gam : FP2))) =[FP2]= c1.
Proof.
  transitivity (g2_neg (g2_mul (g2_mul (g2_mul gam gam) gam) (g2_mul (g2_mul (g2_conj gam) (g2_conj gam)) (g2_conj gam))) : FP2).
  - symmetry. rewrite (g2_neg_ok _). apply (copp_morph FP2). lock2.
  - apply eq2b_ok. vm_compute. reflexivity.
Qed.
Lemma minus_q2_ok aA j jx jy : q2 j = Some (jx, jy) -> tx aA =[FP2]= jx -> ty aA =[FP2]= jy ->
  apoint_eq (Some (tx (minus_q2 aA), ty (minus_q2 aA)) : apoint FP2) (q2 (- (P * P * j))).
Proof.
  intros Q X Y. rewrite q2_opp. rewrite <- Z.mul_assoc.
  transitivity (opposite (frob (frob (q2 j)))).
  - rewrite Q. unfold frob, hom, minus_q2, hx, hy. cbn [tx ty apoint_eq opposite]. split.
    + rewrite g2_mul_scalar_ok, <- gam_x, X, !g2_conj_mul, g2_conj_conj. rewrite (alg_fx FP2). apply (Rmul_comm (c_ring FP2)).
    + rewrite !g2_conj_mul, g2_conj_conj, Y. rewrite (alg_fy FP2), gam_y. symmetry. apply (Rmul_1_l (c_ring FP2)).
  - apply opposite_m. rewrite <- frob_q2. apply frob_m, frob_q2.
Qed.

(** Line values depend on the point only up to congruence. *)
Lemma lc_point px py px' py' i k : px =[FP12]= px' -> py =[FP12]= py' ->
  lc FP12 inv12 eq12f E pt px py i k =! lc FP12 inv12 eq12f E pt px' py' i k.
Proof.
  intros X Y. unfold lc. apply E_m. unfold line. destruct (pt i) as [[x1 y1]|]; [|reflexivity]. destruct (pt k) as [[x2 y2]|]; [|reflexivity].
  destruct (_ && _); [reflexivity|]. apply (lval_point FP12); assumption.
Qed.
Lemma lw_point px py px' py' n j : px =[FP12]= px' -> py =[FP12]= py' ->
  lw FP12 inv12 eq12f E pt px py n j =! lw FP12 inv12 eq12f E pt px' py' n j.
Proof.
  intros X Y. induction n as [|n IH] using N.peano_ind; [reflexivity|]. rewrite !w_succ. apply (cmul_morph FP12); [exact IH|now apply lc_point].
Qed.
Lemma mil_point px py px' py' j : px =[FP12]= px' -> py =[FP12]= py' ->
  mil FP12 inv12 eq12f E pt pN n0 px py j =! mil FP12 inv12 eq12f E pt pN n0 px' py' j.
Proof.
  intros X Y. unfold mil. apply (cmul_morph FP12); [apply (cmul_morph FP12)|].
  - now apply lw_point. - now apply lc_point. - now apply lc_point.
Qed.
Lemma fixed_m px py px' py' : px =[FP12]= px' -> py =[FP12]= py' -> fixed FP12 b12 sg px py -> fixed FP12 b12 sg px' py'.
Proof.
  intros X Y (A & B & C & D). split; [|split; [|split]].
  - cbn [on_curve] in *. now rewrite <- X, <- Y.
  - rewrite <- (sg_m _ _ X). now rewrite B.
  - rewrite <- (sg_m _ _ Y). now rewrite C.
  - now rewrite <- Y.
Qed.

(** ** The Miller loop. *)
Lemma mil_from_ok (aA : tpoint) (bA : cpoint) ds j jx jy : q2 j = Some (jx, jy) -> ~ j ==[Order] 0 ->
  tx aA =[FP2]= jx /\ ty aA =[FP2]= jy /\ tz aA = g2_one /\ tt aA = g2_one ->
  fixed FP12 b12 sg (e1 (cx bA)) (e1 (cy bA)) -> digits_ok 1 ds = true -> digits_val 1 ds = 6 * bn_u + 2 -> ds <> [] ->
  E (miller_loop aA bA ds) =! mil FP12 inv12 eq12f E pt pN n0 (e1 (cx bA)) (e1 (cy bA)) j.
Proof.
  intros Qj Nj HA FB OK VAL NE. destruct ds as [|d ds]; [congruence|]. unfold mil, miller_loop. cbv zeta. assert (HA' := HA). destruct HA' as (AX & AY & _).
  cbn [digits_ok] in OK. apply andb_true_iff in OK. destruct OK as [OK1 OK2].
  assert (I1 := start_ok bA j jx jy Qj aA HA).
  assert (I2 := round_ok bA j jx jy FB Qj aA (t_negative aA) (g2_square (ty aA)) HA eq_refl eq_refl true 1 _ d I1 OK1 (fun _ => eq_refl)).
  assert (PD : 0 <= 2 * Z.of_N 1 + d).
  { unfold digit_ok in OK1. apply andb_true_iff in OK1. destruct OK1 as [_ D3]. lia. }
  assert (I3 := rounds_ok bA j jx jy FB Qj aA (t_negative aA) (g2_square (ty aA)) HA eq_refl eq_refl ds _ _ I2).
  rewrite Z2N.id in I3 by exact PD. specialize (I3 OK2).
  change (digits_val (2 * Z.of_N 1 + d) ds) with (digits_val 1 (d :: ds)) in I3. rewrite VAL, <- n0_def in I3.
  destruct (fold_left (miller_round aA (t_negative aA) bA (g2_square (ty aA)) false) ds
     (miller_round aA (t_negative aA) bA (g2_square (ty aA)) true (g12_one, aA) d)) as [ret r].
  destruct I3 as [R3 E3]. cbn [fst snd] in R3, E3.
  assert (MJ : forall n k, ~ n ==[Order] k -> ~ n * j ==[Order] k * j) by (intros n k N K; apply N; exact (mul_j bA j jx jy Qj n k K)).
  (* first addition *)
  assert (F1 := frob_q1_ok aA j jx jy Qj AX AY). destruct (q2 (P * j)) as [[fx fy]|] eqn:QF; [|destruct F1]. destruct F1 as [FX FY].
  assert (S1 := add_step r (frob_q1 aA) bA (g2_square (ty (frob_q1 aA))) _ (P * j) fx fy R3 QF FX FY (g2_square_ok _)
     (MJ _ 0 n0_0) (MJ _ _ n0_p) ltac:(rewrite <- Z.mul_opp_l; exact (MJ _ _ n0_mp))).
  destruct (line_add r (frob_q1 aA) bA (g2_square (ty (frob_q1 aA)))) as [[[a b] cc] r']. destruct S1 as [R4 E4].
  assert (R4' : at_mul r' ((Z.of_N n0 + P) * j)) by (replace ((Z.of_N n0 + P) * j) with (Z.of_N n0 * j + P * j) by ring; exact R4).
  assert (F2 := minus_q2_ok aA j jx jy Qj AX AY). destruct (q2 (- (P * P * j))) as [[gx gy]|] eqn:QG; [|destruct F2]. destruct F2 as [GX GY].
  assert (S2 := add_step r' (minus_q2 aA) bA (g2_square (ty (minus_q2 aA))) _ (- (P * P * j)) gx gy R4' QG GX GY (g2_square_ok _)
     (MJ _ 0 n1_0) ltac:(rewrite <- Z.mul_opp_l; exact (MJ _ _ n1_mp)) ltac:(rewrite Z.opp_involutive; exact (MJ _ _ n1_p))).
  destruct (line_add r' (minus_q2 aA) bA (g2_square (ty (minus_q2 aA)))) as [[[a' b'] cc'] r'']. destruct S2 as [_ E5].
  rewrite E5, E4, E3. rewrite N2Z.inj_add, N2Z.inj_mul, pN_Z. reflexivity.
Qed.
Theorem miller_ok s1 s2 (q : tpoint) (p : cpoint) i j pp qq :
  t_is q qq -> apoint_eq qq (q2 j) -> ~ j ==[Order] 0 -> (tz q = g2_one -> tt q = g2_one) ->
  c_is p pp -> apoint_eq pp (q1 i) -> ~ i ==[Order] 0 ->
  E (miller s1 s2 q p) =! mpair (q1 i) j.
Proof.
  intros Hq Eq Nj RD Hp Ep Ni.
  destruct (q2_some j Nj) as (jx & jy & Qj).
  assert (Hq' : t_is q (Some (jx, jy))).
  { rewrite <- Qj. destruct Hq as (A & B & C). split; [exact (rep_eq FP2 _ _ _ _ _ A Eq)|]. split; [exact B|apply q2_on]. }
  assert (Hp' : c_is p (q1 i)) by exact (c_is_eq p pp (q1 i) Hp Ep).
  destruct (q1 i) as [[ix iy]|] eqn:Qi; [|apply q1_none in Qi; tauto].
  set (aA := t_make_affine s1 q). set (bA := c_make_affine s2 p).
  destruct (t_make_affine_ok s1 q _ Hq') as (_ & _ & TA). destruct (TA _ _ eq_refl) as (AZ & AX & AY). fold aA in AZ, AX, AY.
  destruct (c_make_affine_ok s2 p _ Hp') as (_ & _ & CA). destruct (CA _ _ eq_refl) as (BZ & BX & BY). fold bA in BZ, BX, BY.
  assert (AT : tt aA = g2_one).
  { unfold aA, t_make_affine. destruct (g2_is_one (tz q)) eqn:O1.
    - apply RD. unfold aA, t_make_affine in AZ. rewrite O1 in AZ. exact AZ.
    - destruct (t_is_infinity q) eqn:O2; [|reflexivity]. unfold aA, t_make_affine in AZ. rewrite O1, O2 in AZ. discriminate. }
  assert (EX : e1 (cx bA) =[FP12]= hx FP FP12 e1 c1 ix) by (rewrite (e1_m _ _ BX); symmetry; apply (alg_11x FP12)).
  assert (EY : e1 (cy bA) =[FP12]= hy FP FP12 e1 c1 iy) by (rewrite (e1_m _ _ BY); symmetry; apply (alg_11y FP12)).
  assert (RI := q1_rational i). rewrite Qi in RI. cbn [emb hom rational] in RI. destruct RI as (FI & _ & _).
  assert (FB : fixed FP12 b12 sg (e1 (cx bA)) (e1 (cy bA))) by (apply (fixed_m _ _ _ _ (symmetry EX) (symmetry EY) FI)).
  unfold mpair. cbn [emb hom milp]. rewrite <- (mil_point _ _ _ _ j EX EY).
  change (E (miller_loop aA bA ndigits) =! mil FP12 inv12 eq12f E pt pN n0 (e1 (cx bA)) (e1 (cy bA)) j). clearbody aA bA.
  exact (mil_from_ok aA bA ndigits j jx jy Qj Nj (conj AX (conj AY (conj AZ AT))) FB ndigits_ok ndigits_val ltac:(discriminate)).
Qed.

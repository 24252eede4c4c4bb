(** A checker for certificates of the value of the pairing of the generators. *)
Require Import ZArith NArith Setoid Morphisms Ring Ring_theory Bool Lia Znumtheory List.
Require Import Verif.Cong Verif.Ext Verif.FqModel Verif.FqProofs Verif.Pocklington Verif.TowerModel Verif.TowerSpec Verif.TowerProofs Verif.FieldProofs Verif.FrobProofs
  Verif.FrobProofs2 Verif.FinalProofs Verif.CurveModel Verif.CurveSpec Verif.JacProofs Verif.AssocProofs Verif.CurveGroup Verif.CurveProofs
  Verif.OrderCheck Verif.OrderProofs Verif.LineProofs Verif.BilinProofs Verif.HomProofs Verif.PairField Verif.PairAlg Verif.MillerProofs Verif.MillerLoop Verif.HexNum Verif.PolyCheck.
Import ListNotations.
Open Scope Z_scope.
#[local] Existing Instance apoint_equiv.

(** ** Polynomials in omega as elements of GF(p^12) *)
Lemma e1_addz (a b : Z) : e1 (a + b) =! e1 a +! e1 b. Proof. exact (e1_add a b). Qed.
Lemma e1_mulz (a b : Z) : e1 (a * b) =! e1 a *! e1 b. Proof. exact (e1_mul a b). Qed.
Lemma e1_hexP : e1 (val hexP) =! c0.
Proof. transitivity (e1 0); [|reflexivity]. apply e1_m. exists 1. vm_compute. reflexivity. Qed.
Section Alg.
Variable R : cring.
Add Ring Rr : (c_ring R) (setoid (c_equiv R) (c_ext R)).
Lemma alg_w12 (w x : R) : w *! w *! w *! w *! w *! w =! x -> w *! w *! w *! w *! w *! w *! (w *! w *! w *! w *! w *! w) =! x *! x.
Proof. intros H. rewrite H. reflexivity. Qed.
Lemma alg_sub_add (a b c : R) : a +! b =! c -> a =! c -! b. Proof. intros <-. ring. Qed.
Lemma alg_chord (m x1 y1 x2 y2 : R) : m *! x2 +! y1 =! m *! x1 +! y2 -> m *! (x2 -! x1) =! y2 -! y1.
Proof. intros H. transitivity (m *! x2 +! y1 -! y1 -! m *! x1); [ring|]. rewrite H. ring. Qed.
Lemma alg_x3 (m x1 x2 x3 : R) : x3 +! (x1 +! x2) =! m *! m -> x3 =! m *! m -! x1 -! x2.
Proof. intros <-. ring. Qed.
Lemma alg_y3 (m x1 y1 x3 y3 : R) : y3 +! (y1 +! m *! x3) =! m *! x1 -> y3 =! m *! (x1 -! x3) -! y1.
Proof. intros H. transitivity (y3 +! (y1 +! m *! x3) -! m *! x3 -! y1); [ring|]. rewrite H. ring. Qed.
Lemma alg_l (m px py x y l : R) : px =! c1 -> l +! (y +! m) =! py +! m *! x -> py -! y -! m *! (px -! x) =! l.
Proof. intros X H. rewrite X. transitivity (py +! m *! x -! y -! m); [ring|]. rewrite <- H. ring. Qed.
Lemma alg_tan (m y x t : R) : t =! c1 +! c1 +! c1 -> m *! (y +! y) =! t *! (x *! x) -> m *! (y +! y) =! (c1 +! c1 +! c1) *! (x *! x).
Proof. intros <-. auto. Qed.
Lemma alg_opp (a b : R) : a +! b =! c0 -> -! b =! a.
Proof. intros H. transitivity (a -! (a +! b)); [ring|]. rewrite H. ring. Qed.
Lemma alg_const (w a : R) : a +! w *! c0 =! a. Proof. ring. Qed.
Lemma qroot_mul (c u v : R) : qroot R c *! ((u, v) : quad R c) =! ((v, c *! u) : quad R c).
Proof. split; cbn; ring. Qed.
Lemma croot_mul (c x y z : R) : croot R c *! ((x, y, z) : cubic R c) =! ((y, z, c *! x) : cubic R c).
Proof. split; [|split]; cbn; ring. Qed.
Lemma not_opp (y : R) (F : is_field R) (two : ~ (c1 : R) +! c1 =! c0) : ~ y =! c0 -> ~ y =! -! y.
Proof.
  intros N H. assert (H' : y *! (c1 +! c1) =! c0) by (transitivity (y -! (-! y)); [ring|rewrite <- H; ring]).
  destruct (f_integral R F _ _ H'); tauto.
Qed.
End Alg.
Lemma xi_sq : e2 xi *! e2 xi =! e1 18 *! e2 xi -! e1 82.
Proof.
  rewrite <- e2_mul'. unfold e1. rewrite <- e2_mul'. rewrite (Rsub_def (c_ring FP12)), <- e2_opp, <- e2_add. apply e2_m.
  split; (exists 0; vm_compute; reflexivity).
Qed.
Lemma omega_12 : omega *! omega *! omega *! omega *! omega *! omega *! (omega *! omega *! omega *! omega *! omega *! omega)
  =! e1 18 *! (omega *! omega *! omega *! omega *! omega *! omega) -! e1 82.
Proof.
  rewrite (alg_w12 FP12 omega (e2 xi) omega_6). rewrite xi_sq.
  rewrite !(Rsub_def (c_ring FP12)). apply (cadd_morph FP12); [|reflexivity]. apply (cmul_morph FP12); [reflexivity|]. symmetry. exact omega_6.
Qed.
Definition evp (a : poly) : FP12 := ev FP12 omega e1 a.
Lemma evp_eqm c d q : eqm c d q = true -> evp c =! evp d.
Proof. apply (eqm_ok FP12 omega e1 e1_addz e1_mulz e1_hexP omega_12). Qed.
Lemma evp_padd a b : evp (padd a b) =! evp a +! evp b. Proof. apply (ev_padd FP12 omega e1 e1_addz). Qed.
Lemma evp_pdbl a : evp (pdbl a) =! evp a +! evp a. Proof. apply (ev_pdbl FP12 omega e1 e1_addz). Qed.
Lemma evp_pmul a b : evp (pmul a b) =! evp a *! evp b. Proof. apply (ev_pmul FP12 omega e1 e1_addz e1_mulz). Qed.
Lemma evp_psq a : evp (psq a) =! evp a *! evp a. Proof. apply (ev_psq FP12 omega e1 e1_addz e1_mulz). Qed.
Lemma evp_row x b : evp (mul_row x b) =! e1 (val x) *! evp b. Proof. apply (ev_row FP12 omega e1 e1_mulz). Qed.
Lemma evp_const x : evp [x] =! e1 (val x).
Proof. apply (alg_const FP12). Qed.

(** ** Lines *)
Definition chk_line (tangent : bool) (x1 y1 x2 y2 m l x3 y3 : poly) (q1 q2 q3 q4 : poly * poly) : bool :=
  (if tangent then eqm (pmul m (pdbl y1)) (mul_row 0x3%num (psq x1)) q1
   else eqm (padd (pmul m x2) y1) (padd (pmul m x1) y2) q1)
  && eqm (padd x3 (padd x1 x2)) (psq m) q2
  && eqm (padd y3 (padd y1 (pmul m x3))) (pmul m x1) q3
  && eqm (padd l (padd y1 m)) (padd [0x2%num] (pmul m x1)) q4.
(* a record, since Coq would otherwise compute pt i to see what the statement is *)
Record at_pt (i : Z) (x y : poly) : Prop := At { at_eq : apoint_eq (pt i) (Some (evp x, evp y)) }.
Lemma pt_x i k X1 Y1 X2 Y2 : apoint_eq (pt i) (Some (X1, Y1)) -> apoint_eq (pt k) (Some (X2, Y2)) -> X1 =! X2 -> i ==[Order] k \/ i ==[Order] - k.
Proof.
  unfold pt. destruct (q2 i) as [[x1 y1]|] eqn:Q1; [|intros []]. destruct (q2 k) as [[x2 y2]|] eqn:Q2; [|intros _ []].
  intros [A _] [B _] C. apply (q2_x i k _ _ _ _ Q1 Q2). apply e2_inj.
  assert (D : hx FP2 FP12 e2 omega x1 =! hx FP2 FP12 e2 omega x2) by (rewrite A, C; symmetry; exact B).
  unfold hx in D. apply (f_cancel FP12 FP12_field (omega *! omega)); [|exact D]. apply (nz_mul FP12 FP12_field); exact omega_nz.
Qed.
Lemma pt_y i X Y : apoint_eq (pt i) (Some (X, Y)) -> ~ Y =! c0.
Proof.
  unfold pt. destruct (q2 i) as [[x1 y1]|] eqn:Q1; [|intros []]. intros [_ B] C.
  apply (hx_nz y1 (q2_y i x1 y1 Q1)). rewrite B. exact C.
Qed.
Lemma pt_on' i X Y : apoint_eq (pt i) (Some (X, Y)) -> on_curve b12 (Some (X, Y)).
Proof. intros H. apply (on_eq FP12 b12 (pt i)); [exact H|]. exact (proj1 (pt_anti i)). Qed.
Lemma three_val : e1 (val 0x3%num) =! c1 +! c1 +! c1.
Proof. change (val 0x3%num) with (1 + 1 + 1). rewrite !e1_addz. reflexivity. Qed.
Definition lcg (i k : Z) : FP12 := lc FP12 inv12 eq12f E pt (e1 1) (e1 2) i k.
Lemma chk_line_ok tangent x1 y1 x2 y2 m l x3 y3 q1 q2 q3 q4 i k :
  chk_line tangent x1 y1 x2 y2 m l x3 y3 q1 q2 q3 q4 = true -> at_pt i x1 y1 -> at_pt k x2 y2 ->
  (if tangent then i = k /\ x1 = x2 /\ y1 = y2 else ~ i ==[Order] k /\ ~ i ==[Order] - k) ->
  at_pt (i + k) x3 y3 /\ lcg i k =! E (evp l).
Proof.
  unfold chk_line. intros H [P1] [P2] T. apply andb_true_iff in H. destruct H as [H H4]. apply andb_true_iff in H. destruct H as [H H3].
  apply andb_true_iff in H. destruct H as [H1 H2].
  apply evp_eqm in H2, H3, H4. rewrite !evp_padd, ?evp_pmul, ?evp_psq in H2, H3, H4. rewrite (evp_padd [0x2%num]), evp_const, ?evp_pmul in H4. rewrite ?evp_psq in H2. rewrite ?evp_pmul in H3. change (val 0x2%num) with 2 in H4.
  assert (SL : slope (evp m) (evp x1) (evp y1) (evp x2) (evp y2)).
  { destruct tangent.
    - right. destruct T as (-> & <- & <-). split; [reflexivity|]. split; [reflexivity|]. split.
      + apply (not_opp FP12 _ FP12_field FP12_two). exact (pt_y _ _ _ P1).
      + apply evp_eqm in H1. rewrite evp_pmul, evp_pdbl, evp_row, evp_psq in H1. exact (alg_tan FP12 _ _ _ _ three_val H1).
    - left. split; [intros X; destruct (pt_x i k _ _ _ _ P1 P2 X); tauto|].
      apply evp_eqm in H1. rewrite !evp_padd, !evp_pmul in H1. exact (alg_chord FP12 _ _ _ _ _ H1). }
  assert (O1 := pt_on' _ _ _ P1). assert (O2 := pt_on' _ _ _ P2).
  split.
  - constructor. apply (sum_unique FP12 FP12_field (pt i) (pt k)); [apply pt_sum|].
    apply (sum_m FP12 (Some (evp x1, evp y1)) (pt i) (Some (evp x2, evp y2)) (pt k) (Some (evp x3, evp y3)) (Some (evp x3, evp y3))); [symmetry; exact P1|symmetry; exact P2|reflexivity|].
    right. exists (evp m), (evp x3), (evp y3). split; [exact SL|]. split; [reflexivity|]. split; [apply (alg_x3 FP12); exact H2|apply (alg_y3 FP12); exact H3].
  - unfold lcg, lc. apply E_m.
    transitivity (line FP12 inv12 eq12f (e1 1) (e1 2) (Some (evp x1, evp y1)) (Some (evp x2, evp y2))).
    + apply (line_m FP12 FP12_field FP12_two b12 inv12 inv12_ok eq12f eq12f_ok _ _ _ _ _ _ (proj1 (pt_anti i)) (proj1 (pt_anti k)) P1 P2).
    + etransitivity; [exact (line_slope FP12 FP12_field b12 inv12 inv12_ok eq12f eq12f_ok _ _ _ _ _ _ _ O1 O2 SL)|].
      unfold lval. apply (alg_l FP12); [exact e1_1|exact H4].
Qed.

(** ** The Frobenius map and the conjugation *)
Definition evat (f : FP12) (a : poly) : FP12 := eval_at FP12 e1 f a.
Fixpoint chk_pow (p f : poly) (phis : list poly) (qs : list (poly * poly)) : bool :=
  match phis, qs with
  | [], _ => true
  | p' :: phis, q :: qs => eqm p' (pmul f p) q && chk_pow p' f phis qs
  | _, _ => false
  end.
Lemma chk_pow_ok f phis : forall k p qs F, evp p =! k -> evp f =! F -> chk_pow p f phis qs = true -> powers FP12 omega e1 k F (p :: phis).
Proof.
  induction phis as [|p' phis IH]; intros k p qs F K HF H; split; try exact K; try exact I.
  destruct qs as [|q qs]; [discriminate H|]. cbn [chk_pow] in H. apply andb_true_iff in H. destruct H as [H1 H2].
  apply evp_eqm in H1. rewrite evp_pmul in H1. assert (K' : evp p' =! F *! k) by (rewrite H1, HF, K; reflexivity).
  exact (IH (F *! k) p' qs F K' HF H2).
Qed.
Lemma hom_eval (h : FP12 -> FP12) (hm : Proper (@ceq FP12 ==> @ceq FP12) h) (ha : forall x y, h (x +! y) =! h x +! h y)
  (hmul : forall x y, h (x *! y) =! h x *! h y) (he : forall a, h (e1 a) =! e1 a) (a : poly) : h (evp a) =! evat (h omega) a.
Proof.
  assert (h0 : h c0 =! c0) by exact (he 0).
  induction a as [|x a IH]; [exact h0|]. change (evp (x :: a)) with (e1 (val x) +! omega *! evp a). rewrite ha, hmul, he, IH. reflexivity.
Qed.
Definition fr_eval := hom_eval fr fr_m fr_add fr_mul fr_e1.
Definition sg_eval := hom_eval sg sg_m sg_add sg_mul sg_e1.
Lemma plin_ok' F a phis : powers FP12 omega e1 c1 F phis -> (length a <=? length phis)%nat = true -> evp (plin a phis) =! evat F a.
Proof.
  intros H L. apply Nat.leb_le in L. etransitivity; [exact (plin_ok FP12 omega e1 e1_addz e1_mulz F a c1 phis H L)|]. apply (Rmul_1_l (c_ring FP12)).
Qed.

(** ** The Miller loop in affine coordinates *)
Inductive step := St (kind : Z) (m l x' y' s f' : poly) (q1 q2 q3 q4 q5 q6 : poly * poly).
Definition mstate : Type := N * poly * poly * poly.
Definition in_range (n : N) : bool := (1 <=? n)%N && (2 * n + 2 <? Z.to_N Order)%N.
Definition mstep (x1 y1 z1 : poly) (st : mstate) (s : step) : option mstate :=
  let '(n, x, y, f) := st in
  match s with
  | St 0 m l x' y' s f' q1 q2 q3 q4 q5 q6 =>
      if in_range n && chk_line true x y x y m l x' y' q1 q2 q3 q4 && eqm s (psq f) q5 && eqm f' (pmul l s) q6 then Some (n + n, x', y', f')%N else None
  | St 1 m l x' y' s f' q1 q2 q3 q4 q5 q6 =>
      if (2 <=? n)%N && in_range n && chk_line false x y x1 y1 m l x' y' q1 q2 q3 q4 && eqm f' (pmul l f) q6 then Some (N.succ n, x', y', f') else None
  | St _ m l x' y' s f' q1 q2 q3 q4 q5 q6 =>
      if (2 <=? n)%N && in_range n && chk_line false x y x1 z1 m l x' y' q1 q2 q3 q4 && eqm f' (pmul l f) q6 then Some (N.pred n, x', y', f') else None
  end.
Fixpoint mrun (x1 y1 z1 : poly) (ss : list step) (st : mstate) : option mstate :=
  match ss with [] => Some st | s :: ss => match mstep x1 y1 z1 st s with Some st => mrun x1 y1 z1 ss st | None => None end end.
Section Run.
Variables x1 y1 z1 : poly.
Hypothesis A1 : at_pt 1 x1 y1.
Hypothesis A2 : at_pt (-1) x1 z1.
Hypothesis Hp : fixed FP12 b12 sg (e1 1) (e1 2).
Let w (n : N) : FP12 := lw FP12 inv12 eq12f E pt (e1 1) (e1 2) n 1.
Definition minv (st : mstate) : Prop := let '(n, x, y, f) := st in at_pt (Z.of_N n) x y /\ E (evp f) =! w n.
Lemma in_range_ok n : in_range n = true -> 1 <= Z.of_N n /\ 2 * Z.of_N n + 2 < Order.
Proof.
  unfold in_range. intros H. apply andb_true_iff in H. destruct H as [A B]. apply N.leb_le in A. apply N.ltb_lt in B. split; [lia|].
  apply N2Z.inj_lt in B. change (Z.of_N (Z.to_N Order)) with Order in B. lia.
Qed.
Lemma small_neq' a b : a < b < a + Order -> ~ a ==[Order] b.
Proof. intros H [k K]. assert (b - a = - k * Order) by lia. assert (0 < - k) by nia. nia. Qed.
Lemma n_neq n : 2 <= n -> 2 * n + 2 < Order -> ~ n ==[Order] 1 /\ ~ n ==[Order] -1.
Proof. intros A B. split; intros H; symmetry in H; revert H; apply small_neq'; lia. Qed.
Lemma mstep_ok st s st' : minv st -> mstep x1 y1 z1 st s = Some st' -> minv st'.
Proof.
  destruct st as [[[n x] y] f]. intros [A F]. destruct s as [kind m l x' y' s f' q1 q2 q3 q4 q5 q6].
  assert (ADD : forall n' k z, (2 <=? n)%N && in_range n && chk_line false x y x1 z m l x' y' q1 q2 q3 q4 && eqm f' (pmul l f) q6 = true ->
    at_pt k x1 z -> k = 1 \/ k = -1 -> Z.of_N n' = Z.of_N n + k -> at_pt (Z.of_N n') x' y' /\ E (evp f') =! E (evp f) *! lcg (Z.of_N n) k).
  { intros n' k z H K Hk EN. apply andb_true_iff in H. destruct H as [H H4]. apply andb_true_iff in H. destruct H as [H H3].
    apply andb_true_iff in H. destruct H as [H1 H2]. apply N.leb_le in H1. apply in_range_ok in H2.
    assert (NE : ~ Z.of_N n ==[Order] k /\ ~ Z.of_N n ==[Order] - k).
    { destruct (n_neq (Z.of_N n) ltac:(lia) ltac:(lia)). destruct Hk as [-> | ->]; split; assumption. }
    destruct (chk_line_ok false _ _ _ _ _ _ _ _ _ _ _ _ (Z.of_N n) k H3 A K NE) as [P L]. rewrite EN. split; [exact P|].
    apply evp_eqm in H4. rewrite evp_pmul in H4. rewrite (E_m _ _ H4), E_mul, <- L. apply (Rmul_comm (c_ring FP12)). }
  cbn [mstep]. intros H.
  assert (CASES : (kind = 0 /\ in_range n && chk_line true x y x y m l x' y' q1 q2 q3 q4 && eqm s (psq f) q5 && eqm f' (pmul l s) q6 = true /\ st' = (n + n, x', y', f')%N)
    \/ (exists n' k z, (2 <=? n)%N && in_range n && chk_line false x y x1 z m l x' y' q1 q2 q3 q4 && eqm f' (pmul l f) q6 = true /\ at_pt k x1 z /\
         (k = 1 /\ n' = N.succ n \/ k = -1 /\ n' = N.pred n) /\ st' = (n', x', y', f'))).
  { destruct kind as [|[p|p|]|p].
    - left. match type of H with (if ?b then _ else _) = _ => destruct b eqn:C; [|discriminate] end. injection H as <-. tauto.
    - right. exists (N.pred n), (-1), z1. match type of H with (if ?b then _ else _) = _ => destruct b eqn:C; [|discriminate] end. injection H as <-. tauto.
    - right. exists (N.pred n), (-1), z1. match type of H with (if ?b then _ else _) = _ => destruct b eqn:C; [|discriminate] end. injection H as <-. tauto.
    - right. exists (N.succ n), 1, y1. match type of H with (if ?b then _ else _) = _ => destruct b eqn:C; [|discriminate] end. injection H as <-. tauto.
    - right. exists (N.pred n), (-1), z1. match type of H with (if ?b then _ else _) = _ => destruct b eqn:C; [|discriminate] end. injection H as <-. tauto. }
  destruct CASES as [(_ & C & ->)|(n' & k & z & C & K & KK & ->)].
  - apply andb_true_iff in C. destruct C as [C H4]. apply andb_true_iff in C. destruct C as [C H3].
    apply andb_true_iff in C. destruct C as [H1 H2]. apply in_range_ok in H1.
    destruct (chk_line_ok true _ _ _ _ _ _ _ _ _ _ _ _ (Z.of_N n) (Z.of_N n) H2 A A (conj eq_refl (conj eq_refl eq_refl))) as [P L].
    split; [rewrite N2Z.inj_add; exact P|].
    apply evp_eqm in H3, H4. rewrite evp_psq in H3. rewrite evp_pmul in H4. rewrite (E_m _ _ H4), E_mul, (E_m _ _ H3), E_mul, F, <- L.
    symmetry. etransitivity; [exact (w_add FP12 FP12_field FP12_two FP12_three b12 FP12_b inv12 inv12_ok eq12f eq12f_ok sg sg_m sg_add sg_mul sg_opp sg_sg sg_1
      E E_m E_mul E_fix pt pt_anti pt_sum pt_0 (e1 1) (e1 2) Hp n n 1)|]. rewrite Z.mul_1_r. apply (Rmul_comm (c_ring FP12)).
  - destruct (ADD n' k z C K ltac:(tauto) ltac:(apply andb_true_iff in C; destruct C as [C _]; apply andb_true_iff in C; destruct C as [C _];
      apply andb_true_iff in C; destruct C as [C _]; apply N.leb_le in C; lia)) as [P L].
    split; [exact P|]. rewrite L, F. destruct KK as [[-> ->]|[-> ->]].
    + unfold w. rewrite w_succ, Z.mul_1_r. reflexivity.
    + assert (PN : n = N.succ (N.pred n)).
      { apply andb_true_iff in C; destruct C as [C _]; apply andb_true_iff in C; destruct C as [C _];
        apply andb_true_iff in C; destruct C as [C _]; apply N.leb_le in C; lia. }
      rewrite PN at 1 2.
      assert (W := w_pred FP12 FP12_field FP12_two FP12_three b12 FP12_b inv12 inv12_ok eq12f eq12f_ok sg sg_m sg_add sg_mul sg_opp sg_sg sg_1
        E E_m E_mul E_fix pt pt_anti pt_sum pt_0 (e1 1) (e1 2) Hp (N.pred n) 1).
      rewrite Z.mul_1_r in W. exact W.
Qed.
Lemma mrun_ok ss : forall st st', minv st -> mrun x1 y1 z1 ss st = Some st' -> minv st'.
Proof.
  induction ss as [|s ss IH]; intros st st' I H; cbn [mrun] in H; [injection H as <-; exact I|].
  destruct (mstep x1 y1 z1 st s) as [st1|] eqn:M; [|discriminate]. exact (IH st1 st' (mstep_ok _ _ _ I M) H).
Qed.
Lemma start : minv (1%N, x1, y1, [0x1%num]).
Proof.
  split; [exact A1|]. rewrite (E_m _ _ (evp_const 0x1%num)). change (val 0x1%num) with 1. rewrite (E_m _ _ e1_1).
  unfold w. rewrite (w_1 FP12 FP12_field inv12 eq12f eq12f_ok sg sg_1 E E_m E_fix pt pt_sum pt_0 (e1 1) (e1 2) 1).
  apply (BilinProofs.E_1 FP12 FP12_field sg sg_1 E E_fix).
Qed.
End Run.

(** ** Straight line programs computing powers *)
Inductive ins := IMul (i j : nat) (r : poly) (q : poly * poly) | ISq (i : nat) (r : poly) (q : poly * poly) | IFr (i : nat) (r : poly) (q : poly * poly).
Definition envt : Type := list (N * poly).
Definition irun1 (phis : list poly) (i : ins) (en : envt) : option (N * poly) :=
  match i with
  | IMul i j r q => match nth_error en i, nth_error en j with
                    | Some (a, x), Some (b, y) => if eqm r (pmul x y) q then Some ((a + b)%N, r) else None
                    | _, _ => None end
  | ISq i r q => match nth_error en i with Some (a, x) => if eqm r (psq x) q then Some ((a + a)%N, r) else None | None => None end
  | IFr i r q => match nth_error en i with
                 | Some (a, x) => if (length x <=? length phis)%nat && eqm r (plin x phis) q then Some ((a * Z.to_N P)%N, r) else None
                 | None => None end
  end.
Fixpoint irun (phis : list poly) (is : list ins) (en : envt) : option envt :=
  match is with [] => Some en | i :: is => match irun1 phis i en with Some r => irun phis is (r :: en) | None => None end end.
Section Prog.
Variable phis : list poly.
Hypothesis Hphis : powers FP12 omega e1 c1 (fr omega) phis.
Variable g : FP12.
Definition einv (en : envt) : Prop := Forall (fun r => evp (snd r) =! cpow g (fst r)) en.
Lemma einv_nth en i a x : einv en -> nth_error en i = Some (a, x) -> evp x =! cpow g a.
Proof. intros I H. apply nth_error_In in H. unfold einv in I. rewrite Forall_forall in I. exact (I _ H). Qed.
Lemma fr_plin a : (length a <=? length phis)%nat = true -> evp (plin a phis) =! fr (evp a).
Proof. intros L. rewrite (plin_ok' (fr omega) a phis Hphis L). symmetry. apply fr_eval. Qed.
Lemma irun1_ok i en r : einv en -> irun1 phis i en = Some r -> evp (snd r) =! cpow g (fst r).
Proof.
  intros I. destruct i as [i j r0 q|i r0 q|i r0 q]; cbn [irun1].
  - destruct (nth_error en i) as [[a x]|] eqn:N1; [|discriminate]. destruct (nth_error en j) as [[b y]|] eqn:N2; [|discriminate].
    destruct (eqm r0 (pmul x y) q) eqn:Q; [|discriminate]. intros H. injection H as <-. cbn [fst snd]. apply evp_eqm in Q.
    rewrite Q, evp_pmul, (einv_nth _ _ _ _ I N1), (einv_nth _ _ _ _ I N2). symmetry. apply cpow_add.
  - destruct (nth_error en i) as [[a x]|] eqn:N1; [|discriminate].
    destruct (eqm r0 (psq x) q) eqn:Q; [|discriminate]. intros H. injection H as <-. cbn [fst snd]. apply evp_eqm in Q.
    rewrite Q, evp_psq, (einv_nth _ _ _ _ I N1). symmetry. apply cpow_add.
  - destruct (nth_error en i) as [[a x]|] eqn:N1; [|discriminate].
    destruct ((length x <=? length phis)%nat && eqm r0 (plin x phis) q) eqn:Q; [|discriminate]. intros H. injection H as <-. cbn [fst snd].
    apply andb_true_iff in Q. destruct Q as [L Q]. apply evp_eqm in Q. rewrite Q, (fr_plin x L), (fr_m _ _ (einv_nth _ _ _ _ I N1)).
    unfold fr. rewrite pN_def. symmetry. apply cpow_mul.
Qed.
Lemma irun_ok is : forall en en', einv en -> irun phis is en = Some en' -> einv en'.
Proof.
  induction is as [|i is IH]; intros en en' I H; cbn [irun] in H; [injection H as <-; exact I|].
  destruct (irun1 phis i en) as [r|] eqn:R1; [|discriminate]. apply (IH (r :: en) en'); [|exact H].
  apply Forall_cons; [exact (irun1_ok _ _ _ I R1)|exact I].
Qed.
End Prog.

(** ** Coordinates *)
Definition mul_xi (a : Z * Z) : Z * Z := (9 * fst a + snd a, 9 * snd a - fst a).
Definition sh (a : gfp12) : gfp12 := let '((x, y, z), u) := a in (u, (y, z, mul_xi x)).
Definition add_low (a : Z) (t : gfp12) : gfp12 := let '(u, (x, y, (p, q))) := t in (u, (x, y, (p, a + q))).
Fixpoint evc (l : poly) : gfp12 := match l with [] => (((0, 0), (0, 0), (0, 0)), ((0, 0), (0, 0), (0, 0))) | a :: l => add_low (val a) (sh (evc l)) end.
Lemma sh_ok (a : FP12) : omega *! a =[FP12]= sh a.
Proof.
  destruct a as [[[x y] z] u]. unfold omega, sh. rewrite (qroot_mul FP6 tau). split; [reflexivity|]. unfold tau. cbn [snd].
  rewrite (croot_mul FP2 xi). split; [|split]; [reflexivity|reflexivity|]. destruct x as [p q]. unfold mul_xi.
  split; apply cong_eq; cbv -[Z.mul Z.add Z.sub Z.opp]; ring.
Qed.
Lemma low_ok (a : Z) (t : FP12) : e1 a +! t =[FP12]= add_low a t.
Proof.
  destruct t as [u [[x y] [p q]]]. unfold add_low, e1, e2. destruct u as [[[a1 a2] [a3 a4]] [a5 a6]]. destruct x as [a7 a8], y as [a9 a10].
  split; (split; [|split]; split); apply cong_eq; cbv -[Z.mul Z.add Z.sub Z.opp]; ring.
Qed.
Lemma sh_m (a b : FP12) : a =! b -> sh a =[FP12]= sh b.
Proof. intros H. rewrite <- !sh_ok, H. reflexivity. Qed.
Lemma low_m v (a b : FP12) : a =! b -> add_low v a =[FP12]= add_low v b.
Proof. intros H. rewrite <- !low_ok, H. reflexivity. Qed.
Lemma evc_ok l : evp l =[FP12]= evc l.
Proof.
  induction l as [|a l IH]; [reflexivity|]. change (evp (a :: l)) with (e1 (val a) +! omega *! evp l). cbn [evc].
  rewrite low_ok. apply low_m. rewrite sh_ok. apply sh_m. exact IH.
Qed.
(** What two registers hold at the end; a register is given by its place in the list. *)
Definition pick (i j : nat) (en : option envt) : option ((N * poly) * (N * poly)) :=
  match en with
  | Some en => match nth_error en i, nth_error en j with Some a, Some b => Some (a, b) | _, _ => None end
  | None => None
  end.

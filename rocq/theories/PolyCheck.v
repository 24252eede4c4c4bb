(** Certificates for identities between elements of GF(p^12), written as polynomials in the root omega of
    X^12 - 18 X^6 + 82 whose coefficients are hexadecimal numbers.  Both sides of an identity are compared
    as polynomials over the integers after adding the given multiples of p, so that no division is needed. *)
Require Import ZArith NArith Setoid Morphisms Ring Ring_theory Bool Lia List.
Require Import Verif.Cong Verif.Ext Verif.HexNum.
Import ListNotations.
Open Scope Z_scope.

Definition poly : Type := list num.
Fixpoint padd (a b : poly) : poly :=
  match a, b with
  | [], _ => b
  | _, [] => a
  | x :: a, y :: b => add0 x y :: padd a b
  end.
Definition pdbl (a : poly) : poly := map (fun x => add0 x x) a.
Fixpoint pmul (a b : poly) : poly :=
  match a with
  | [] => []
  | x :: a => padd (match x with Nil => [] | _ => mul_row x b end) (Nil :: pmul a b)
  end.
(** d is twice a *)
Fixpoint psq_from (a d : poly) : poly :=
  match a, d with
  | x :: a, _ :: d => padd (match x with Nil => [] | _ => mul_row x (x :: d) end) (Nil :: Nil :: psq_from a d)
  | _, _ => []
  end.
Definition psq (a : poly) : poly := psq_from a (pdbl a).
Definition shift6 (a : poly) : poly := Nil :: Nil :: Nil :: Nil :: Nil :: Nil :: a.
(** X^12 = 18 X^6 - 82 and X^18 = 242 X^6 - 1476: the terms with a plus and those with a minus *)
Definition red_pos (c : poly) : poly :=
  padd (firstn 12 c) (shift6 (padd (mul_row 0x12%num (firstn 6 (skipn 12 c))) (mul_row 0xf2%num (skipn 18 c)))).
Definition red_neg (c : poly) : poly := padd (mul_row 0x52%num (firstn 6 (skipn 12 c))) (mul_row 0x5c4%num (skipn 18 c)).
Fixpoint peq (a b : poly) : bool :=
  match a, b with
  | [], _ => forallb is_zero b
  | _, [] => forallb is_zero a
  | x :: a, y :: b => if eqn x y then peq a b else false
  end.
(** The prime p of GfP. *)
Definition hexP : num := 0x30644e72e131a029b85045b68181585d97816a916871ca8d3c208c16d87cfd47%num.
Definition eqm (c d : poly) (q : poly * poly) : bool :=
  peq (padd (padd (red_pos c) (red_neg d)) (mul_row hexP (snd q))) (padd (padd (red_pos d) (red_neg c)) (mul_row hexP (fst q))).
(** a with omega replaced by the element whose powers are phis *)
Fixpoint plin (a : poly) (phis : list poly) : poly :=
  match a, phis with
  | x :: a, f :: phis => padd (mul_row x f) (plin a phis)
  | _, _ => []
  end.

Section Ev.
Variable R : cring.
Variable w : R.
Variable e : Z -> R.
Hypothesis e_add : forall a b, e (a + b) =! e a +! e b.
Hypothesis e_mul : forall a b, e (a * b) =! e a *! e b.
Hypothesis e_1 : e 1 =! c1.
Hypothesis e_P : e (val hexP) =! c0.
Hypothesis w_12 : w *! w *! w *! w *! w *! w *! (w *! w *! w *! w *! w *! w) =! e 18 *! (w *! w *! w *! w *! w *! w) -! e 82.
Add Ring Rr : (c_ring R) (setoid (c_equiv R) (c_ext R)).

Fixpoint evz (l : list Z) : R := match l with [] => c0 | a :: l => e a +! w *! evz l end.
Definition ev (l : poly) : R := evz (map val l).

Lemma e_0 : e 0 =! c0.
Proof. assert (H := e_add 0 0). rewrite Z.add_0_l in H. transitivity (e 0 +! e 0 -! e 0); [ring|]. rewrite <- H. ring. Qed.
Lemma ev_nil : ev [] = c0. Proof. reflexivity. Qed.
Lemma ev_cons x a : ev (x :: a) = e (val x) +! w *! ev a. Proof. reflexivity. Qed.
Lemma ev_zero a : forallb is_zero a = true -> ev a =! c0.
Proof.
  induction a as [|x a IH]; cbn [forallb]; intros H; [reflexivity|]. apply andb_true_iff in H. destruct H as [H1 H2].
  rewrite ev_cons, (IH H2), (is_zero_ok _ H1), e_0. ring.
Qed.
Lemma ev_padd a : forall b, ev (padd a b) =! ev a +! ev b.
Proof.
  induction a as [|x a IH]; intros [|y b]; cbn [padd]; rewrite ?ev_nil; try ring.
  rewrite !ev_cons, val_add0, e_add, IH. ring.
Qed.
Lemma ev_pdbl a : ev (pdbl a) =! ev a +! ev a.
Proof.
  induction a as [|x a IH]; cbn [pdbl map]; [rewrite ev_nil; ring|]. change (map (fun x => add0 x x) a) with (pdbl a).
  rewrite !ev_cons, val_add0, e_add, IH. ring.
Qed.
Lemma ev_row x b : ev (mul_row x b) =! e (val x) *! ev b.
Proof.
  unfold ev. rewrite mul_row_ok. induction b as [|y b IH]; cbn [map evz]; [ring|]. rewrite IH, e_mul. ring.
Qed.
Lemma ev_row' x b : ev (match x with Nil => [] | _ => mul_row x b end) =! e (val x) *! ev b.
Proof. destruct x; try apply ev_row. cbn [val]. rewrite ev_nil, e_0. ring. Qed.
Lemma val_Nil : e (val Nil) =! c0. Proof. exact e_0. Qed.
Lemma ev_pmul a b : ev (pmul a b) =! ev a *! ev b.
Proof.
  induction a as [|x a IH]; cbn [pmul]; [rewrite ev_nil; ring|].
  rewrite ev_padd, ev_row', !ev_cons, val_Nil, IH. ring.
Qed.
Lemma ev_psq_from a : ev (psq_from a (pdbl a)) =! ev a *! ev a.
Proof.
  induction a as [|x a IH]; cbn [psq_from pdbl map]; [rewrite ev_nil; ring|]. change (map (fun x => add0 x x) a) with (pdbl a).
  rewrite ev_padd, ev_row', !ev_cons, val_Nil, IH, ev_pdbl. ring.
Qed.
Lemma ev_psq a : ev (psq a) =! ev a *! ev a.
Proof. apply ev_psq_from. Qed.
Fixpoint wn (n : nat) : R := match n with O => c1 | S n => w *! wn n end.
Lemma ev_split n : forall a, ev a =! ev (firstn n a) +! wn n *! ev (skipn n a).
Proof.
  induction n as [|n IH]; intros a; cbn [firstn skipn wn]; [rewrite ev_nil; ring|].
  destruct a as [|x a]; [rewrite ev_nil; ring|]. rewrite !ev_cons, (IH a). ring.
Qed.
Lemma skipn_skipn n m (a : poly) : skipn n (skipn m a) = skipn (m + n) a.
Proof. revert a. induction m as [|m IH]; intros a; [reflexivity|]. destruct a as [|x a]; [now rewrite skipn_nil|]. apply IH. Qed.
Lemma ev_shift6 a : ev (shift6 a) =! wn 6 *! ev a.
Proof. unfold shift6. rewrite !ev_cons, !val_Nil. cbn [wn]. ring. Qed.
Lemma e_18 : e 18 *! e 18 =! e 242 +! e 82.
Proof. rewrite <- e_mul, <- e_add. reflexivity. Qed.
Lemma e_1476 : e 18 *! e 82 =! e 1476.
Proof. rewrite <- e_mul. reflexivity. Qed.
Lemma alg_red (w6 l h g a b c d : R) : w6 *! w6 =! a *! w6 -! b -> a *! a =! c +! b -> a *! b =! d ->
  l +! w6 *! w6 *! (h +! w6 *! g) =! l +! w6 *! (a *! h +! c *! g) -! (b *! h +! d *! g).
Proof.
  intros H C D. transitivity (l +! w6 *! w6 *! h +! w6 *! (w6 *! w6) *! g); [ring|]. rewrite H.
  transitivity (l +! (a *! w6 -! b) *! h +! (a *! (w6 *! w6) -! b *! w6) *! g); [ring|]. rewrite H.
  transitivity (l +! w6 *! (a *! h +! (a *! a -! b) *! g) -! (b *! h +! a *! b *! g)); [ring|]. rewrite C, D. ring.
Qed.
Lemma wn_6 : wn 12 =! wn 6 *! wn 6. Proof. cbn [wn]. ring. Qed.
Lemma wn_12 : wn 6 *! wn 6 =! e 18 *! wn 6 -! e 82.
Proof.
  transitivity (w *! w *! w *! w *! w *! w *! (w *! w *! w *! w *! w *! w)); [cbn [wn]; ring|].
  transitivity (e 18 *! (w *! w *! w *! w *! w *! w) -! e 82); [exact w_12|]. cbn [wn]. ring.
Qed.
Lemma ev_red c : ev c =! ev (red_pos c) -! ev (red_neg c).
Proof.
  rewrite (ev_split 12 c), (ev_split 6 (skipn 12 c)), skipn_skipn. unfold red_pos, red_neg. change (12 + 6)%nat with 18%nat.
  rewrite !ev_padd, ev_shift6, ev_padd, !ev_row. rewrite wn_6.
  change (val 0x12%num) with 18. change (val 0xf2%num) with 242. change (val 0x52%num) with 82. change (val 0x5c4%num) with 1476.
  apply alg_red; [exact wn_12|exact e_18|exact e_1476].
Qed.
Lemma peq_ok a : forall b, peq a b = true -> ev a =! ev b.
Proof.
  induction a as [|x a IH]; intros [|y b] H; cbn [peq] in H; try reflexivity.
  - symmetry. now apply ev_zero.
  - now apply ev_zero.
  - destruct (eqn x y) eqn:E; [|discriminate]. rewrite !ev_cons, (eqn_ok _ _ E), (IH _ H). reflexivity.
Qed.
Lemma alg_eqm (a b c d p q z : R) : z =! c0 -> a +! b +! z *! p =! c +! d +! z *! q -> a -! d =! c -! b.
Proof. intros -> H. transitivity (a +! b +! c0 *! p -! b -! d); [ring|]. rewrite H. ring. Qed.
Lemma eqm_ok c d q : eqm c d q = true -> ev c =! ev d.
Proof.
  intros H. apply peq_ok in H. rewrite !ev_padd, !ev_row in H. rewrite (ev_red c), (ev_red d). exact (alg_eqm _ _ _ _ _ _ _ e_P H).
Qed.
Fixpoint eval_at (f : R) (a : poly) : R := match a with [] => c0 | x :: a => e (val x) +! f *! eval_at f a end.
(** phis are the powers of f times k *)
Fixpoint powers (k f : R) (phis : list poly) : Prop := match phis with [] => True | p :: phis => ev p =! k /\ powers (f *! k) f phis end.
Lemma powers_m k k' f phis : k =! k' -> powers k f phis -> powers k' f phis.
Proof.
  revert k k'. induction phis as [|p phis IH]; intros k k' K H; [exact I|]. destruct H as [A B].
  split; [now rewrite A|]. apply (IH (f *! k)); [now rewrite K|exact B].
Qed.
Lemma plin_ok f a : forall k phis, powers k f phis -> (length a <= length phis)%nat -> ev (plin a phis) =! k *! eval_at f a.
Proof.
  induction a as [|x a IH]; intros k phis H L; cbn [plin eval_at]; [rewrite ev_nil; ring|].
  destruct phis as [|p phis]; [cbn in L; lia|]. destruct H as [A B]. cbn in L.
  rewrite ev_padd, ev_row, (IH _ _ B) by lia. rewrite A. ring.
Qed.
End Ev.

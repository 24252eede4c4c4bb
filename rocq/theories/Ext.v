(** Commutative rings with an equivalence as equality; quadratic and cubic extensions; powers. *)
Require Import ZArith NArith Znumtheory Setoid Morphisms Ring Ring_theory Lia List.
Require Import Verif.Cong.
Import ListNotations.

Record cring := CRing {
  car :> Type;
  c0 : car; c1 : car; cadd : car -> car -> car; cmul : car -> car -> car;
  csub : car -> car -> car; copp : car -> car; ceq : car -> car -> Prop;
  c_equiv : Equivalence ceq;
  c_ext : ring_eq_ext cadd cmul copp ceq;
  c_ring : ring_theory c0 c1 cadd cmul csub copp ceq }.
Arguments c0 {_}. Arguments c1 {_}. Arguments cadd {_}. Arguments cmul {_}. Arguments csub {_}. Arguments copp {_}. Arguments ceq {_}.

Declare Scope ring_scope'.
Notation "a +! b" := (cadd a b) (at level 50, left associativity).
Notation "a -! b" := (csub a b) (at level 50, left associativity).
Notation "a *! b" := (cmul a b) (at level 40, left associativity).
Notation "-! a" := (copp a) (at level 35, right associativity).
Notation "a =! b" := (ceq a b) (at level 70, no associativity).
Notation "a =[ R ]= b" := (@ceq R a b) (at level 70, no associativity).

Global Instance ceq_equiv (R : cring) : Equivalence (@ceq R) := c_equiv R.
Global Instance cadd_morph (R : cring) : Proper (ceq ==> ceq ==> ceq) (@cadd R).
Proof. intros a b H c d H'. apply (Radd_ext (c_ext R)); auto. Qed.
Global Instance cmul_morph (R : cring) : Proper (ceq ==> ceq ==> ceq) (@cmul R).
Proof. intros a b H c d H'. apply (Rmul_ext (c_ext R)); auto. Qed.
Global Instance copp_morph (R : cring) : Proper (ceq ==> ceq) (@copp R).
Proof. intros a b H. apply (Ropp_ext (c_ext R)); auto. Qed.
Global Instance csub_morph (R : cring) : Proper (ceq ==> ceq ==> ceq) (@csub R).
Proof. intros a b H c d H'. rewrite !(Rsub_def (c_ring R)). now rewrite H, H'. Qed.

(** R[t]/(t^2 - c): the pair (x, y) is x t + y. *)
Section Quad.
Variable R : cring.
Add Ring Rr : (c_ring R) (setoid (c_equiv R) (c_ext R)).
Variable c : R.
Definition quad_eq (a b : R * R) : Prop := fst a =! fst b /\ snd a =! snd b.
Definition quad_add (a b : R * R) : R * R := (fst a +! fst b, snd a +! snd b).
Definition quad_sub (a b : R * R) : R * R := (fst a -! fst b, snd a -! snd b).
Definition quad_opp (a : R * R) : R * R := (-! fst a, -! snd a).
Definition quad_mul (a b : R * R) : R * R :=
  (fst a *! snd b +! snd a *! fst b, snd a *! snd b +! c *! (fst a *! fst b)).
Definition quad : cring.
Proof.
  refine (CRing (R * R) (c0, c0) (c0, c1) quad_add quad_mul quad_sub quad_opp quad_eq _ _ _).
  - split; [intros [x y]|intros [x y] [x' y'] [A B]|intros [x y] [x' y'] [x'' y''] [A B] [C D]]; unfold quad_eq in *; cbn in *; split; try reflexivity; try (now symmetry); etransitivity; eauto.
  - split; unfold quad_eq, quad_add, quad_mul, quad_opp.
    + intros [a b] [a' b'] [H1 H2] [d e] [d' e'] [H3 H4]; cbn in *. now rewrite H1, H2, H3, H4.
    + intros [a b] [a' b'] [H1 H2] [d e] [d' e'] [H3 H4]; cbn in *. now rewrite H1, H2, H3, H4.
    + intros [a b] [a' b'] [H1 H2]; cbn in *. now rewrite H1, H2.
  - split; unfold quad_eq, quad_add, quad_sub, quad_mul, quad_opp; cbn; intros; split; ring.
Defined.
(** Constants, and the root. *)
Definition qemb (y : R) : quad := (c0, y).
Definition qroot : quad := (c1, c0).
Lemma qemb_mul a b : qemb (a *! b) =! qemb a *! qemb b.
Proof. cbn. unfold quad_eq, quad_mul; cbn. split; ring. Qed.
Lemma qemb_eq a b : a =! b -> qemb a =! qemb b.
Proof. intros H. split; cbn; auto. reflexivity. Qed.
Lemma qroot_sq : qroot *! qroot =! qemb c.
Proof. cbn. unfold quad_eq, quad_mul; cbn. split; ring. Qed.
Lemma quad_split (a : quad) : a =! qemb (fst a) *! qroot +! qemb (snd a).
Proof. cbn. unfold quad_eq, quad_mul, quad_add; cbn. split; ring. Qed.
End Quad.

(** R[t]/(t^3 - c): the triple (x, y, z) is x t^2 + y t + z. *)
Section Cubic.
Variable R : cring.
Add Ring Rr : (c_ring R) (setoid (c_equiv R) (c_ext R)).
Variable c : R.
Let T := (R * R * R)%type.
Definition pr1 (a : R * R * R) : R := fst (fst a).
Definition pr2 (a : R * R * R) : R := snd (fst a).
Definition pr3 (a : R * R * R) : R := snd a.
Definition cub_eq (a b : T) : Prop := pr1 a =! pr1 b /\ pr2 a =! pr2 b /\ pr3 a =! pr3 b.
Definition cub_add (a b : T) : T := (pr1 a +! pr1 b, pr2 a +! pr2 b, pr3 a +! pr3 b).
Definition cub_sub (a b : T) : T := (pr1 a -! pr1 b, pr2 a -! pr2 b, pr3 a -! pr3 b).
Definition cub_opp (a : T) : T := (-! pr1 a, -! pr2 a, -! pr3 a).
Definition cub_mul (a b : T) : T :=
  (pr1 a *! pr3 b +! pr2 a *! pr2 b +! pr3 a *! pr1 b,
   pr2 a *! pr3 b +! pr3 a *! pr2 b +! c *! (pr1 a *! pr1 b),
   pr3 a *! pr3 b +! c *! (pr1 a *! pr2 b +! pr2 a *! pr1 b)).
Definition cubic : cring.
Proof.
  refine (CRing T (c0, c0, c0) (c0, c0, c1) cub_add cub_mul cub_sub cub_opp cub_eq _ _ _).
  - split; [intros [[x y] z]|intros [[x y] z] [[x' y'] z'] (A & B & C)|intros [[x y] z] [[x' y'] z'] [[x'' y''] z''] (A & B & C) (A' & B' & C')];
      unfold cub_eq, pr1, pr2, pr3 in *; cbn in *; repeat split; try reflexivity; try (now symmetry); etransitivity; eauto.
  - split; unfold cub_eq, cub_add, cub_mul, cub_opp, pr1, pr2, pr3.
    + intros [[a b] e] [[a' b'] e'] (H1 & H2 & H3) [[f g] h] [[f' g'] h'] (H4 & H5 & H6); cbn in *. now rewrite H1, H2, H3, H4, H5, H6.
    + intros [[a b] e] [[a' b'] e'] (H1 & H2 & H3) [[f g] h] [[f' g'] h'] (H4 & H5 & H6); cbn in *. now rewrite H1, H2, H3, H4, H5, H6.
    + intros [[a b] e] [[a' b'] e'] (H1 & H2 & H3); cbn in *. now rewrite H1, H2, H3.
  - split; unfold cub_eq, cub_add, cub_sub, cub_mul, cub_opp, pr1, pr2, pr3; cbn; intros; repeat split; ring.
Defined.
Definition cemb (z : R) : cubic := (c0, c0, z).
Definition croot : cubic := (c0, c1, c0).
Lemma cemb_mul a b : cemb (a *! b) =! cemb a *! cemb b.
Proof. cbn. unfold cub_eq, cub_mul, pr1, pr2, pr3; cbn. repeat split; ring. Qed.
Lemma cemb_eq a b : a =! b -> cemb a =! cemb b.
Proof. intros H. split; [|split]; cbn; auto; reflexivity. Qed.
Lemma croot_cube : croot *! croot *! croot =! cemb c.
Proof. cbn. unfold cub_eq, cub_mul, pr1, pr2, pr3; cbn. repeat split; ring. Qed.
Lemma cub_split (a : cubic) : a =! cemb (pr1 a) *! (croot *! croot) +! cemb (pr2 a) *! croot +! cemb (pr3 a).
Proof. cbn. unfold cub_eq, cub_mul, cub_add, pr1, pr2, pr3; cbn. repeat split; ring. Qed.
End Cubic.

(** Z modulo p. *)
Section Zmod.
Variable p : Z.
Open Scope Z_scope.
Definition zmod : cring.
Proof.
  refine (CRing Z 0 1 Z.add Z.mul Z.sub Z.opp (cong p) _ _ _).
  - split; repeat intro; rewrite ?H, ?H0; reflexivity.
  - split; intros; apply cong_eq; ring.
Defined.
End Zmod.

(** Powers. *)
Section Pow.
Variable R : cring.
Add Ring Rr : (c_ring R) (setoid (c_equiv R) (c_ext R)).
Definition cpow (a : R) (n : N) : R := N.iter n (cmul a) c1.
Lemma cpow_0 a : cpow a 0 = c1.
Proof. reflexivity. Qed.
Lemma cpow_succ a n : cpow a (N.succ n) = a *! cpow a n.
Proof. unfold cpow. now rewrite N.iter_succ. Qed.
Global Instance cpow_morph : Proper (ceq ==> eq ==> ceq) cpow.
Proof.
  intros a b H n m <-. induction n as [|n IH] using N.peano_ind; [reflexivity|]. rewrite !cpow_succ. now rewrite IH, H.
Qed.
Lemma cpow_add a n m : cpow a (n + m) =! cpow a n *! cpow a m.
Proof.
  induction n as [|n IH] using N.peano_ind; [rewrite N.add_0_l, cpow_0; ring|].
  rewrite N.add_succ_l, !cpow_succ, IH. ring.
Qed.
Lemma cpow_1 a : cpow a 1 =! a.
Proof. change 1%N with (N.succ 0). rewrite cpow_succ, cpow_0. ring. Qed.
Lemma cpow_one n : cpow c1 n =! c1.
Proof. induction n as [|n IH] using N.peano_ind; [reflexivity|]. rewrite cpow_succ, IH. ring. Qed.
Lemma cpow_zero n : (n <> 0)%N -> cpow c0 n =! c0.
Proof. destruct n as [|n] using N.peano_ind; [congruence|]. intros _. rewrite cpow_succ. ring. Qed.
Lemma cpow_mul a n m : cpow a (n * m) =! cpow (cpow a n) m.
Proof.
  induction m as [|m IH] using N.peano_ind; [rewrite N.mul_0_r; reflexivity|].
  rewrite N.mul_succ_r, N.add_comm, cpow_add, cpow_succ, IH. reflexivity.
Qed.
Lemma cpow_distr a b n : cpow (a *! b) n =! cpow a n *! cpow b n.
Proof.
  induction n as [|n IH] using N.peano_ind; [rewrite !cpow_0; ring|]. rewrite !cpow_succ, IH. ring.
Qed.
Lemma cpow_2 a : cpow a 2 =! a *! a.
Proof. change 2%N with (1 + 1)%N. now rewrite cpow_add, !cpow_1. Qed.

(** n times a, and Newton's binomial theorem. *)
Fixpoint times (n : nat) (a : R) : R := match n with O => c0 | S n' => a +! times n' a end.
Global Instance times_morph : Proper (eq ==> ceq ==> ceq) times.
Proof. intros n m <- a b H. induction n as [|n IH]; cbn; [reflexivity|]. now rewrite IH, H. Qed.
Lemma times_add n m a : times (n + m) a =! times n a +! times m a.
Proof. induction n as [|n IH]; cbn [times Nat.add]; [ring|]. rewrite IH. ring. Qed.
Lemma times_mul n m a : times (n * m) a =! times n (times m a).
Proof. induction n as [|n IH]; cbn [times Nat.mul]; [reflexivity|]. now rewrite times_add, IH. Qed.
Lemma times_cmul n a b : times n a *! b =! times n (a *! b).
Proof. induction n as [|n IH]; cbn [times]; [ring|]. rewrite <- IH. ring. Qed.
Lemma times_plus n a b : times n (a +! b) =! times n a +! times n b.
Proof. induction n as [|n IH]; cbn [times]; [ring|]. rewrite IH. ring. Qed.

Fixpoint binom (n k : nat) : nat :=
  match n, k with
  | _, O => 1
  | O, S _ => 0
  | S n', S k' => binom n' k' + binom n' k
  end.
Lemma binom_0 n : binom n 0 = 1%nat. Proof. now destruct n. Qed.
Lemma binom_gt n k : (n < k)%nat -> binom n k = 0%nat.
Proof. revert k. induction n as [|n IH]; intros [|k] H; cbn; try lia. rewrite !IH; lia. Qed.
Lemma binom_n n : binom n n = 1%nat.
Proof. induction n as [|n IH]; cbn; auto. rewrite IH, binom_gt; lia. Qed.
Lemma binom_step n k : (S k * binom (S n) (S k) = S n * binom n k)%nat.
Proof.
  revert k. induction n as [|n IH]; intros k.
  - destruct k; cbn; lia.
  - destruct k as [|k].
    + cbn [binom]. rewrite ?binom_0. specialize (IH 0%nat). cbn [binom] in IH. rewrite ?binom_0 in *. lia.
    + change (binom (S (S n)) (S (S k))) with (binom (S n) (S k) + binom (S n) (S (S k)))%nat.
      assert (A := IH k). assert (B := IH (S k)). cbn [binom] in *. nia.
Qed.
Lemma binom_prime p k : prime (Z.of_nat p) -> (0 < k < p)%nat -> exists m, binom p k = (m * p)%nat.
Proof.
  intros Pp [K1 K2]. destruct p as [|p]; [lia|]. destruct k as [|k]; [lia|].
  assert (E := binom_step p k).
  assert (D : (Z.of_nat (S p) | Z.of_nat (S k) * Z.of_nat (binom (S p) (S k)))%Z).
  { exists (Z.of_nat (binom p k)). rewrite <- !Nat2Z.inj_mul, E. lia. }
  apply prime_mult in D; auto. destruct D as [[j D]|[j D]].
  - assert (0 < j)%Z by nia. nia.
  - exists (Z.to_nat j). assert (0 <= j)%Z by nia. apply Nat2Z.inj. rewrite Nat2Z.inj_mul, Z2Nat.id; auto.
Qed.

Definition pn (a : R) (n : nat) : R := cpow a (N.of_nat n).
Lemma pn_S a n : pn a (S n) = a *! pn a n.
Proof. unfold pn. now rewrite Nat2N.inj_succ, cpow_succ. Qed.
Fixpoint csum (n : nat) (f : nat -> R) : R := match n with O => c0 | S n' => csum n' f +! f n' end.
Lemma csum_ext n f g : (forall k, (k < n)%nat -> f k =! g k) -> csum n f =! csum n g.
Proof. induction n as [|n IH]; intros H; cbn; [reflexivity|]. now rewrite IH, (H n) by auto. Qed.
Lemma csum_plus n f g : csum n (fun k => f k +! g k) =! csum n f +! csum n g.
Proof. induction n as [|n IH]; cbn; [ring|]. rewrite IH. ring. Qed.
Lemma csum_scale n a f : a *! csum n f =! csum n (fun k => a *! f k).
Proof. induction n as [|n IH]; cbn; [ring|]. rewrite <- IH. ring. Qed.
Lemma csum_shift n f : csum (S n) f =! f 0%nat +! csum n (fun k => f (S k)).
Proof. induction n as [|n IH]; [cbn; ring|]. change (csum (S (S n)) f) with (csum (S n) f +! f (S n)). rewrite IH. cbn. ring. Qed.
Lemma csum_0 n f : (forall k, (k < n)%nat -> f k =! c0) -> csum n f =! c0.
Proof. intros H. induction n as [|n IH]; cbn; [reflexivity|]. rewrite IH, (H n) by auto. ring. Qed.

Lemma binomial a b n : pn (a +! b) n =! csum (S n) (fun k => times (binom n k) (pn a k *! pn b (n - k))).
Proof.
  induction n as [|n IH].
  - cbn [csum times binom Nat.sub]. unfold pn. cbn [N.of_nat]. rewrite !cpow_0. ring.
  - rewrite pn_S, IH.
    assert (E : forall f, (a +! b) *! f =! a *! f +! b *! f) by (intros; ring). rewrite E. clear E.
    rewrite csum_shift with (n := S n). rewrite binom_0. cbn [times].
    replace (S n - 0)%nat with (S n) by lia.
    assert (X : csum (S n) (fun k => times (binom (S n) (S k)) (pn a (S k) *! pn b (S n - S k))) =!
       csum (S n) (fun k => times (binom n k) (pn a (S k) *! pn b (n - k))) +!
       csum (S n) (fun k => times (binom n (S k)) (pn a (S k) *! pn b (n - k)))).
    { rewrite <- csum_plus. apply csum_ext. intros k Hk. cbn [binom Nat.sub]. rewrite times_add. reflexivity. }
    rewrite X. clear X.
    assert (X1 : a *! csum (S n) (fun k => times (binom n k) (pn a k *! pn b (n - k))) =!
       csum (S n) (fun k => times (binom n k) (pn a (S k) *! pn b (n - k)))).
    { rewrite csum_scale. apply csum_ext. intros k Hk. rewrite pn_S.
      rewrite (Rmul_comm (c_ring R) a), times_cmul. apply times_morph; auto. ring. }
    rewrite X1. clear X1.
    assert (X2 : b *! csum (S n) (fun k => times (binom n k) (pn a k *! pn b (n - k))) =!
       pn a 0 *! pn b (S n) +! csum (S n) (fun k => times (binom n (S k)) (pn a (S k) *! pn b (n - k)))).
    { rewrite csum_scale. rewrite csum_shift. rewrite binom_0.
      assert (L : csum (S n) (fun k => times (binom n (S k)) (pn a (S k) *! pn b (n - k))) =!
                  csum n (fun k => times (binom n (S k)) (pn a (S k) *! pn b (n - k)))).
      { cbn [csum]. rewrite (binom_gt n (S n)) by lia. cbn [times]. ring. }
      rewrite L. clear L. cbn [times]. replace (n - 0)%nat with n by lia. rewrite (pn_S b n).
      assert (L : csum n (fun k => b *! times (binom n (S k)) (pn a (S k) *! pn b (n - S k))) =!
                  csum n (fun k => times (binom n (S k)) (pn a (S k) *! pn b (n - k)))).
      { apply csum_ext. intros k Hk. rewrite (Rmul_comm (c_ring R) b), times_cmul. apply times_morph; auto.
        replace (n - k)%nat with (S (n - S k)) by lia. rewrite (pn_S b). ring. }
      rewrite L. ring. }
    rewrite X2. ring.
Qed.

(** In characteristic p, p prime, raising to the p-th power is additive. *)
Lemma freshman a b p : prime (Z.of_nat p) -> times p c1 =! c0 -> pn (a +! b) p =! pn a p +! pn b p.
Proof.
  intros Pp Ch. rewrite binomial. assert (Hp : (2 <= p)%nat) by (destruct Pp; lia).
  destruct p as [|p]; [lia|].
  rewrite csum_shift. cbn [csum]. rewrite csum_0.
  - rewrite binom_0, binom_n. cbn [times]. replace (S p - 0)%nat with (S p) by lia. replace (S p - S p)%nat with 0%nat by lia.
    unfold pn at 1 4. cbn [N.of_nat]. rewrite !cpow_0. ring.
  - intros k Hk. destruct (binom_prime (S p) (S k) Pp ltac:(lia)) as [m E]. rewrite E.
    set (x := pn a (S k) *! pn b (S p - S k)).
    rewrite times_mul. assert (Z0 : times (S p) x =! c0).
    { transitivity (times (S p) c1 *! x).
      - rewrite times_cmul. apply times_morph; auto. ring.
      - rewrite Ch. ring. }
    rewrite Z0. clear. induction m as [|m IH]; cbn; [reflexivity|]. rewrite IH. ring.
Qed.
End Pow.
Arguments cpow {_}. Arguments times {_}.

(** Quadratic and cubic extensions of fields; powers in extensions. *)
Require Import ZArith NArith Znumtheory Setoid Morphisms Ring Ring_theory Lia.
Require Import Verif.Cong Verif.Ext Verif.TowerSpec Verif.TowerProofs.
Open Scope Z_scope.

Section Field.
Variable R : cring.
Add Ring Rr : (c_ring R) (setoid (c_equiv R) (c_ext R)).
Hypothesis FR : is_field R.
Lemma f_integral (a b : R) : a *! b =! c0 -> a =! c0 \/ b =! c0.
Proof.
  intros H. destruct (proj2 FR a) as [Z|[a' Ha]]; auto. right.
  transitivity (a *! a' *! b); [rewrite Ha; ring|]. transitivity (a' *! (a *! b)); [ring|]. rewrite H. ring.
Qed.
Lemma f_cancel (a b c : R) : ~ a =! c0 -> a *! b =! a *! c -> b =! c.
Proof.
  intros N H. destruct (proj2 FR a) as [Z|[a' Ha]]; [contradiction|].
  transitivity (a *! a' *! b); [rewrite Ha; ring|]. transitivity (a' *! (a *! b)); [ring|]. rewrite H.
  transitivity (a *! a' *! c); [ring|]. rewrite Ha. ring.
Qed.
Lemma f_unit_nz (a b : R) : a *! b =! c1 -> ~ a =! c0.
Proof. intros H Z. apply (proj1 FR). rewrite <- H, Z. ring. Qed.
Lemma f_sub (a b : R) : a -! b =! c0 -> a =! b.
Proof. intros H. transitivity (a -! b +! b); [ring|]. rewrite H. ring. Qed.
Lemma f_pow_nz (a : R) n : ~ a =! c0 -> ~ cpow a n =! c0.
Proof.
  intros N. induction n as [|n IH] using N.peano_ind; [exact (proj1 FR)|]. rewrite cpow_succ. intros H.
  apply f_integral in H. tauto.
Qed.

Lemma qnorm_zero c (a : quad R c) : (forall t : R, ~ t *! t =! c) -> qnorm R c a =! c0 -> a =! c0.
Proof.
  intros NS H. unfold qnorm in H. destruct a as [x y]. cbn [fst snd] in *.
  assert (X : x =! c0).
  { destruct (proj2 FR x) as [Z|[x' Hx]]; auto. exfalso. apply (NS (y *! x')).
    apply f_sub in H. transitivity (y *! y *! x' *! x'); [ring|]. rewrite H. transitivity (c *! (x *! x') *! (x *! x')); [ring|]. rewrite Hx. ring. }
  split; cbn [fst snd]; [exact X|]. rewrite X in H.
  assert (Y : y *! y =! c0) by (rewrite <- H; ring). destruct (f_integral _ _ Y); auto.
Qed.
Lemma quad_field c : (forall t : R, ~ t *! t =! c) -> is_field (quad R c).
Proof.
  intros NS. split; [intros [_ H]; exact (proj1 FR H)|]. intros a.
  destruct (proj2 FR (qnorm R c a)) as [Z|[n' Hn]]; [left; now apply qnorm_zero|].
  right. exists (((-! fst a, snd a) : quad R c) *! qemb R c n').
  rewrite (Rmul_assoc (c_ring (quad R c))), qnorm_ok, <- qemb_mul. apply qemb_eq. exact Hn.
Qed.

Lemma cnorm_zero x (a : cubic R x) : (forall t : R, ~ t *! t *! t =! x) -> cnorm R x a =! c0 -> a =! c0.
Proof.
  intros NC H. destruct a as [[a1 y] z]. unfold cnorm, pr1, pr2, pr3 in H. cbn [fst snd] in H.
  destruct (proj2 FR a1) as [Z1|[u Hu]].
  - assert (H' : z *! z *! z +! x *! (y *! y *! y) =! c0).
    { rewrite <- H, Z1. ring. }
    destruct (proj2 FR y) as [Zy|[v Hv]].
    + assert (Zz : z *! z *! z =! c0) by (rewrite <- H', Zy; ring).
      apply f_integral in Zz. destruct Zz as [Zz|Zz]; [apply f_integral in Zz|];
        (split; [|split]); unfold pr1, pr2, pr3; cbn [fst snd]; auto; destruct Zz; auto.
    + exfalso. apply (NC (-! (z *! v))). transitivity (-! (z *! z *! z +! x *! (y *! y *! y)) *! v *! v *! v +! x *! (y *! v) *! (y *! v) *! (y *! v)); [ring|].
      rewrite H', Hv. ring.
  - exfalso. set (b := y *! u) in *. set (c := z *! u) in *.
    assert (M : c *! c *! c +! x *! (b *! b *! b) +! x *! x -! (c1 +! c1 +! c1) *! (x *! (b *! c)) =! c0).
    { transitivity ((z *! z *! z +! x *! (y *! y *! y) +! x *! x *! (a1 *! a1 *! a1) -! (c1 +! c1 +! c1) *! (x *! (a1 *! y *! z))) *! (u *! u *! u)); [|rewrite H; ring].
      unfold b, c. transitivity (z *! u *! (z *! u) *! (z *! u) +! x *! (y *! u *! (y *! u) *! (y *! u)) +! x *! x *! (a1 *! u) *! (a1 *! u) *! (a1 *! u)
        -! (c1 +! c1 +! c1) *! (x *! (a1 *! u *! (y *! u *! (z *! u))))); [rewrite Hu; ring|ring]. }
    destruct (proj2 FR (b *! b -! c)) as [R1|[w Hw]].
    + apply f_sub in R1. rewrite <- R1 in M.
      assert (S : (b *! b *! b -! x) *! (b *! b *! b -! x) =! c0) by (rewrite <- M; ring).
      apply f_integral in S. apply (NC b). apply f_sub. tauto.
    + set (r0 := b *! c -! x). set (t := -! (r0 *! w)). apply (NC t).
      assert (A : t *! t +! b *! t +! c =! c0).
      { transitivity ((c *! c *! c +! x *! (b *! b *! b) +! x *! x -! (c1 +! c1 +! c1) *! (x *! (b *! c))) *! (w *! w)
          +! (c1 -! (b *! b -! c) *! w) *! (c *! (c1 +! (b *! b -! c) *! w) -! b *! r0 *! w)).
        - unfold t, r0. ring.
        - rewrite M, Hw. ring. }
      apply f_sub. transitivity ((t -! b) *! (t *! t +! b *! t +! c) +! r0 *! (c1 -! (b *! b -! c) *! w)); [unfold t, r0; ring|].
      rewrite A, Hw. ring.
Qed.
Lemma cubic_field x : (forall t : R, ~ t *! t *! t =! x) -> is_field (cubic R x).
Proof.
  intros NC. split; [intros (_ & _ & H); exact (proj1 FR H)|]. intros a.
  destruct (proj2 FR (cnorm R x a)) as [Z|[n' Hn]]; [left; now apply cnorm_zero|].
  right. exists (cadj R x a *! cemb R x n').
  rewrite (Rmul_assoc (c_ring (cubic R x))), cadj_ok, <- cemb_mul. apply cemb_eq. exact Hn.
Qed.
End Field.

Section Emb.
Variable R : cring.
Add Ring Rr : (c_ring R) (setoid (c_equiv R) (c_ext R)).
Lemma qemb_pow c (a : R) n : qemb R c (cpow a n) =! cpow (qemb R c a) n.
Proof. induction n as [|n IH] using N.peano_ind; [reflexivity|]. rewrite !cpow_succ, qemb_mul, IH. reflexivity. Qed.
Lemma cemb_pow x (a : R) n : cemb R x (cpow a n) =! cpow (cemb R x a) n.
Proof. induction n as [|n IH] using N.peano_ind; [reflexivity|]. rewrite !cpow_succ, cemb_mul, IH. reflexivity. Qed.
Lemma qemb_times c n : times n (c1 : quad R c) =! qemb R c (times n c1).
Proof.
  induction n as [|n IH]; [reflexivity|]. cbn [times]. rewrite IH. cbn. unfold quad_eq, quad_add; cbn. split; ring.
Qed.
Lemma cemb_times x n : times n (c1 : cubic R x) =! cemb R x (times n c1).
Proof.
  induction n as [|n IH]; [reflexivity|]. cbn [times]. rewrite IH. cbn. unfold cub_eq, cub_add, pr1, pr2, pr3; cbn. repeat split; ring.
Qed.
End Emb.

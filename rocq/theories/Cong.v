(** Specification vocabulary: congruence of integers modulo [q], and the
    setoid machinery to compute with it.  Nothing here models /repo code. *)
Require Import ZArith Znumtheory Lia Setoid Morphisms.
Open Scope Z_scope.

(** [a] and [b] are congruent modulo [q]. *)
Definition cong (q a b : Z) : Prop := (q | a - b).

Notation "a ==[ q ] b" := (cong q a b) (at level 70, no associativity,
  format "a  ==[ q ]  b").

(** [r] is the canonical representative of [a] modulo [q]. *)
Definition canon (q a r : Z) : Prop := 0 <= r < q /\ r ==[q] a.

Section Cong.
Variable q : Z.

Lemma cong_refl a : a ==[q] a.
Proof. exists 0; ring. Qed.
Lemma cong_sym a b : a ==[q] b -> b ==[q] a.
Proof. intros [k H]; exists (-k); lia. Qed.
Lemma cong_trans a b c : a ==[q] b -> b ==[q] c -> a ==[q] c.
Proof. intros [k H] [l H2]; exists (k + l); lia. Qed.
Lemma cong_eq a b : a = b -> a ==[q] b.
Proof. intros ->; apply cong_refl. Qed.

Global Instance cong_equiv : Equivalence (cong q).
Proof. split; [exact cong_refl | exact cong_sym | exact cong_trans]. Qed.

Global Instance cong_add : Proper (cong q ==> cong q ==> cong q) Z.add.
Proof. intros a b [k H] c d [l H2]; exists (k + l); lia. Qed.
Global Instance cong_sub : Proper (cong q ==> cong q ==> cong q) Z.sub.
Proof. intros a b [k H] c d [l H2]; exists (k - l); lia. Qed.
Global Instance cong_opp : Proper (cong q ==> cong q) Z.opp.
Proof. intros a b [k H]; exists (-k); lia. Qed.
Global Instance cong_mul : Proper (cong q ==> cong q ==> cong q) Z.mul.
Proof.
  intros a b [k H] c d [l H2]; exists (k * c + b * l).
  replace (a * c - b * d) with ((a - b) * c + b * (c - d)) by ring.
  rewrite H, H2; ring.
Qed.
Lemma cong_pow a b n : a ==[q] b -> a ^ n ==[q] b ^ n.
Proof.
  intros H. destruct (Z.neg_nonneg_cases n) as [Hn|Hn].
  - rewrite !Z.pow_neg_r by lia; reflexivity.
  - revert n Hn; apply natlike_ind; [reflexivity|].
    intros n Hn IH. rewrite !Z.pow_succ_r by lia. now apply cong_mul.
Qed.

Lemma cong_mod a : a mod q ==[q] a.
Proof.
  destruct (Z.eq_dec q 0) as [->|Hq].
  - rewrite Zmod_0_r; exists 0; ring.
  - exists (- (a / q)). pose proof (Z.div_mod a q Hq). lia.
Qed.

Lemma cong_mod_iff a b : q <> 0 -> (a ==[q] b <-> a mod q = b mod q).
Proof.
  intros Hq; split.
  - intros [k H]. replace a with (b + k * q) by lia. now apply Z_mod_plus_full.
  - intros H. rewrite <- (cong_mod a), <- (cong_mod b), H. reflexivity.
Qed.

Lemma cong_0_iff a : a ==[q] 0 <-> (q | a).
Proof. unfold cong; rewrite Z.sub_0_r; reflexivity. Qed.

Lemma cong_sub_0 a b : a ==[q] b <-> a - b ==[q] 0.
Proof. rewrite cong_0_iff; reflexivity. Qed.

Lemma cong_mul_q_l a : q * a ==[q] 0.
Proof. apply cong_0_iff; exists a; ring. Qed.

Lemma cong_canon_unique a b : 0 <= a < q -> 0 <= b < q -> a ==[q] b -> a = b.
Proof.
  intros Ha Hb H. apply cong_mod_iff in H; [|lia].
  now rewrite !Z.mod_small in H by lia.
Qed.

Lemma canon_mod a : 0 < q -> canon q a (a mod q).
Proof. intros; split; [now apply Z.mod_pos_bound | apply cong_mod]. Qed.

Lemma canon_unique a r1 r2 : canon q a r1 -> canon q a r2 -> r1 = r2.
Proof.
  intros [H1 E1] [H2 E2]. apply cong_canon_unique; auto.
  rewrite E1, E2; reflexivity.
Qed.

Hypothesis Pq : prime q.

Lemma cong_integral a b : a * b ==[q] 0 -> a ==[q] 0 \/ b ==[q] 0.
Proof. rewrite !cong_0_iff. now apply prime_mult. Qed.

Lemma cong_cancel a b c : ~ a ==[q] 0 -> a * b ==[q] a * c -> b ==[q] c.
Proof.
  intros Ha H. apply cong_sub_0. apply cong_sub_0 in H.
  replace (a * b - a * c) with (a * (b - c)) in H by ring.
  destruct (cong_integral _ _ H); tauto.
Qed.

Lemma cong_unit a : ~ a ==[q] 0 -> exists b, a * b ==[q] 1.
Proof.
  intros Ha. rewrite cong_0_iff in Ha.
  assert (Hr : rel_prime q a) by (now apply prime_rel_prime).
  apply rel_prime_bezout in Hr. destruct Hr as [u v H].
  exists v. exists (- u). lia.
Qed.

Lemma cong_1_0 : ~ 1 ==[q] 0.
Proof.
  rewrite cong_0_iff. intros H. apply Z.divide_1_r_nonneg in H; destruct Pq; lia.
Qed.

Lemma cong_mul_nz a b : ~ a ==[q] 0 -> ~ b ==[q] 0 -> ~ a * b ==[q] 0.
Proof. intros Ha Hb H; destruct (cong_integral _ _ H); auto. Qed.

Lemma cong_pow_nz a n : 0 <= n -> ~ a ==[q] 0 -> ~ a ^ n ==[q] 0.
Proof.
  intros Hn Ha. revert n Hn; apply natlike_ind.
  - rewrite Z.pow_0_r. apply cong_1_0.
  - intros n Hn IH. rewrite Z.pow_succ_r by lia. now apply cong_mul_nz.
Qed.
End Cong.

#[export] Hint Resolve cong_refl : core.

Lemma cong_dec q a b : {a ==[q] b} + {~ a ==[q] b}.
Proof. apply Zdivide_dec. Qed.

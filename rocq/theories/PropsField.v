(** Properties C01-C07: the finite field (utils/finiteField.go). *)
Require Import ZArith Znumtheory Lia Bool Ascii String List.
Require Import Verif.Cong Verif.FqModel Verif.FqSpec Verif.FqProofs Verif.Pocklington.
Import ListNotations.
Open Scope Z_scope.

(** C01. Every ring operation returns the representative in [0,q) of the exact result. *)
Theorem C01_ring_operations_canonical : forall q a b : Z, 0 < q ->
  canon q (a + b) (fadd q a b) /\ canon q (a - b) (fsub q a b) /\
  canon q (a * b) (fmul q a b) /\ canon q (- a) (fneg q a) /\
  canon q (2 * a) (fdouble q a) /\ canon q (a ^ 2) (fsquare q a) /\
  canon q (a * b) (fmul_scalar q a b).
Proof. exact ring_ops_canon. Qed.
Print Assumptions C01_ring_operations_canonical.

Example C01_case : fsub 7 3 100 = 1 /\ fmul 7 (-3) 100 = 1 /\ fneg 7 15 = 6.
Proof. vm_compute; auto. Qed.

(** C02. *)
Theorem C02_inverse : forall q a, prime q -> ~ (q | a) ->
  exists i, finv q a = Some i /\ 0 <= i < q /\ a * i ==[q] 1.
Proof. intros q a Pq Ha. apply finv_prime; auto. now rewrite cong_0_iff. Qed.
Print Assumptions C02_inverse.

Theorem C02_division : forall q a b, prime q -> ~ (q | b) ->
  exists d, fdiv q a b = Some d /\ 0 <= d < q /\ d * b ==[q] a.
Proof. intros q a b Pq Hb. apply fdiv_prime; auto. now rewrite cong_0_iff. Qed.
Print Assumptions C02_division.

Theorem C02_zero_divisor : forall q a, finv q 0 = Some 0 /\ fdiv q a 0 = Some 0.
Proof. intros; split; [apply finv_0 | apply fdiv_0]. Qed.
Print Assumptions C02_zero_divisor.

Theorem C02_multiple_of_q_aborts : forall q a b, prime q -> (q | b) -> b <> 0 ->
  finv q b = None /\ fdiv q a b = None.
Proof. intros; split; [apply finv_multiple | apply fdiv_multiple]; auto; now apply cong_0_iff. Qed.
Print Assumptions C02_multiple_of_q_aborts.

Example C02_case : prime 7 /\ finv 7 3 = Some 5 /\ fdiv 7 4 (-4) = Some 6 /\ fdiv 7 1 14 = None.
Proof. split; [apply trial_check_sound; reflexivity|vm_compute; auto]. Qed.

(** C03. *)
Theorem C03_exp_int : forall q b e, 1 < q -> canon q (b ^ Z.of_N e) (fexp_int q b e).
Proof. exact fexp_int_canon. Qed.
Print Assumptions C03_exp_int.

Theorem C03_exp_small_exponent : forall q b e, 1 < q -> 0 <= e < q -> canon q (b ^ e) (fexp q b e).
Proof. exact fexp_canon. Qed.
Print Assumptions C03_exp_small_exponent.

Theorem C03_exp_any_exponent : forall q b e, 1 < q -> canon q (b ^ (e mod q)) (fexp q b e).
Proof. exact fexp_canon_gen. Qed.
Print Assumptions C03_exp_any_exponent.

Theorem C03_exp_large_exponent_refuted :
  exists q b e, prime q /\ 0 <= e /\ ~ fexp q b e ==[q] b ^ e.
Proof. exact fexp_refuted. Qed.
Print Assumptions C03_exp_large_exponent_refuted.

Example C03_case : fexp 7 3 6 = 1 /\ fexp 7 3 7 = 1 /\ fexp_int 7 3 7 = 3 /\ fexp_int 13 (-2) 5 = 7.
Proof. vm_compute; auto. Qed.

(** C04. *)
Theorem C04_affine : forall q a, 0 < q -> canon q a (faffine q a).
Proof. intros. rewrite faffine_mod by auto. now apply canon_mod. Qed.
Print Assumptions C04_affine.

Theorem C04_copy : forall q a, 0 < q -> canon q a (fcopy q a).
Proof. exact canon_mod. Qed.
Print Assumptions C04_copy.

Theorem C04_equal : forall q a b, 0 < q -> (fequal q a b = true <-> a ==[q] b).
Proof. exact fequal_iff. Qed.
Print Assumptions C04_equal.

Theorem C04_is_zero : forall a, fis_zero a = true <-> a = 0.
Proof. exact fis_zero_iff. Qed.
Print Assumptions C04_is_zero.

Theorem C04_equal_to_zero_but_not_is_zero : forall q k, 0 < q -> k <> 0 ->
  fequal q (k * q) 0 = true /\ fis_zero (k * q) = false.
Proof.
  intros q k Hq Hk; split.
  - apply fequal_iff; auto. apply cong_0_iff. exists k; reflexivity.
  - destruct (fis_zero (k * q)) eqn:E; auto. apply fis_zero_iff in E. nia.
Qed.
Print Assumptions C04_equal_to_zero_but_not_is_zero.

Example C04_case : faffine 7 (-15) = 6 /\ fequal 7 (-15) 20 = true /\ fequal 7 3 4 = false.
Proof. vm_compute; auto. Qed.

(** C05. *)
Theorem C05_eval_poly : forall q v x, v <> [] ->
  exists r, feval_poly q v x = Some r /\ r ==[q] poly_at v x /\
            ((2 <= List.length v)%nat -> 0 < q -> 0 <= r < q).
Proof.
  intros q [|c v] x H; [easy|]. destruct (feval_poly_Some q c v x) as [r E].
  exists r; split; [exact E|split].
  - now apply feval_poly_cong.
  - destruct v as [|d v]; [cbn; lia|]. intros _ Hq. eapply feval_poly_range; eauto.
Qed.
Print Assumptions C05_eval_poly.

Theorem C05_eval_poly_empty_aborts : forall q x, feval_poly q [] x = None.
Proof. reflexivity. Qed.
Print Assumptions C05_eval_poly_empty_aborts.

Example C05_case : feval_poly 7 [3; 0; 5; 1] 10 = Some 5 /\ feval_poly 7 [30] 10 = Some 30 /\
  poly_at [3; 0; 5; 1] 10 = 1503.
Proof. vm_compute; auto. Qed.

(** C06. *)
Theorem C06_scalar_product : forall q l r, 1 < q -> List.length l = List.length r ->
  exists s, fscalar_product q l r = Some s /\ canon q (dot l r) s.
Proof. intros q l r Hq; apply (fscalar_product_spec q l r Hq). Qed.
Print Assumptions C06_scalar_product.

Theorem C06_scalar_product_length_mismatch : forall q l r, 1 < q ->
  List.length l <> List.length r -> fscalar_product q l r = None.
Proof. intros q l r Hq; apply (fscalar_product_spec q l r Hq). Qed.
Print Assumptions C06_scalar_product_length_mismatch.

Example C06_case : fscalar_product 7 [1; 2; 30] [4; -5; 6] = Some 6 /\ dot [1; 2; 30] [4; -5; 6] = 174
  /\ fscalar_product 7 [1; 2] [4] = None.
Proof. vm_compute; auto. Qed.

(** C07. *)
Theorem C07_rand_in_field : forall q bs r, 0 < q -> Forall (fun b => 0 <= b < 256) bs ->
  frand q bs = Some r -> 0 <= r < q /\ r < 2 ^ (8 * (bitlen q / 8 - 1)).
Proof. exact frand_range. Qed.
Print Assumptions C07_rand_in_field.

Theorem C07_rand_never_above_2_240 : forall bs r, Forall (fun b => 0 <= b < 256) bs ->
  frand Order bs = Some r -> 0 <= r < 2 ^ 240.
Proof. exact frand_Order. Qed.
Print Assumptions C07_rand_never_above_2_240.

(** So the field element 2^240 (and every larger one) is never drawn. *)
Theorem C07_rand_covers_field_refuted : exists x, 0 <= x < Order /\
  forall bs, Forall (fun b => 0 <= b < 256) bs -> frand Order bs <> Some x.
Proof.
  exists (2 ^ 240). split; [vm_compute; split; [discriminate|reflexivity]|].
  intros bs HF E. apply frand_Order in E; auto. lia.
Qed.
Print Assumptions C07_rand_covers_field_refuted.

Example C07_case : frand Order (repeat 255 30) = Some (2 ^ 240 - 1) /\ frand Order (repeat 1 31) = None.
Proof. vm_compute; auto. Qed.

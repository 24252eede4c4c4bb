(** Properties C08-C14: dense polynomials (utils/polynomialField.go). *)
Require Import ZArith Znumtheory Lia Bool List.
Require Import Verif.Cong Verif.FqModel Verif.FqSpec Verif.FqProofs Verif.Pocklington
  Verif.PolyModel Verif.PolyProofs Verif.InterpProofs.
Import ListNotations.
Open Scope Z_scope.

(** C08. Coefficientwise. *)
Theorem C08_add : forall q a b, 0 < q ->
  length (padd q a b) = Nat.max (length a) (length b) /\ reduced q (padd q a b) /\
  forall k, coef (padd q a b) k ==[q] coef a k + coef b k.
Proof. intros; repeat split; auto using padd_length, padd_reduced, padd_coef. Qed.
Print Assumptions C08_add.

Theorem C08_sub : forall q a b, 0 < q ->
  length (psub q a b) = Nat.max (length a) (length b) /\ reduced q (psub q a b) /\
  forall k, coef (psub q a b) k ==[q] coef a k - coef b k.
Proof. intros; repeat split; auto using psub_length, psub_reduced, psub_coef. Qed.
Print Assumptions C08_sub.

Theorem C08_mul_scalar : forall q p w,
  length (pmul_scalar q p w) = length p /\
  forall k, coef (pmul_scalar q p w) k ==[q] w * coef p k.
Proof. intros; split; auto using pmul_scalar_length, pmul_scalar_coef. Qed.
Print Assumptions C08_mul_scalar.

Theorem C08_mul : forall q a b, 0 < q -> a <> [] \/ b <> [] ->
  exists p, pmul_checked q a b = Some p /\
    length p = (length a + length b - 1)%nat /\ reduced q p /\
    forall k, coef p k ==[q] conv a b k.
Proof.
  intros q a b Hq H. exists (pmul q a b). repeat split; auto using pmul_length, pmul_reduced, pmul_coef.
  destruct a, b; auto. destruct H; easy.
Qed.
Print Assumptions C08_mul.

Theorem C08_mul_both_empty_aborts : forall q, pmul_checked q [] [] = None.
Proof. reflexivity. Qed.
Print Assumptions C08_mul_both_empty_aborts.

(** Evaluation is a ring homomorphism. *)
Theorem C08_evaluation : forall q a b w x,
  poly_at (padd q a b) x ==[q] poly_at a x + poly_at b x /\
  poly_at (psub q a b) x ==[q] poly_at a x - poly_at b x /\
  poly_at (pmul_scalar q a w) x ==[q] w * poly_at a x /\
  poly_at (pmul q a b) x ==[q] poly_at a x * poly_at b x.
Proof. intros; repeat split; auto using padd_eval, psub_eval, pmul_scalar_eval, pmul_eval. Qed.
Print Assumptions C08_evaluation.

(** MulSimple is the coefficientwise product (keeping a's surplus coefficients), not the
    polynomial product its comment announces. *)
Theorem C08_mul_simple_coefficients : forall q a b k, coef (pmul_simple q a b) k ==[q]
  if Nat.ltb k (length b) then coef a k * coef b k else coef a k.
Proof. exact pmul_simple_coef. Qed.
Print Assumptions C08_mul_simple_coefficients.

Theorem C08_mul_simple_is_product_refuted : exists q a b x, prime q /\
  ~ poly_at (pmul_simple q a b) x ==[q] poly_at a x * poly_at b x.
Proof.
  exists 7, [1; 1], [1; 1], 1. split; [apply trial_check_sound; reflexivity|].
  intros H. apply cong_mod_iff in H; [|lia]. vm_compute in H. discriminate.
Qed.
Print Assumptions C08_mul_simple_is_product_refuted.

Example C08_case : padd 7 [1; 2; 3] [6; 10] = [0; 5; 3] /\ psub 7 [1] [3; 1] = [5; 6] /\
  pmul 7 [1; 2; 3] [5; 0; 1] = [5; 3; 2; 2; 3] /\ conv [1; 2; 3] [5; 0; 1] 2 = 16.
Proof. vm_compute; auto. Qed.

(** C09. *)
Theorem C09_div : forall q a b, prime q -> b <> [] -> ~ (q | last b 0) ->
  (length b <= length a + 1)%nat ->
  exists quo rem, pdiv q a b = Some (quo, rem) /\
    length quo = (length a + 1 - length b)%nat /\ (length rem < length b)%nat /\
    forall k, coef a k ==[q] conv b quo k + coef rem k.
Proof.
  intros q a b Pq Hb Hl HL. destruct (pdiv_spec q Pq b Hb) with (a := a) as [quo [rem [E [L1 [L2 [_ C]]]]]]; auto.
  - now rewrite cong_0_iff.
  - exists quo, rem; auto.
Qed.
Print Assumptions C09_div.

Theorem C09_div_evaluation : forall q a b quo rem x, prime q -> b <> [] -> ~ (q | last b 0) ->
  (length b <= length a + 1)%nat -> pdiv q a b = Some (quo, rem) ->
  poly_at a x ==[q] poly_at b x * poly_at quo x + poly_at rem x.
Proof. intros. apply pdiv_eval; auto. now rewrite cong_0_iff. Qed.
Print Assumptions C09_div_evaluation.

Theorem C09_div_aborts : forall q a b, (length a + 1 < length b)%nat \/ b = [] -> pdiv q a b = None.
Proof. intros q a b [H| ->]; [now apply pdiv_panic | apply pdiv_empty]. Qed.
Print Assumptions C09_div_aborts.

(** Without the condition on the last coefficient the identity fails. *)
Theorem C09_div_zero_leading_coefficient_refuted :
  exists q a b quo rem x, prime q /\ b <> [] /\ (length b <= length a + 1)%nat /\
    pdiv q a b = Some (quo, rem) /\
    ~ poly_at a x ==[q] poly_at b x * poly_at quo x + poly_at rem x.
Proof.
  exists 7, [1; 2; 3], [1; 0], [0; 0], [1], 1.
  split; [apply trial_check_sound; reflexivity|]. repeat split; try easy; try (cbn; lia).
  intros H. apply cong_mod_iff in H; [|lia]. vm_compute in H. discriminate.
Qed.
Print Assumptions C09_div_zero_leading_coefficient_refuted.

Example C09_case : pdiv 7 [6; 0; 1] [1; 1] = Some ([6; 1], [0]) /\ pdiv 7 [1] [1; 1] = Some ([], [1]).
Proof. vm_compute; auto. Qed.

(** C10. *)
Theorem C10_domain_value : forall q n x, (1 <= n)%nat ->
  poly_at (domain_poly q n) x ==[q] zprod (map (fun i => x - Z.of_nat i) (seq 0 n)).
Proof. exact domain_eval. Qed.
Print Assumptions C10_domain_value.

Theorem C10_domain_roots : forall q n x, prime q -> (1 <= n)%nat ->
  (poly_at (domain_poly q n) x ==[q] 0 <-> exists i, (i < n)%nat /\ x ==[q] Z.of_nat i).
Proof. exact domain_root_iff. Qed.
Print Assumptions C10_domain_roots.

Theorem C10_domain_monic : forall q n, (1 <= n)%nat ->
  length (domain_poly q n) = S n /\ last (domain_poly q n) 0 ==[q] 1.
Proof. intros; split; [now apply domain_length | apply domain_lead]. Qed.
Print Assumptions C10_domain_monic.

Example C10_case : domain_poly 7 3 = [0; 2; 4; 1].
Proof. vm_compute; auto. Qed.

(** C11. *)
Theorem C11_interpolation : forall q data, prime q -> Z.of_nat (length data) <= q ->
  exists r c, lagrange q [] data = Some (r, c) /\ length r = length data /\
    forall j, (j < length data)%nat -> poly_at r (Z.of_nat j) ==[q] nth j data 0.
Proof.
  intros q data Pq Hn. destruct (lagrange_spec q [] data Pq Hn (cache_ok_nil q)) as [r [c [E [L [_ H]]]]].
  exists r, c; auto.
Qed.
Print Assumptions C11_interpolation.

(** It is the only polynomial with that many coefficients through the points. *)
Theorem C11_interpolation_unique : forall q n a b, prime q -> Z.of_nat n <= q ->
  (length a <= n)%nat -> (length b <= n)%nat ->
  (forall i, (i < n)%nat -> poly_at a (Z.of_nat i) ==[q] poly_at b (Z.of_nat i)) -> peq q a b.
Proof. exact interp_unique. Qed.
Print Assumptions C11_interpolation_unique.

Example C11_case : option_map fst (lagrange 7 [] [3; 0; 12]) = Some [3; 0; 4] /\
  poly_at [3; 0; 4] 2 mod 7 = 12 mod 7.
Proof. vm_compute; auto. Qed.

(** C12. [lag_history q [] hist = Some c]: c is the cache after the calls in hist. *)
Theorem C12_cache_invisible : forall q hist c data, lag_history q [] hist = Some c ->
  option_map fst (lagrange q c data) = option_map fst (lagrange q [] data).
Proof. exact lagrange_history_indep. Qed.
Print Assumptions C12_cache_invisible.

(** Over a prime field no call in a history aborts, so the hypothesis above is met by every
    history of calls with at most q points. *)
Theorem C12_histories_run : forall q hist, prime q ->
  Forall (fun d => Z.of_nat (length d) <= q) hist -> exists c, lag_history q [] hist = Some c.
Proof.
  intros q hist Pq. assert (G : forall hist c, cache_ok q c ->
    Forall (fun d => Z.of_nat (length d) <= q) hist -> exists c', lag_history q c hist = Some c').
  { clear hist. induction hist as [|d hist IH]; intros c Hc HF; cbn [lag_history]; [eauto|].
    inversion HF; subst. destruct (lagrange_spec q c d Pq H1 Hc) as [r [c' [E [_ [Hc' _]]]]].
    rewrite E. now apply IH. }
  apply G, cache_ok_nil.
Qed.
Print Assumptions C12_histories_run.

Example C12_case : exists c, lag_history 7 [] [[1; 2]; [0; 3; 4]; [5; 6]] = Some c /\ length c = 4%nat.
Proof. eexists; vm_compute; auto. Qed.

(** C13. *)
Theorem C13_new_pol_zero_at : forall q k n h, prime q -> Z.of_nat n <= q -> (k < n)%nat ->
  exists p, new_pol_zero_at q k n h = Some p /\ length p = n /\
    forall i, (i < n)%nat -> poly_at p (Z.of_nat i) ==[q] if Nat.eqb i k then h else 0.
Proof. exact new_pol_zero_at_spec. Qed.
Print Assumptions C13_new_pol_zero_at.

Example C13_case : new_pol_zero_at 7 1 3 4 = Some [0; 1; 3].
Proof. vm_compute; auto. Qed.

(** C14. *)
Theorem C14_transpose : forall rows cols m, (0 < rows)%nat -> rectangular rows cols m ->
  exists t, transpose m = Some (map (map Some) t) /\ rectangular cols rows t /\
    forall i j, (i < rows)%nat -> (j < cols)%nat -> nth i (nth j t []) 0 = nth j (nth i m []) 0.
Proof. exact transpose_spec. Qed.
Print Assumptions C14_transpose.

Theorem C14_transpose_involution : forall rows cols m t, (0 < rows)%nat -> (0 < cols)%nat ->
  rectangular rows cols m ->
  transpose m = Some (map (map Some) t) -> transpose t = Some (map (map Some) m).
Proof. exact transpose_involutive. Qed.
Print Assumptions C14_transpose_involution.

Theorem C14_linear_combination : forall q ps w x, (length w <= length ps)%nat ->
  exists lc, plinear_combine q ps w = Some lc /\ length lc = length w /\
  poly_at (padd_polynomials q lc) x ==[q]
    zsum (map (fun i => nth i w 0 * poly_at (nth i ps []) x) (seq 0 (length w))).
Proof. exact combine_eval. Qed.
Print Assumptions C14_linear_combination.

Example C14_case : transpose [[1; 2; 3]; [4; 5; 6]] = Some (map (map Some) [[1; 4]; [2; 5]; [3; 6]]) /\
  option_map (padd_polynomials 7) (plinear_combine 7 [[1; 2]; [3; 4; 5]] [2; 3]) = Some [4; 2; 1].
Proof. vm_compute; auto. Qed.

(** C20-C23, C26: polynomials and vectors stored in AVL trees.
    [wf t]: search order, non-negative stored heights, no stored zero; every tree reachable
    through the API is wf ([C20_reachable_wf]).  [tc t k] is the coefficient of x^k (0 when the
    key is absent), [below f n]: all coefficients from n on are 0. *)
Require Import ZArith NArith Znumtheory Lia List Sorted.
Require Import Verif.Cong Verif.FqModel Verif.FqSpec Verif.FqProofs Verif.PolyModel Verif.InterpProofs
  Verif.AvlModel Verif.AvlSpec Verif.AvlProofs Verif.SparseModel Verif.SparseSpec Verif.SparseProofs
  Verif.SparseProofs2.
Import ListNotations.
Open Scope Z_scope.

Theorem C20_reachable_wf : forall os t, removes_present aempty os -> run Leaf os = Some t -> wf t.
Proof.
  intros os t H E. assert (R := run_refines os Leaf aempty empty_represents H).
  destruct (arun aempty os) as [m|]; [|congruence]. destruct R as [t' [E' [W _]]].
  rewrite E in E'. injection E' as <-. exact W.
Qed.
Print Assumptions C20_reachable_wf.

(** Every operation returns, its result is again wf, and has the coefficients of the sum,
    difference, product, scaled polynomial. *)
Theorem C20_add_sub : forall q a b, 0 < q -> wf a -> wf b ->
  (exists t, add_to_sparse q a b = Some t /\ wf t /\ (forall k, tc t k ==[q] tc a k + tc b k) /\
     (ctree q a -> ctree q t)) /\
  (exists t, sub_to_sparse q a b = Some t /\ wf t /\ (forall k, tc t k ==[q] tc a k - tc b k) /\
     (ctree q a -> ctree q t)).
Proof.
  intros q a b Hq Wa Wb. split.
  - destruct (add_to_sparse_spec q a b Wa Wb) as [t [E [W [C [R _]]]]]. exists t. split; auto. split; auto.
    split; auto. intros k. apply C.
  - destruct (sub_to_sparse_spec q a b Wa Wb) as [t [E [W [C [R _]]]]]. exists t. split; auto. split; auto.
    split; auto. intros k. apply C.
Qed.
Print Assumptions C20_add_sub.

Theorem C20_mul : forall q a b, 0 < q -> wf a -> wf b ->
  exists t, mul_sparse q a b = Some t /\ wf t /\ ctree q t /\
    (forall k, tc t k ==[q] fconv (tc a) (tc b) k) /\
    (forall x, teval t x ==[q] teval a x * teval b x).
Proof.
  intros q a b Hq Wa Wb. destruct (mul_sparse_spec q a b Wa Wb) as [t [E [W [C R]]]].
  exists t. do 3 (split; [auto|]). split; auto. intros x. now apply teval_mul.
Qed.
Print Assumptions C20_mul.

Theorem C20_scalar : forall q a s, 0 < q -> wf a ->
  exists t, mul_sparse_scalar q a s = Some t /\ wf t /\ forall k, canon q (tc a k * s) (tc t k).
Proof.
  intros q a s Hq Wa. destruct (mul_scalar_spec q a s Wa) as [t [E [W L]]]. exists t.
  split; auto. split; auto. intros k. unfold tc. rewrite L. split; [now apply fmul_range|apply fmul_cong].
Qed.
Print Assumptions C20_scalar.

Theorem C20_combine_and_sum : forall q ps w, 0 < q -> Forall wf ps ->
  ((length w <= length ps)%nat -> exists ts, linear_combine_sparse q ps w = Some ts /\
     length ts = length w /\ Forall wf ts /\
     forall i k, (i < length w)%nat -> canon q (nth i w 0 * tc (nth i ps Leaf) k) (tc (nth i ts Leaf) k)) /\
  ((length ps < length w)%nat -> linear_combine_sparse q ps w = None) /\
  (exists t, add_polynomials_sparse q ps = Some t /\ wf t /\ ctree q t /\
     forall k, tc t k ==[q] zsum (map (fun p => tc p k) ps)).
Proof.
  intros q ps w Hq HF. split; [|split].
  - intros HL. destruct (linear_combine_spec q ps w HF HL) as [ts [E [L [W C]]]]. exists ts.
    do 3 (split; [auto|]). intros i k Hi. unfold tc. rewrite C by auto. rewrite Z.mul_comm.
    split; [now apply fmul_range|apply fmul_cong].
  - apply linear_combine_panic.
  - destruct (add_polynomials_fold q Hq ps Leaf wf_leaf) as [t [E [W [C L]]]]; auto.
    { intros k. rewrite lookup_leaf. lia. }
    exists t. split; [exact E|]. split; auto. split; auto. intros k. unfold tc. rewrite L.
    rewrite lookup_leaf. reflexivity.
Qed.
Print Assumptions C20_combine_and_sum.

(** The two concrete trees used below: 3 + 5x^2 and 2x. *)
Definition tA : tree := Node (Node Leaf 0 3 1 Leaf) 2 5 2 Leaf.
Definition tB : tree := Node Leaf 1 2 1 Leaf.
Lemma wf_tA : wf tA.
Proof. repeat split; cbn; repeat constructor; cbn; lia. Qed.
Lemma wf_tB : wf tB.
Proof. repeat split; cbn; repeat constructor; cbn; lia. Qed.
Example C20_case : option_map ascending (mul_sparse 7 tA tB) = Some [(1%N, 6); (3%N, 3)] /\
  option_map ascending (sub_to_sparse 7 tA tA) = Some [] /\
  option_map ascending (mul_sparse_scalar 5 tA 2) = Some [(0%N, 1)].
Proof. vm_compute; auto. Qed.

(** C20, transposition: column i of the result holds the i-th entries of the rows. *)
Theorem C20_transpose : forall m w, Forall wf m -> Forall (fun t => below (tc t) w) m ->
  exists r, transpose_sparse m w = Some r /\ length r = w /\ Forall wf r /\
    forall i k, (i < w)%nat -> tc (nth i r Leaf) k = tc (nth k m Leaf) i.
Proof. exact transpose_sparse_spec. Qed.
Print Assumptions C20_transpose.
Example C20_transpose_case : option_map (map ascending) (transpose_sparse [tA; Leaf; tB] 3) =
  Some [[(0%N, 3)]; [(2%N, 2)]; [(0%N, 5)]].
Proof. reflexivity. Qed.

(** C21. *)
Theorem C21_eval : forall q t x n, 1 < q -> wf t -> below (tc t) n -> (x = 0 \/ ~ x ==[q] 0) ->
  exists r, eval_sparse q t x = Some r /\ r ==[q] fval (tc t) n x /\ (x <> 0 -> 0 <= r < q).
Proof. exact eval_sparse_spec. Qed.
Print Assumptions C21_eval.
Example C21_case : wf tA /\ below (tc tA) 3 /\ eval_sparse 7 tA 3 = Some 6.
Proof.
  split; [apply wf_tA|split; [|reflexivity]]. intros k Hk. unfold tc, lookup, tA. cbn [get].
  destruct (N.eqb_spec 2 (N.of_nat k)); [lia|]. destruct (N.ltb_spec (N.of_nat k) 2); [lia|reflexivity].
Qed.

(** C21.  The excluded points are not harmless: 14 is 0 modulo 7, but the table of powers loses
    its only entry, and a wrong value results (x + x^2 at 14: 1 instead of 0). *)
Theorem C21_multiple_of_q_refuted : exists q t x r, prime q /\ wf t /\
  eval_sparse q t x = Some r /\ ~ r ==[q] teval t x.
Proof.
  exists 7, (Node (Node Leaf 1 1 1 Leaf) 2 1 2 Leaf), 14.
  assert (E : exists r, eval_sparse 7 (Node (Node Leaf 1 1 1 Leaf) 2 1 2 Leaf) 14 = Some r /\ r = 1)
    by (eexists; vm_compute; auto).
  destruct E as [r [E ->]]. exists 1. split.
  - apply prime_intro; [lia|]. intros n Hn. apply Zgcd_1_rel_prime.
    assert (n = 1 \/ n = 2 \/ n = 3 \/ n = 4 \/ n = 5 \/ n = 6) as [->|[->|[->|[->|[->| ->]]]]] by lia; reflexivity.
  - split; [repeat split; cbn; repeat constructor; cbn; lia|]. split; [exact E|].
    intros C. apply cong_mod_iff in C; [|lia]. vm_compute in C. discriminate.
Qed.
Print Assumptions C21_multiple_of_q_refuted.

(** C22.  With [max_power a] rounds of fuel the loop has returned; quotient and remainder are
    those of polynomial division.  [nztree q t]: no stored value is a multiple of q. *)
Theorem C22_divide : forall q a b, prime q -> wf a -> nztree q a -> wf b ->
  (1 <= max_power b)%N -> ~ lookup b (max_power b) ==[q] 0 ->
  exists quo rem, (forall fuel, (N.to_nat (max_power a) <= fuel)%nat -> divide_sparse q fuel a b = Ret (quo, rem)) /\
    wf quo /\ wf rem /\ ctree q quo /\ (max_power rem < max_power b)%N /\
    forall k, tc a k ==[q] fconv (tc b) (tc quo) k + tc rem k.
Proof.
  intros q a b Pq Wa Za Wb Hd Hl. unfold max_power in Hd, Hl. destruct (max_node b) as [kb vb] eqn:Mb.
  cbn [fst] in *. destruct (max_node_le b kb vb Wb Mb) as [Lb _]. rewrite Lb in Hl.
  destruct (divide_sparse_spec q b Pq Wb kb vb Mb Hl a Hd Wa Za (N.to_nat (max_power a)) ltac:(lia))
    as [quo [rem [E [W1 [W2 [C1 [Z1 [Hm C]]]]]]]].
  exists quo, rem. split.
  - intros fuel Hf. clear -E Hf. unfold divide_sparse in *. destruct (clone a) as [a'|]; [|discriminate].
    revert E Hf. generalize (N.to_nat (max_power a)) as n. intros n E Hf. revert fuel Hf E. generalize (Leaf) as res.
    revert a'. induction n as [|n IH]; intros a' res fuel Hf E.
    + destruct fuel; cbn [divide_loop] in *; destruct (max_node a') as [ka va], (max_node b) as [kb vb];
        destruct (N.ltb ka kb); try discriminate; exact E.
    + destruct fuel as [|fuel]; [lia|]. cbn [divide_loop] in *.
      destruct (max_node a') as [ka va], (max_node b) as [kb vb]. destruct (N.ltb ka kb); auto.
      destruct (fdiv q va vb); auto. destruct (insert_no_overwrite Leaf _ _); auto.
      destruct (insert_no_overwrite res _ _); auto. destruct (mul_sparse q b t); auto.
      destruct (sub_to_sparse q a' t1); auto. apply IH; auto. lia.
  - do 3 (split; [auto|]). split; auto. unfold max_power at 2. rewrite Mb. exact Hm.
Qed.
Print Assumptions C22_divide.

(** C22.  A constant divisor: panic when the dividend has a constant term, endless loop otherwise. *)
Theorem C22_constant_divisor : forall q a b, prime q -> wf a -> nztree q a -> wf b ->
  max_power b = 0%N -> ~ lookup b 0%N ==[q] 0 ->
  (tc a 0 <> 0 -> exists n, forall f, (n <= f)%nat -> divide_sparse q f a b = Panic) /\
  (tc a 0 = 0 -> forall f, divide_sparse q f a b = Running).
Proof.
  intros q a b Pq Wa Za Wb Hd Hl. unfold max_power in Hd. destruct (max_node b) as [kb vb] eqn:Mb.
  cbn [fst] in Hd. subst kb. destruct (max_node_le b 0 vb Wb Mb) as [Lb _]. rewrite Lb in Hl.
  exact (divide_const q b vb Pq Wb Mb Hl a Wa Za).
Qed.
Print Assumptions C22_constant_divisor.

Example C22_case : exists quo rem, divide_sparse 7 2 tA tB = Ret (quo, rem) /\
  ascending quo = [(1%N, 6)] /\ ascending rem = [(0%N, 3)].
Proof. do 2 eexists. repeat split; vm_compute; reflexivity. Qed.
Example C22_constant_case : divide_sparse 7 9 tA (Node Leaf 0 2 1 Leaf) = Panic /\
  divide_sparse 7 9 tB (Node Leaf 0 2 1 Leaf) = Running.
Proof. vm_compute; auto. Qed.

(** C23.  [cache_ok] holds for every cache of the dense interpolation that a history of calls can
    produce (C12); the sparse cache is the one after any history of sparse interpolations. *)
Theorem C23_interpolation : forall q hist dhist ch c data n, prime q -> Z.of_nat n <= q -> wf data ->
  below (tc data) n -> (0 < n)%nat ->
  interp_history q [] hist = Some c -> lag_history q [] dhist = Some ch ->
  exists l r t c' ch', to_array data (N.of_nat n) = Some l /\ length l = n /\
    lagrange q ch l = Some (r, ch') /\
    interpolate_sparse q c data n = Some (t, c') /\ to_array t (N.of_nat n) = Some r /\
    forall i, (i < n)%nat -> teval t (Z.of_nat i) ==[q] tc data i.
Proof.
  intros q hist dhist ch c data n Pq Hn Wd Bd Hn0 Hh Hd.
  destruct (interpolate_agrees q hist ch c data n Pq Hn Wd Bd Hn0 Hh) as [l [r [t [c' [ch' [A [B [C [D E]]]]]]]]].
  { eapply lag_history_ok; eauto. apply cache_ok_nil. }
  exists l, r, t, c', ch'. do 5 (split; [assumption|]).
  destruct (interpolate_spec q c data n Pq Hn) as [t' [c2 [E' [_ [_ [_ [_ V]]]]]]]; auto.
  { eapply interp_history_ok; eauto. apply scache_ok_nil. }
  rewrite D in E'. injection E' as <- <-. exact V.
Qed.
Print Assumptions C23_interpolation.

Theorem C23_cache_invisible : forall q hist c data n, interp_history q [] hist = Some c ->
  option_map fst (interpolate_sparse q c data n) = option_map fst (interpolate_sparse q [] data n).
Proof. exact interp_history_indep. Qed.
Print Assumptions C23_cache_invisible.

Theorem C23_too_short : forall q c data n k, wf data -> tc data k <> 0 -> (n <= k)%nat ->
  interpolate_sparse q c data n = None.
Proof. intros q c data n k W H Hn. apply (interpolate_panic q c data n (N.of_nat k)); auto; lia. Qed.
Print Assumptions C23_too_short.

Example C23_case : exists t c, interpolate_sparse 7 [] tA 3 = Some (t, c) /\ to_array t 3 = Some [3; 0; 4] /\
  option_map fst (lagrange 7 [] [3; 0; 5]) = Some [3; 0; 4] /\ interp_history 7 [] [(tA, 3%nat); (tB, 4%nat)] <> None.
Proof. do 2 eexists. repeat split; vm_compute; congruence. Qed.

(** C26.  The result is the sum of reduced products, not itself reduced. *)
Theorem C26_scalar_product : forall q t w, wf t -> below (tc t) (length w) ->
  exists r, sparse_scalar_product q t w = Some r /\
    r ==[q] zsum (map (fun i => tc t i * nth i w 0) (seq 0 (length w))) /\
    r = zsum (map (fun i => (tc t i * nth i w 0) mod q) (seq 0 (length w))).
Proof.
  intros q t w W B. destruct (ssp_spec q t w W B) as [r [E [S C]]]. exists r. auto.
Qed.
Print Assumptions C26_scalar_product.

Theorem C26_index_panic : forall q t w k, wf t -> tc t k <> 0 -> (length w <= k)%nat ->
  sparse_scalar_product q t w = None.
Proof. intros q t w k W H Hl. apply (ssp_panic q t w (N.of_nat k)); auto. lia. Qed.
Print Assumptions C26_index_panic.

(** Two representations of the same vector product, one reduced, one not. *)
Theorem C26_reduced_refuted : exists q t w r d, prime q /\ wf t /\ ctree q t /\ reduced q w /\
  to_array t 3 = Some d /\ sparse_scalar_product q t w = Some r /\ q <= r /\
  fscalar_product q d w <> Some r.
Proof.
  exists 7, tA, [4; 0; 5], 9, [3; 0; 5]. split.
  - apply prime_intro; [lia|]. intros n Hn. apply Zgcd_1_rel_prime.
    assert (n = 1 \/ n = 2 \/ n = 3 \/ n = 4 \/ n = 5 \/ n = 6) as [->|[->|[->|[->|[->| ->]]]]] by lia; reflexivity.
  - split; [apply wf_tA|]. split.
    + intros k. unfold lookup, tA. cbn [get]. destruct (N.eqb 2 k); [lia|]. destruct (N.ltb k 2); [destruct (N.eqb 0 k); [lia|destruct (N.ltb k 0); lia]|lia].
    + split; [repeat constructor; lia|]. repeat split; try reflexivity; try (vm_compute; congruence). 
Qed.
Print Assumptions C26_reduced_refuted.

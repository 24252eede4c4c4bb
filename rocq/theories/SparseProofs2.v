(** Further proofs about SparseModel: constant divisors, interpolation, scalar products,
    linear combinations, transposition. *)
Require Import ZArith NArith Znumtheory Lia Bool List Sorted Setoid Morphisms.
Require Import Verif.Cong Verif.FqModel Verif.FqSpec Verif.FqProofs Verif.PolyModel Verif.PolyProofs
  Verif.InterpProofs Verif.AvlModel Verif.AvlSpec Verif.AvlProofs Verif.SparseModel Verif.SparseSpec
  Verif.SparseProofs.
Import ListNotations.
Open Scope Z_scope.

(** ** Division by a constant never returns *)
Lemma divide_loop_const q fuel : forall b res rem r, max_power b = 0%N -> divide_loop q fuel b res rem <> Ret r.
Proof.
  induction fuel as [|f IH]; intros b res rem r Hb; cbn [divide_loop]; unfold max_power in Hb;
    destruct (max_node rem) as [ka va]; destruct (max_node b) as [kb vb] eqn:Eb; cbn [fst] in Hb; subst kb;
    destruct (N.ltb_spec ka 0); try lia; [discriminate|].
  destruct (fdiv q va vb); [|discriminate].
  destruct (insert_no_overwrite Leaf _ _); [|discriminate].
  destruct (insert_no_overwrite res _ _); [|discriminate].
  destruct (mul_sparse q b t); [|discriminate].
  destruct (sub_to_sparse q rem _); [|discriminate]. apply IH. unfold max_power. now rewrite Eb.
Qed.

Section Const.
Variables (q : Z) (b : tree) (vb : Z).
Hypothesis Pq : prime q.
Hypothesis Wb : wf b.
Hypothesis Mb : max_node b = (0%N, vb).
Hypothesis Nb : ~ vb ==[q] 0.

Let q_pos : 0 < q.
Proof. destruct Pq; lia. Qed.

Lemma b_lookup k : lookup b k = if N.eqb k 0 then vb else 0.
Proof.
  destruct (max_node_le b 0 vb Wb Mb) as [L M]. destruct (N.eqb_spec k 0) as [->|H]; auto.
  destruct (Z.eq_dec (lookup b k) 0) as [|X]; auto. apply M in X. lia.
Qed.

(** One round when the remainder is empty: nothing changes (the zero is not stored). *)
Lemma const_round_empty f res rem : wf res -> wf rem -> (forall k, lookup rem k = 0) ->
  lookup res 0%N = 0 -> exists res' rem', divide_loop q (S f) b res rem = divide_loop q f b res' rem' /\
    wf res' /\ wf rem' /\ (forall k, lookup rem' k = 0) /\ lookup res' 0%N = 0.
Proof.
  intros Wr Wm Hm H0. cbn [divide_loop].
  destruct (max_node_spec rem (lookup rem) (wf_rep rem Wm)) as [[_ [Em _]]|[k [v [_ [L [Hv _]]]]]].
  2:{ rewrite Hm in L. congruence. }
  rewrite Em, Mb. cbn [N.ltb N.compare]. 
  destruct (fdiv_prime q 0 vb Pq Nb) as [l [E1 [R1 C1]]]. rewrite E1.
  assert (l = 0).
  { apply (cong_canon_unique q); [lia|lia|]. apply cong_integral in C1; auto. tauto. }
  subst l. cbn [N.sub].
  destruct (insert_no_overwrite_lookup Leaf 0 0 wf_leaf eq_refl) as [aux [E2 [W2 L2]]].
  destruct (insert_no_overwrite_lookup res 0 0 Wr H0) as [res' [E3 [W3 L3]]].
  destruct (mul_sparse_spec q b aux Wb W2) as [mul [E4 [W4 [C4 R4]]]].
  destruct (sub_to_sparse_spec q rem mul Wm W4) as [rem' [E5 [W5 [C5 [R5 Z5]]]]].
  rewrite E2, E3, E4, E5. exists res', rem'. split; auto. split; auto. split; auto. split.
  - assert (Hz : forall k, lookup aux k = 0).
    { intros k. rewrite L2, lookup_leaf. destruct (N.eqb k 0); auto. }
    intros k. apply Z5; auto; [intros k' _; apply Hm|]. rewrite C5, Hm.
    assert (C := C4 (N.to_nat k)). unfold tc at 1 in C. rewrite Nnat.N2Nat.id in C. rewrite C.
    unfold fconv. rewrite zsum_map_0; [apply cong_eq; ring|]. intros i _. unfold tc. rewrite Hz. ring.
  - rewrite L3, N.eqb_refl. reflexivity.
Qed.

Lemma const_empty_runs f : forall res rem, wf res -> wf rem -> (forall k, lookup rem k = 0) ->
  lookup res 0%N = 0 -> divide_loop q f b res rem = Running.
Proof.
  induction f as [|f IH]; intros res rem Wr Wm Hm H0.
  - cbn [divide_loop]. destruct (max_node_spec rem (lookup rem) (wf_rep rem Wm)) as [[_ [Em _]]|[k [v [_ [L [Hv _]]]]]].
    2:{ rewrite Hm in L. congruence. }
    rewrite Em, Mb. reflexivity.
  - destruct (const_round_empty f res rem Wr Wm Hm H0) as [res' [rem' [E [W1 [W2 [H1 H2]]]]]].
    rewrite E. now apply IH.
Qed.

Lemma const_empty_panics f : forall res rem, wf res -> wf rem -> (forall k, lookup rem k = 0) ->
  lookup res 0%N <> 0 -> divide_loop q (S f) b res rem = Panic.
Proof.
  intros res rem Wr Wm Hm H0. cbn [divide_loop].
  destruct (max_node_spec rem (lookup rem) (wf_rep rem Wm)) as [[_ [Em _]]|[k [v [_ [L [Hv _]]]]]].
  2:{ rewrite Hm in L. congruence. }
  rewrite Em, Mb. cbn [N.ltb N.compare].
  destruct (fdiv_prime q 0 vb Pq Nb) as [l [E1 _]]. rewrite E1. cbn [N.sub].
  rewrite (proj1 (insert_no_overwrite_spec res (lookup res) 0 l (wf_rep res Wr)) H0).
  destruct (insert_no_overwrite Leaf 0 l); reflexivity.
Qed.

(** One round with a non-empty remainder: its top entry moves to the quotient. *)
Lemma const_round f res rem ka va : wf res -> wf rem -> nztree q rem -> max_node rem = (ka, va) -> va <> 0 ->
  (forall k, (k <= ka)%N -> lookup res k = 0) ->
  exists l res' rem', divide_loop q (S f) b res rem = divide_loop q f b res' rem' /\
    wf res' /\ wf rem' /\ nztree q rem' /\ l <> 0 /\
    (forall k, lookup res' k = if N.eqb k ka then l else lookup res k) /\
    (forall k, (ka <= k)%N -> lookup rem' k = 0) /\
    (forall k, (k < ka)%N -> lookup rem' k ==[q] lookup rem k).
Proof.
  intros Wr Wm Zm Em Hv Hres.
  destruct (div_round_sparse q b Pq Wb 0%N vb Mb Nb res rem ka va Wr Wm Zm Em ltac:(lia) Hv) as
    [l [aux [res' [mul [rem' [E1 [E2 [E3 [E4 [E5 [W3 [W5 [Z5 [Hl [Rl [L3 [Hz Hc]]]]]]]]]]]]]]]]].
  { intros k Hk. apply Hres. lia. }
  rewrite N.sub_0_r in *.
  exists l, res', rem'. split.
  - cbn [divide_loop]. rewrite Em, Mb. destruct (N.ltb_spec ka 0); [lia|].
    rewrite E1, N.sub_0_r, E2, E3, E4, E5. reflexivity.
  - do 6 (split; [assumption|]). intros k Hk. specialize (Hc (N.to_nat k)).
    assert (F : fconv (tc b) (tc res') (N.to_nat k) = fconv (tc b) (tc res) (N.to_nat k)).
    { apply zsum_map_ext. intros i Hi. apply in_seq in Hi. unfold tc at 2 4. rewrite L3.
      destruct (N.eqb_spec (N.of_nat (N.to_nat k - i)) ka); [lia|reflexivity]. }
    rewrite F in Hc. unfold tc at 3 6 in Hc. rewrite Nnat.N2Nat.id in Hc.
    set (X := fconv _ _ _) in Hc. 
    assert (Y : X + lookup rem' k - X ==[q] X + lookup rem k - X) by (rewrite Hc; reflexivity).
    replace (X + lookup rem' k - X) with (lookup rem' k) in Y by ring.
    replace (X + lookup rem k - X) with (lookup rem k) in Y by ring. exact Y.
Qed.

(** Panics after enough rounds iff the dividend (or its rest) has a constant term. *)
Lemma const_loop n : forall res rem, wf res -> wf rem -> nztree q rem -> (N.to_nat (max_power rem) <= n)%nat ->
  (forall k, (k <= max_power rem)%N -> lookup res k = 0) ->
  (lookup rem 0%N <> 0 -> forall f, (n + 2 <= f)%nat -> divide_loop q f b res rem = Panic) /\
  (lookup rem 0%N = 0 -> forall f, divide_loop q f b res rem = Running).
Proof.
  induction n as [|n IH]; intros res rem Wr Wm Zm Hn Hres;
    destruct (max_node_spec rem (lookup rem) (wf_rep rem Wm)) as [[_ [Em Hz]]|[ka [va [Em [L [Hv M]]]]]].
  1, 3: split; [intros X; now rewrite Hz in X|]; intros _ f; apply const_empty_runs; auto; apply Hres; lia.
  - unfold max_power in Hn, Hres. rewrite Em in Hn, Hres. cbn [fst] in Hn, Hres. assert (ka = 0%N) by lia. subst ka.
    split; [|congruence]. intros _ f Hf. destruct f as [|[|f]]; try lia.
    destruct (const_round (S f) res rem 0%N va Wr Wm Zm Em Hv Hres) as [l [res' [rem' [E [W1 [W2 [Z2 [Hl [L3 [Hz _]]]]]]]]]].
    rewrite E. apply const_empty_panics; auto; [intros; apply Hz; lia|]. rewrite L3, N.eqb_refl. exact Hl.
  - unfold max_power in Hn, Hres. rewrite Em in Hn, Hres. cbn [fst] in Hn, Hres.
    destruct (N.eq_dec ka 0) as [->|Hka].
    + split; [|congruence]. intros _ f Hf. destruct f as [|[|f]]; try lia.
      destruct (const_round (S f) res rem 0%N va Wr Wm Zm Em Hv Hres) as [l [res' [rem' [E [W1 [W2 [Z2 [Hl [L3 [Hz _]]]]]]]]]].
      rewrite E. apply const_empty_panics; auto; [intros; apply Hz; lia|]. rewrite L3, N.eqb_refl. exact Hl.
    + destruct (const_round O res rem ka va Wr Wm Zm Em Hv Hres) as [l0 [res0 [rem0 [_ [_ [W20 [Z20 [_ [_ [Hz0 C0]]]]]]]]]].
      assert (G : forall f, exists res' rem', divide_loop q (S f) b res rem = divide_loop q f b res' rem' /\
        wf res' /\ wf rem' /\ nztree q rem' /\ (max_power rem' < ka)%N /\
        (forall k, (k <= max_power rem')%N -> lookup res' k = 0) /\
        (lookup rem' 0%N = 0 <-> lookup rem 0%N = 0)).
      { intros f. destruct (const_round f res rem ka va Wr Wm Zm Em Hv Hres) as [l [res' [rem' [E [W1 [W2 [Z2 [Hl [L3 [Hz C]]]]]]]]]].
        exists res', rem'. assert (Hm : (max_power rem' < ka)%N) by (apply max_node_lt; auto; lia).
        do 5 (split; [assumption|]). split.
        - intros k Hk. rewrite L3. destruct (N.eqb_spec k ka); [lia|]. apply Hres; lia.
        - assert (C' := C 0%N ltac:(lia)). split; intros X.
          + apply Zm. rewrite <- C', X. reflexivity.
          + apply Z2. rewrite C', X. reflexivity. }
      split.
      * intros Hc f Hf. destruct f as [|f]; [lia|]. destruct (G f) as [res' [rem' [E [W1 [W2 [Z2 [Hm [Hr Hi]]]]]]]].
        rewrite E. apply (IH res' rem'); auto; [lia|tauto|lia].
      * intros Hc f. destruct f as [|f].
        -- cbn [divide_loop]. rewrite Em, Mb. destruct (N.ltb_spec ka 0); [lia|reflexivity].
        -- destruct (G f) as [res' [rem' [E [W1 [W2 [Z2 [Hm [Hr Hi]]]]]]]].
           rewrite E. apply (IH res' rem'); auto; [lia|tauto].
Qed.

Lemma divide_const a : wf a -> nztree q a ->
  (lookup a 0%N <> 0 -> exists n, forall f, (n <= f)%nat -> divide_sparse q f a b = Panic) /\
  (lookup a 0%N = 0 -> forall f, divide_sparse q f a b = Running).
Proof.
  intros Wa Za. unfold divide_sparse. destruct (clone_spec a Wa) as [a' [E [W L]]]. rewrite E.
  assert (Z' : nztree q a') by (intros k; rewrite L; apply Za).
  destruct (const_loop (N.to_nat (max_power a')) Leaf a' wf_leaf W Z' ltac:(lia) ltac:(reflexivity)) as [A B].
  rewrite L in *. split; auto. intros H. exists (N.to_nat (max_power a') + 2)%nat. auto.
Qed.
End Const.

(** ** Evaluation of trees as polynomials *)
Definition teval (t : tree) (x : Z) : Z :=
  zsum (map (fun e => snd e * x ^ Z.of_N (fst e)) (ascending t)).

Lemma teval_fval t x n : wf t -> below (tc t) n -> teval t x = fval (tc t) n x.
Proof. apply eval_sum. Qed.

Lemma below_le f n m : below f n -> (n <= m)%nat -> below f m.
Proof. intros H Hm k Hk. apply H. lia. Qed.

Section Interp.
Variable q : Z.

Lemma teval_mul a b t x : wf a -> wf b -> wf t ->
  (forall k, tc t k ==[q] fconv (tc a) (tc b) k) -> teval t x ==[q] teval a x * teval b x.
Proof.
  intros Wa Wb Wt C.
  set (n := S (N.to_nat (max_power a))). set (m := S (N.to_nat (max_power b))). set (k := S (N.to_nat (max_power t))).
  rewrite (teval_fval a x n), (teval_fval b x m), (teval_fval t x k) by (auto; apply below_max; auto).
  rewrite !fval_dense. apply poly_at_conv. intros i.
  rewrite dense_coef_below by (apply below_max; auto). rewrite C. apply cong_eq.
  unfold fconv, conv. apply zsum_map_ext. intros j _.
  rewrite !dense_coef_below by (apply below_max; auto). reflexivity.
Qed.

Lemma teval_add a b t x : wf a -> wf b -> wf t ->
  (forall k, lookup t k ==[q] lookup a k + lookup b k) -> teval t x ==[q] teval a x + teval b x.
Proof.
  intros Wa Wb Wt C.
  set (n := S (N.to_nat (max_power a) + N.to_nat (max_power b) + N.to_nat (max_power t))).
  rewrite (teval_fval a x n), (teval_fval b x n), (teval_fval t x n)
    by (first [assumption | eapply below_le; [now apply below_max|lia]]).
  unfold fval. rewrite <- zsum_map_add. apply zsum_map_cong. intros i _. unfold tc. rewrite C. apply cong_eq; ring.
Qed.

Lemma teval_scale a s t x : wf a -> wf t ->
  (forall k, lookup t k ==[q] lookup a k * s) -> teval t x ==[q] s * teval a x.
Proof.
  intros Wa Wt C.
  set (n := S (N.to_nat (max_power a) + N.to_nat (max_power t))).
  rewrite (teval_fval a x n), (teval_fval t x n)
    by (first [assumption | eapply below_le; [now apply below_max|lia]]).
  unfold fval. rewrite <- zsum_map_scale. apply zsum_map_cong. intros i _. unfold tc. rewrite C. apply cong_eq; ring.
Qed.

Lemma fconv_below f g n m : below f n -> below g m -> forall k, (n + m <= S k)%nat -> fconv f g k = 0.
Proof.
  intros Hf Hg k Hk. apply zsum_map_0. intros i Hi. apply in_seq in Hi.
  destruct (Nat.lt_ge_cases i n); [rewrite (Hg (k - i)%nat) by lia | rewrite Hf by lia]; ring.
Qed.

Lemma linear_tree i : exists t, from_array [- Z.of_nat i; 1] = Some t /\ wf t /\ below (tc t) 2 /\
  forall x, teval t x = x - Z.of_nat i.
Proof.
  destruct (from_array_spec [- Z.of_nat i; 1]) as [t [E [W L]]]. exists t.
  assert (B : below (tc t) 2).
  { intros k Hk. unfold tc. rewrite L, Nnat.Nat2N.id. apply nth_overflow. exact Hk. }
  repeat split; auto; try apply W. intros x. rewrite (teval_fval t x 2 W B). unfold fval. cbn [seq map zsum].
  unfold tc. rewrite !L, !Nnat.Nat2N.id. cbn [nth]. change (x ^ Z.of_nat 0) with 1. change (Z.of_nat 1) with 1. rewrite Z.pow_1_r. ring.
Qed.

Lemma one_tree : exists t, sparse_with 0%N 1 = Some t /\ wf t /\ below (tc t) 1 /\ forall x, teval t x = 1.
Proof.
  unfold sparse_with. destruct (insert_no_overwrite_lookup Leaf 0 1 wf_leaf eq_refl) as [t [E [W L]]]. exists t.
  assert (B : below (tc t) 1).
  { intros k Hk. unfold tc. rewrite L, lookup_leaf. destruct (N.eqb_spec (N.of_nat k) 0); [lia|auto]. }
  repeat split; auto; try apply W. intros x. rewrite (teval_fval t x 1 W B). unfold fval. cbn [seq map zsum].
  unfold tc. rewrite L. cbn [N.of_nat N.eqb]. change (x ^ Z.of_nat 0) with 1. ring.
Qed.

Lemma sbase_prod_fold k (Hq : 0 < q) l : forall r m, wf r -> below (tc r) m -> (1 <= m)%nat ->
  exists t, fold_left (sbase_step q k) l (Some r) = Some t /\ wf t /\
    below (tc t) (m + length (filter (fun i => negb (Nat.eqb i k)) l)) /\
    forall x, teval t x ==[q] teval r x * zprod (map (fun i => x - Z.of_nat i) (filter (fun i => negb (Nat.eqb i k)) l)).
Proof.
  induction l as [|i l IH]; intros r m Wr Br Hm; cbn [fold_left filter].
  - exists r. split; auto. split; auto. split; [now rewrite Nat.add_0_r|]. intros; apply cong_eq; cbn; ring.
  - unfold sbase_step at 2. destruct (Nat.eqb_spec i k); cbn [negb].
    + now apply IH.
    + destruct (linear_tree i) as [lin [E1 [W1 [B1 V1]]]]. rewrite E1.
      destruct (mul_sparse_spec q r lin Wr W1) as [p [E2 [W2 [C2 R2]]]]. rewrite E2.
      assert (B2 : below (tc p) (m + 1)).
      { intros j Hj. apply (ctree_nz q p (R2 Hq)). fold (tc p j). rewrite C2.
        rewrite (fconv_below _ _ m 2) by (auto; lia). reflexivity. }
      destruct (IH p (m + 1)%nat W2 B2 ltac:(lia)) as [t [E [W [B V]]]].
      exists t. split; auto. split; auto. split.
      * eapply below_le; [exact B|]. cbn [length]. lia.
      * intros x. rewrite V, (teval_mul r lin p x), V1 by auto. cbn [map zprod]. apply cong_eq; ring.
Qed.

Lemma sbase_fac_eq k n : sbase_fac q k n = lag_fac q k n.
Proof. reflexivity. Qed.

Lemma sbase_fresh_spec k n : prime q -> Z.of_nat n <= q -> (k < n)%nat ->
  exists b, sbase_fresh q k n = Some b /\ wf b /\ below (tc b) n /\
    forall i, (i < n)%nat -> teval b (Z.of_nat i) ==[q] if Nat.eqb i k then 1 else 0.
Proof.
  intros Pq Hn Hk. assert (Hq : 1 < q) by (destruct Pq; lia). unfold sbase_fresh, sbase_prod.
  destruct one_tree as [o [Eo [Wo [Bo Vo]]]]. rewrite Eo.
  destruct (sbase_prod_fold k ltac:(lia) (seq 0 n) o 1 Wo Bo ltac:(lia)) as [p [Ep [Wp [Bp Vp]]]]. rewrite Ep.
  fold (others k n) in *. rewrite others_length in Bp by auto. replace (1 + (n - 1))%nat with n in Bp by lia.
  rewrite sbase_fac_eq.
  destruct (finv_prime q (lag_fac q k n) Pq (lag_fac_nz q k n Pq Hn Hk)) as [hf [Ei [_ Ci]]]. rewrite Ei.
  destruct (mul_scalar_spec q p hf Wp) as [b [Eb [Wb Lb]]]. exists b. split; auto. split; auto. split.
  - intros j Hj. unfold tc. rewrite Lb. fold (tc p j). rewrite Bp by auto. reflexivity.
  - intros i Hi. rewrite (teval_scale p hf b) by (auto; intros j; rewrite Lb; apply fmul_cong).
    rewrite Vp, Vo. destruct (Nat.eqb_spec i k) as [->|Hik].
    + etransitivity; [|exact Ci]. rewrite lag_fac_spec by auto. fold (others k n). apply cong_eq; ring.
    + assert (Z0 : zprod (map (fun j => Z.of_nat i - Z.of_nat j) (others k n)) ==[q] 0).
      { apply (zprod_cong_0 q _ 0); [|reflexivity]. apply in_map_iff. exists i. split; [lia|]. apply others_In; lia. }
      fold (others k n). rewrite Z0. apply cong_eq; ring.
Qed.

Definition scache_ok (c : scache) : Prop :=
  forall k n v, scache_get c k n = Some v -> sbase_fresh q k n = Some v.
Lemma scache_ok_nil : scache_ok [].
Proof. intros k n v H; discriminate. Qed.

Lemma sbase_ok c k n : scache_ok c ->
  match sbase q c k n with
  | Some (v, c') => sbase_fresh q k n = Some v /\ scache_ok c'
  | None => sbase_fresh q k n = None
  end.
Proof.
  intros Hc. unfold sbase. destruct (scache_get c k n) as [v|] eqn:E.
  - split; auto.
  - destruct (sbase_fresh q k n) as [r|] eqn:F; auto. split; auto.
    intros k' n' v. cbn [scache_get].
    destruct (Nat.eqb_spec k' k), (Nat.eqb_spec n' n); cbn [andb]; try apply Hc.
    subst. intros [= <-]. exact F.
Qed.

Lemma interp_loop_spec n : prime q -> Z.of_nat n <= q -> forall data c p,
  scache_ok c -> wf p -> ctree q p -> below (tc p) n ->
  Forall (fun e => (N.to_nat (fst e) < n)%nat) data ->
  exists r c', interp_loop q c n data p = Some (r, c') /\ scache_ok c' /\ wf r /\ ctree q r /\ below (tc r) n /\
    forall i, (i < n)%nat -> teval r (Z.of_nat i) ==[q] teval p (Z.of_nat i) + psum data (N.of_nat i).
Proof.
  intros Pq Hn. assert (Hq : 1 < q) by (destruct Pq; lia).
  induction data as [|[k v] data IH]; intros c p Hc Wp Cp Bp HF; cbn [interp_loop].
  - exists p, c. do 5 (split; [auto|]). intros; apply cong_eq; unfold psum; cbn; ring.
  - inversion HF as [|? ? Hk HF']; subst. cbn [fst] in Hk.
    destruct (sbase_fresh_spec (N.to_nat k) n Pq Hn Hk) as [b [Eb [Wb [Bb Vb]]]].
    assert (S := sbase_ok c (N.to_nat k) n Hc). destruct (sbase q c (N.to_nat k) n) as [[b' c']|]; [|congruence].
    destruct S as [S Hc']. rewrite Eb in S. injection S as <-.
    destruct (mul_scalar_spec q b v Wb) as [pr [E1 [W1 L1]]]. rewrite E1.
    destruct (add_to_sparse_spec q p pr Wp W1) as [p' [E2 [W2 [C2 [R2 _]]]]]. rewrite E2.
    specialize (R2 ltac:(lia) Cp).
    destruct (IH c' p' Hc' W2 R2) as [r [c2 [E [Hc2 [Wr [Cr [Br Vr]]]]]]]; auto.
    { intros j Hj. apply (ctree_nz q p' R2). rewrite C2, L1, fmul_cong.
      fold (tc p j) (tc b j). rewrite Bp, Bb by auto. apply cong_eq; ring. }
    exists r, c2. do 5 (split; [auto|]). intros i Hi. rewrite Vr by auto.
    rewrite (teval_add p pr p') by auto.
    rewrite (teval_scale b v pr) by (auto; intros j; rewrite L1; apply fmul_cong).
    rewrite Vb by auto. rewrite psum_cons.
    destruct (Nat.eqb_spec i (N.to_nat k)), (N.eqb_spec k (N.of_nat i)); try lia; apply cong_eq; ring.
Qed.

Lemma interpolate_spec c data n : prime q -> Z.of_nat n <= q -> scache_ok c -> wf data ->
  below (tc data) n -> (0 < n)%nat ->
  exists r c', interpolate_sparse q c data n = Some (r, c') /\ scache_ok c' /\ wf r /\ ctree q r /\ below (tc r) n /\
    forall i, (i < n)%nat -> teval r (Z.of_nat i) ==[q] tc data i.
Proof.
  intros Pq Hn Hc Wd Bd Hn0. assert (Hq : 1 < q) by (destruct Pq; lia). unfold interpolate_sparse.
  assert (M : (max_power data < N.of_nat n)%N).
  { apply max_node_lt; auto; [|lia]. intros k Hk. specialize (Bd (N.to_nat k) ltac:(lia)).
    unfold tc in Bd. now rewrite Nnat.N2Nat.id in Bd. }
  destruct (N.leb_spec (N.of_nat n) (max_power data)); [lia|].
  destruct (interp_loop_spec n Pq Hn (ascending data) c Leaf Hc wf_leaf) as [r [c' [E [Hc' [Wr [Cr [Br Vr]]]]]]].
  - intros k. rewrite lookup_leaf. lia.
  - intros k _. reflexivity.
  - apply Forall_forall. intros [k v] Hi. cbn [fst].
    destruct (Nat.lt_ge_cases (N.to_nat k) n) as [|G]; auto. exfalso.
    specialize (Bd _ G). unfold tc in Bd. rewrite Nnat.N2Nat.id in Bd.
    rewrite (lookup_entry data k v) in Bd by (auto; apply Wd). subst. destruct Wd as [_ [_ Z]].
    rewrite Forall_forall in Z. now apply (Z _ Hi).
  - exists r, c'. do 5 (split; [auto|]). intros i Hi. rewrite Vr, psum_ascending by (auto; apply Wd).
    unfold teval. cbn. reflexivity.
Qed.

Lemma interpolate_panic c data n k : wf data -> lookup data k <> 0 -> (N.of_nat n <= k)%N ->
  interpolate_sparse q c data n = None.
Proof.
  intros Wd Hk Hn. unfold interpolate_sparse. destruct (max_node data) as [a b] eqn:E.
  destruct (max_node_le data a b Wd E) as [_ M]. apply M in Hk. unfold max_power. rewrite E. cbn [fst].
  destruct (N.leb_spec (N.of_nat n) a); [reflexivity|lia].
Qed.

Lemma interp_loop_cache n : forall data c1 c2 p, scache_ok c1 -> scache_ok c2 ->
  match interp_loop q c1 n data p, interp_loop q c2 n data p with
  | Some (r1, c1'), Some (r2, c2') => r1 = r2 /\ scache_ok c1' /\ scache_ok c2'
  | None, None => True
  | _, _ => False
  end.
Proof.
  induction data as [|[k v] data IH]; intros c1 c2 p H1 H2; cbn [interp_loop]; auto.
  assert (B1 := sbase_ok c1 (N.to_nat k) n H1). assert (B2 := sbase_ok c2 (N.to_nat k) n H2).
  destruct (sbase q c1 (N.to_nat k) n) as [[b1 c1']|], (sbase q c2 (N.to_nat k) n) as [[b2 c2']|].
  - destruct B1 as [B1 B1'], B2 as [B2 B2']. rewrite B1 in B2. injection B2 as <-.
    destruct (mul_sparse_scalar q b1 v) as [pr|]; auto. destruct (add_to_sparse q p pr) as [p'|]; auto. now apply IH.
  - destruct B1 as [B1 _]. congruence.
  - destruct B2 as [B2 _]. congruence.
  - exact I.
Qed.

(** The cache after a history of interpolation calls. *)
Fixpoint interp_history (c : scache) (hist : list (tree * nat)) : option scache :=
  match hist with
  | [] => Some c
  | (d, n) :: hist' => match interpolate_sparse q c d n with
                       | Some (_, c') => interp_history c' hist'
                       | None => None
                       end
  end.

Lemma interp_history_ok hist : forall c c', scache_ok c -> interp_history c hist = Some c' -> scache_ok c'.
Proof.
  induction hist as [|[d n] hist IH]; cbn [interp_history]; intros c c' Hc E; [injection E as <-; assumption|].
  destruct (interpolate_sparse q c d n) as [[r c1]|] eqn:F; [|discriminate].
  apply (IH c1); auto. unfold interpolate_sparse in F. destruct (N.leb _ _); [discriminate|].
  assert (H := interp_loop_cache n (ascending d) c c Leaf Hc Hc). rewrite F in H. tauto.
Qed.

Lemma interp_history_indep hist c d n : interp_history [] hist = Some c ->
  option_map fst (interpolate_sparse q c d n) = option_map fst (interpolate_sparse q [] d n).
Proof.
  intros H. apply interp_history_ok in H; [|apply scache_ok_nil]. unfold interpolate_sparse. destruct (N.leb _ _); auto.
  assert (X := interp_loop_cache n (ascending d) c [] Leaf H scache_ok_nil).
  destruct (interp_loop q c _ _ _) as [[r1 ?]|], (interp_loop q [] _ _ _) as [[r2 ?]|]; cbn; try easy.
  destruct X as [-> _]. reflexivity.
Qed.

Lemma lag_loop_reduced n : 0 < q -> forall data i c p r c', reduced q p ->
  lag_loop q c n i data p = Some (r, c') -> reduced q r.
Proof.
  intros Hq. induction data as [|v data IH]; intros i c p r c' Hp; cbn [lag_loop].
  - intros [= <- _]; auto.
  - destruct (v =? 0); [now apply IH|]. destruct (lag_base q c i n) as [[b c1]|]; [|discriminate].
    apply IH. now apply padd_reduced.
Qed.

(** Same polynomial as the dense interpolation of the zero-padded vector. *)
Lemma interpolate_agrees hist ch c data n : prime q -> Z.of_nat n <= q -> wf data ->
  below (tc data) n -> (0 < n)%nat -> interp_history [] hist = Some c -> cache_ok q ch ->
  exists l r t c' ch', to_array data (N.of_nat n) = Some l /\ length l = n /\
    lagrange q ch l = Some (r, ch') /\
    interpolate_sparse q c data n = Some (t, c') /\ to_array t (N.of_nat n) = Some r.
Proof.
  intros Pq Hn Wd Bd Hn0 Hh Hch. assert (Hq : 1 < q) by (destruct Pq; lia).
  assert (Hc := interp_history_ok hist [] c scache_ok_nil Hh).
  assert (TA : forall t, wf t -> below (tc t) n -> exists l, to_array t (N.of_nat n) = Some l /\ length l = n /\
     forall i, (i < n)%nat -> nth i l 0 = tc t i).
  { intros t Wt Bt. destruct (to_array_spec t (lookup t) (N.of_nat n) (wf_rep t Wt)) as [l [E [L C]]].
    - intros k Hk. destruct (N.lt_ge_cases k (N.of_nat n)) as [|G]; auto. exfalso. apply Hk.
      specialize (Bt (N.to_nat k) ltac:(lia)). unfold tc in Bt. now rewrite Nnat.N2Nat.id in Bt.
    - exists l. rewrite Nnat.Nat2N.id in L. repeat split; auto. intros i Hi.
      specialize (C (N.of_nat i) ltac:(lia)). rewrite Nnat.Nat2N.id in C. exact C. }
  destruct (TA data Wd Bd) as [l [El [Ll Cl]]].
  destruct (lagrange_spec q ch l Pq ltac:(lia) Hch) as [r [ch' [Er [Lr [_ Vr]]]]].
  destruct (interpolate_spec c data n Pq Hn Hc Wd Bd Hn0) as [t [c' [Et [_ [Wt [Ct [Bt Vt]]]]]]].
  destruct (TA t Wt Bt) as [lt [Elt [Llt Clt]]].
  exists l, r, t, c', ch'. do 4 (split; [auto|]). rewrite Elt. f_equal.
  assert (PE : peq q lt r).
  { apply (interp_unique q n); auto; try lia. intros i Hi. rewrite Vr by lia. rewrite Cl by auto.
    rewrite <- Vt by auto. rewrite (teval_fval t _ n) by auto. rewrite fval_dense. apply cong_eq.
    f_equal. apply (nth_ext _ _ 0 0); [now rewrite dense_length|]. intros j Hj. rewrite Llt in Hj.
    fold (coef (dense (tc t) n) j). rewrite dense_coef_below by auto. now apply Clt. }
  assert (RR : reduced q r).
  { unfold lagrange in Er. eapply lag_loop_reduced; [|apply zeros_reduced|exact Er]; lia. }
  apply (nth_ext _ _ 0 0); [lia|]. intros j Hj. apply (cong_canon_unique q).
  - rewrite Clt by lia. apply Ct.
  - unfold reduced in RR. rewrite Forall_forall in RR. apply RR. apply nth_In. lia.
  - apply PE.
Qed.

(** ** Scalar product *)
Lemma ssp_fold w l : forall acc, Forall (fun e => (N.to_nat (fst e) < length w)%nat) l ->
  exists r, fold_left (fun acc e => match acc, nth_error w (N.to_nat (fst e)) with
                          | Some res, Some x => Some (res + fmul q (snd e) x)
                          | _, _ => None
                          end) l (Some acc) = Some r /\
   r = acc + zsum (map (fun e => fmul q (snd e) (nth (N.to_nat (fst e)) w 0)) l).
Proof.
  induction l as [|e l IH]; intros acc HF; cbn [fold_left map zsum]; [exists acc; split; auto; lia|].
  inversion HF; subst. rewrite (nth_error_nth' w 0) by auto. destruct (IH (acc + fmul q (snd e) (nth (N.to_nat (fst e)) w 0)) H2) as [r [E ->]].
  eexists; split; [exact E|]. ring.
Qed.

Lemma ssp_spec t w : wf t -> below (tc t) (length w) ->
  exists r, sparse_scalar_product q t w = Some r /\
    r = zsum (map (fun i => fmul q (tc t i) (nth i w 0)) (seq 0 (length w))) /\
    r ==[q] zsum (map (fun i => tc t i * nth i w 0) (seq 0 (length w))).
Proof.
  intros Wt Bt. unfold sparse_scalar_product.
  destruct (ssp_fold w (ascending t) 0) as [r [E Er]].
  - apply Forall_forall. intros [k v] Hi. cbn [fst].
    destruct (Nat.lt_ge_cases (N.to_nat k) (length w)) as [|G]; auto. exfalso.
    specialize (Bt _ G). unfold tc in Bt. rewrite Nnat.N2Nat.id in Bt.
    rewrite (lookup_entry t k v) in Bt by (auto; apply Wt). subst. destruct Wt as [_ [_ Z]].
    rewrite Forall_forall in Z. now apply (Z _ Hi).
  - exists r. split; auto. rewrite Z.add_0_l in Er.
    assert (G : r = zsum (map (fun i => fmul q (tc t i) (nth i w 0)) (seq 0 (length w)))).
    { rewrite Er. clear Er E.
      set (g := fun e : N * Z => (fst e, fmul q (snd e) (nth (N.to_nat (fst e)) w 0))).
      assert (ND : NoDup (map fst (map g (ascending t)))).
      { rewrite map_map. cbn [g fst]. apply bst_NoDup, Wt. }
      assert (S := entry_sum (map g (ascending t)) (fun _ => 1) (length w) ND).
      rewrite map_map in S. cbn [g fst snd] in S.
      transitivity (zsum (map (fun x : N * Z => if (fst x <? N.of_nat (length w))%N
         then fmul q (snd x) (nth (N.to_nat (fst x)) w 0) * 1 else 0) (ascending t))).
      - apply zsum_map_ext. intros [k v] Hi. cbn [fst snd]. destruct (N.ltb_spec k (N.of_nat (length w))); [ring|].
        rewrite nth_overflow by lia. unfold fmul. rewrite Z.mul_0_r. apply Zmod_0_l.
      - rewrite S. apply zsum_map_ext. intros i _. rewrite Z.mul_1_r. unfold tc.
        rewrite lookup_assoc by apply Wt. unfold assocz.
        assert (A : forall l k, assoc (map g l) k = match assoc l k with Some v => Some (fmul q v (nth (N.to_nat k) w 0)) | None => None end).
        { induction l as [|[a b] l IH]; intros k; [reflexivity|]. cbn [map assoc g fst snd].
          destruct (N.eqb_spec a k) as [->|]; auto. }
        rewrite A, Nnat.Nat2N.id. destruct (assoc (ascending t) (N.of_nat i)); auto. }
    split; auto. rewrite G. apply zsum_map_cong. intros. apply fmul_cong.
Qed.

Lemma ssp_panic t w k : wf t -> lookup t k <> 0 -> (length w <= N.to_nat k)%nat -> sparse_scalar_product q t w = None.
Proof.
  intros Wt Hk Hl. unfold sparse_scalar_product.
  apply (in_keys_lookup t k Wt) in Hk. apply in_map_iff in Hk. destruct Hk as [e [Ek Hi]].
  apply in_split in Hi. destruct Hi as [l1 [l2 E]]. rewrite E, fold_left_app. cbn [fold_left].
  assert (F : forall l, fold_left (fun acc e => match acc, nth_error w (N.to_nat (fst e)) with
       | Some res, Some x => Some (res + fmul q (snd e) x) | _, _ => None end) l None = None)
    by (induction l; auto).
  rewrite Ek. rewrite (proj2 (nth_error_None w (N.to_nat k))) by lia.
  destruct (fold_left _ l1 (Some 0)); apply F.
Qed.

(** ** Linear combination *)
Lemma linear_combine_spec ps : forall w, Forall wf ps -> (length w <= length ps)%nat ->
  exists ts, linear_combine_sparse q ps w = Some ts /\ length ts = length w /\ Forall wf ts /\
    forall i k, (i < length w)%nat -> lookup (nth i ts Leaf) k = fmul q (lookup (nth i ps Leaf) k) (nth i w 0).
Proof.
  induction ps as [|p ps IH]; intros [|x w] HF HL; cbn [linear_combine_sparse length] in *; try lia.
  - exists []. repeat split; auto. intros i k Hi; lia.
  - exists []. repeat split; auto. intros i k Hi; lia.
  - inversion HF; subst. destruct (mul_scalar_spec q p x H1) as [t [E [W L]]]. rewrite E.
    destruct (IH w H2 ltac:(lia)) as [ts [E' [L' [W' C]]]]. rewrite E'.
    exists (t :: ts). cbn [length]. repeat split; auto; try lia.
    intros [|i] k Hi; cbn [nth]; [apply L|apply C; lia].
Qed.
Lemma linear_combine_panic ps : forall w, (length ps < length w)%nat -> linear_combine_sparse q ps w = None.
Proof.
  induction ps as [|p ps IH]; intros [|x w] H; cbn [linear_combine_sparse length] in *; try lia; auto.
  rewrite IH by lia. now destruct (mul_sparse_scalar q p x).
Qed.

Lemma add_polynomials_fold (Hq : 0 < q) ps : forall s, wf s -> ctree q s -> Forall wf ps ->
  exists t, fold_left (fun acc p => match acc with Some s => add_to_sparse q s p | None => None end) ps (Some s) = Some t /\
    wf t /\ ctree q t /\ forall k, lookup t k ==[q] lookup s k + zsum (map (fun p => lookup p k) ps).
Proof.
  induction ps as [|p ps IH]; intros s Ws Cs HF; cbn [fold_left map zsum].
  - exists s. repeat split; auto; try apply Ws; try apply Cs. intros; apply cong_eq; ring.
  - inversion HF; subst. destruct (add_to_sparse_spec q s p Ws H1) as [s' [E [W [C [R _]]]]]. rewrite E.
    destruct (IH s' W (R Hq Cs) H2) as [t [E' [W' [C' L']]]]. exists t. repeat split; auto; try apply W'; try apply C'.
    intros k. rewrite L', C. apply cong_eq; ring.
Qed.
End Interp.

(** ** Transposition *)
Lemma column_insert_spec r : forall j y v, (j < length r)%nat -> Forall wf r -> lookup (nth j r Leaf) y = 0 ->
  exists r', column_insert r j y v = Some r' /\ length r' = length r /\ Forall wf r' /\
    forall i k, lookup (nth i r' Leaf) k = if Nat.eqb i j && N.eqb k y then v else lookup (nth i r Leaf) k.
Proof.
  induction r as [|t r IH]; intros j y v Hj HF H0; [cbn in Hj; lia|]. inversion HF as [|? ? H1 H2]; subst.
  destruct j as [|j]; cbn [column_insert].
  - cbn [nth] in H0. destruct (insert_no_overwrite_lookup t y v H1 H0) as [t' [E [W L]]]. rewrite E.
    exists (t' :: r). repeat split; auto. intros [|i] k; cbn [nth Nat.eqb andb]; auto.
  - destruct (IH j y v ltac:(cbn in Hj; lia) H2 H0) as [r' [E [L [W C]]]]. rewrite E.
    exists (t :: r'). cbn [length]. repeat split; auto. intros [|i] k; cbn [nth Nat.eqb andb]; auto.
Qed.

Lemma transpose_row_spec y l : forall r, NoDup (map fst l) ->
  Forall (fun e => (N.to_nat (fst e) < length r)%nat) l -> Forall wf r ->
  (forall i, lookup (nth i r Leaf) y = 0) ->
  exists r', transpose_row r y l = Some r' /\ length r' = length r /\ Forall wf r' /\
    forall i k, lookup (nth i r' Leaf) k = if N.eqb k y then assocz l (N.of_nat i) else lookup (nth i r Leaf) k.
Proof.
  enough (G : forall l r, NoDup (map fst l) ->
    Forall (fun e => (N.to_nat (fst e) < length r)%nat) l -> Forall wf r ->
    (forall i, In (N.of_nat i) (map fst l) -> lookup (nth i r Leaf) y = 0) ->
    exists r', transpose_row r y l = Some r' /\ length r' = length r /\ Forall wf r' /\
    forall i k, lookup (nth i r' Leaf) k = if N.eqb k y then
      (if in_dec N.eq_dec (N.of_nat i) (map fst l) then assocz l (N.of_nat i) else lookup (nth i r Leaf) k) else lookup (nth i r Leaf) k).
  { intros r ND HF HW H0. destruct (G l r ND HF HW) as [r' [E [L [W C]]]]; auto. exists r'. repeat split; auto.
    intros i k. rewrite C. destruct (N.eqb_spec k y) as [->|]; auto. destruct (in_dec _ _ _); auto.
    rewrite H0. unfold assocz. rewrite assoc_none; auto. apply Forall_forall. intros e He X. apply n. rewrite <- X. now apply in_map. }
  clear l. induction l as [|[k v] l IH]; intros r ND HF HW H0; cbn [transpose_row].
  - exists r. repeat split; auto. intros i k. cbn [map]. destruct (N.eqb k y); auto. 
  - inversion ND as [|? ? H1 H2]; subst. inversion HF as [|? ? H4 H5]; subst. cbn [fst] in *.
    destruct (column_insert_spec r (N.to_nat k) y v H4 HW) as [r1 [E1 [L1 [W1 C1]]]].
    { apply H0. cbn [map fst]. left. lia. }
    rewrite E1. destruct (IH r1 H2) as [r' [E [L [W C]]]]; auto.
    + rewrite L1. auto.
    + intros i Hi. rewrite C1. destruct (Nat.eqb_spec i (N.to_nat k)) as [->|].
      * rewrite Nnat.N2Nat.id in Hi. easy.
      * cbn [andb]. apply H0. cbn [map]. now right.
    + exists r'. split; auto. split; [lia|]. split; auto. intros i k'. rewrite C, C1. cbn [map fst]. unfold assocz. cbn [assoc].
      destruct (N.eqb_spec k' y) as [->|]; [|now rewrite andb_false_r].
      destruct (N.eqb_spec k (N.of_nat i)) as [->|Hk].
      * rewrite Nnat.Nat2N.id, Nat.eqb_refl. cbn [andb].
        destruct (in_dec _ _ (map fst l)); [easy|]. destruct (in_dec _ _ _); auto. exfalso. apply n0. now left.
      * destruct (Nat.eqb_spec i (N.to_nat k)); [lia|]. cbn [andb].
        destruct (in_dec _ _ (map fst l)), (in_dec _ _ (_ :: _)); auto.
        -- exfalso. apply n0. now right.
        -- destruct i0; [lia|easy].
Qed.

Lemma transpose_rows_spec m : forall r y, Forall wf m -> Forall wf r ->
  Forall (fun t => below (tc t) (length r)) m ->
  (forall i k, (y <= k)%N -> lookup (nth i r Leaf) k = 0) ->
  exists r', transpose_rows r y m = Some r' /\ length r' = length r /\ Forall wf r' /\
    forall i k, (i < length r)%nat -> lookup (nth i r' Leaf) k =
      if N.ltb k y then lookup (nth i r Leaf) k else tc (nth (N.to_nat (k - y)) m Leaf) i.
Proof.
  induction m as [|t m IH]; intros r y HM HR HB H0; cbn [transpose_rows].
  - exists r. repeat split; auto. intros i k _. destruct (N.ltb_spec k y); auto. rewrite H0 by lia. now destruct (N.to_nat (k - y)).
  - inversion HM as [|? ? H1 H2]; subst. inversion HB as [|? ? H4 H5]; subst.
    destruct (transpose_row_spec y (ascending t) r) as [r1 [E1 [L1 [W1 C1]]]]; auto.
    + apply bst_NoDup, H1.
    + apply Forall_forall. intros [k v] Hi. cbn [fst].
      destruct (Nat.lt_ge_cases (N.to_nat k) (length r)) as [|G]; auto. exfalso.
      specialize (H4 _ G). unfold tc in H4. rewrite Nnat.N2Nat.id in H4.
      rewrite (lookup_entry t k v) in H4 by (auto; apply H1). subst. destruct H1 as [_ [_ Z]].
      rewrite Forall_forall in Z. now apply (Z _ Hi).
    + intros i. apply H0. lia.
    + rewrite E1. destruct (IH r1 (N.succ y) H2 W1) as [r' [E [L [W C]]]].
      * rewrite L1. auto.
      * intros i k Hk. rewrite C1. destruct (N.eqb_spec k y); [lia|]. apply H0. lia.
      * exists r'. split; auto. split; [lia|]. split; auto. intros i k Hi. rewrite C by lia. rewrite C1.
        destruct (N.ltb_spec k (N.succ y)), (N.ltb_spec k y), (N.eqb_spec k y); try lia; auto.
        -- subst. rewrite N.sub_diag. cbn [N.to_nat nth]. unfold tc. rewrite lookup_assoc by apply H1. reflexivity.
        -- replace (N.to_nat (k - y)) with (S (N.to_nat (k - N.succ y))) by lia. reflexivity.
Qed.

Lemma transpose_sparse_spec m w : Forall wf m -> Forall (fun t => below (tc t) w) m ->
  exists r, transpose_sparse m w = Some r /\ length r = w /\ Forall wf r /\
    forall i k, (i < w)%nat -> tc (nth i r Leaf) k = tc (nth k m Leaf) i.
Proof.
  intros HM HB. unfold transpose_sparse.
  destruct (transpose_rows_spec m (repeat Leaf w) 0%N HM) as [r [E [L [W C]]]].
  - apply Forall_forall. intros t Ht. apply repeat_spec in Ht. subst. apply wf_leaf.
  - rewrite repeat_length. exact HB.
  - intros i k _. rewrite nth_repeat. reflexivity.
  - rewrite repeat_length in *. exists r. repeat split; auto. intros i k Hi. unfold tc at 1. rewrite C by auto.
    destruct (N.ltb_spec (N.of_nat k) 0); [lia|]. now rewrite N.sub_0_r, Nnat.Nat2N.id.
Qed.

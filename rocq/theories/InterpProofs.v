(** Proofs about PolyModel: domain polynomial, Lagrange interpolation, root counting. *)
Require Import ZArith Znumtheory Lia Setoid Morphisms Bool List.
Require Import Verif.Cong Verif.FqModel Verif.FqSpec Verif.FqProofs Verif.PolyModel Verif.PolyProofs.
Import ListNotations.
Open Scope Z_scope.

Lemma zprod_app l1 l2 : zprod (l1 ++ l2) = zprod l1 * zprod l2.
Proof. induction l1; cbn [zprod app]; [ring|]. rewrite IHl1; ring. Qed.

Lemma zprod_cong_0 q l x : In x l -> x ==[q] 0 -> zprod l ==[q] 0.
Proof.
  induction l as [|y l IH]; [easy|]. intros [->|H] E; cbn [zprod].
  - rewrite E. apply cong_eq; ring.
  - rewrite IH by auto. apply cong_eq; ring.
Qed.

Lemma zprod_nonzero q l : prime q -> (forall x, In x l -> ~ x ==[q] 0) -> ~ zprod l ==[q] 0.
Proof.
  intros Pq. induction l as [|y l IH]; cbn [zprod]; intros H.
  - now apply cong_1_0.
  - apply cong_mul_nz; auto with datatypes.
Qed.

(** ** Domain polynomial *)
Lemma domain_fold_eval q l : forall d x,
  poly_at (fold_left (fun d i => pmul q d [fneg q (Z.of_nat i); 1]) l d) x
  ==[q] poly_at d x * zprod (map (fun i => x - Z.of_nat i) l).
Proof.
  induction l as [|i l IH]; intros d x; cbn [fold_left map zprod].
  - apply cong_eq; ring.
  - rewrite IH, pmul_eval, !poly_at_cons, poly_at_nil, fneg_cong. apply cong_eq; ring.
Qed.

Lemma domain_eval q n x : (1 <= n)%nat ->
  poly_at (domain_poly q n) x ==[q] zprod (map (fun i => x - Z.of_nat i) (seq 0 n)).
Proof.
  intros Hn. unfold domain_poly. rewrite domain_fold_eval.
  destruct n as [|n]; [lia|]. replace (S n - 1)%nat with n by lia.
  cbn [seq map zprod]. rewrite !poly_at_cons, poly_at_nil. apply cong_eq. change (Z.of_nat 0) with 0. ring.
Qed.

Lemma domain_fold_length q l : forall d, (1 <= length d)%nat ->
  length (fold_left (fun d i => pmul q d [fneg q (Z.of_nat i); 1]) l d) = (length d + length l)%nat.
Proof.
  induction l as [|i l IH]; intros d Hd; cbn [fold_left length]; [lia|].
  rewrite IH; rewrite pmul_length; cbn [length]; lia.
Qed.

Lemma domain_length q n : (1 <= n)%nat -> length (domain_poly q n) = S n.
Proof. intros. unfold domain_poly. rewrite domain_fold_length; cbn [length]; rewrite ?seq_length; lia. Qed.

Lemma domain_fold_lead q l : forall d, d <> [] -> last d 0 ==[q] 1 ->
  last (fold_left (fun d i => pmul q d [fneg q (Z.of_nat i); 1]) l d) 0 ==[q] 1.
Proof.
  induction l as [|i l IH]; intros d Hd E; cbn [fold_left]; auto.
  assert (Ld : (0 < length d)%nat) by (destruct d; [easy|cbn; lia]).
  assert (Hp : pmul q d [fneg q (Z.of_nat i); 1] <> []).
  { intros H. apply (f_equal (@length Z)) in H. rewrite pmul_length in H. cbn in H. lia. }
  apply IH; auto.
  rewrite last_coef, pmul_coef, pmul_length by auto. cbn [length].
  replace (length d + 2 - 1 - 1)%nat with (length d + length [fneg q (Z.of_nat i); 1%Z] - 2)%nat by (cbn; lia).
  rewrite conv_top by (auto; easy). rewrite E. reflexivity.
Qed.

Lemma domain_lead q n : last (domain_poly q n) 0 ==[q] 1.
Proof. apply domain_fold_lead; [easy|reflexivity]. Qed.

Lemma domain_reduced q n : 1 < q -> reduced q (domain_poly q n).
Proof.
  intros Hq. unfold domain_poly. assert (H : reduced q [0; 1]) by (repeat constructor; lia).
  revert H. generalize [0; 1]. induction (seq 1 (n - 1)) as [|i l IH]; intros d H; cbn [fold_left]; auto.
  apply IH. apply pmul_reduced; lia.
Qed.

Lemma domain_root_iff q n x : prime q -> (1 <= n)%nat ->
  (poly_at (domain_poly q n) x ==[q] 0 <-> exists i, (i < n)%nat /\ x ==[q] Z.of_nat i).
Proof.
  intros Pq Hn. rewrite domain_eval by auto. split.
  - intros H. destruct (Exists_dec (fun i => x ==[q] Z.of_nat i) (seq 0 n) (fun i => cong_dec q x (Z.of_nat i))) as [E|E].
    + apply Exists_exists in E. destruct E as [i [Hi Ei]]. apply in_seq in Hi. exists i; split; auto; lia.
    + exfalso. revert H. apply zprod_nonzero; auto. intros y Hy. apply in_map_iff in Hy.
      destruct Hy as [i [<- Hi]]. intros C. apply E. apply Exists_exists. exists i; split; auto. now apply cong_sub_0.
  - intros [i [Hi E]]. apply (zprod_cong_0 q _ (x - Z.of_nat i)).
    + apply in_map_iff. exists i; split; auto. apply in_seq; lia.
    + now apply cong_sub_0 in E.
Qed.

(** ** Root counting *)
Lemma linear_lead q r : prime q -> ~ last [- r; 1] 0 ==[q] 0.
Proof. intros. cbn. now apply cong_1_0. Qed.

Lemma too_many_roots q : prime q -> forall rs v,
  (forall i j, (i < length rs)%nat -> (j < length rs)%nat ->
     nth i rs 0 ==[q] nth j rs 0 -> i = j) ->
  (length v <= length rs)%nat ->
  (forall r, In r rs -> poly_at v r ==[q] 0) ->
  forall k, coef v k ==[q] 0.
Proof.
  intros Pq. induction rs as [|r rs IH]; intros v Hd Hl Hr k.
  - destruct v; [|cbn in Hl; lia]. rewrite coef_nil. reflexivity.
  - destruct v as [|c v'] eqn:Ev; [rewrite coef_nil; reflexivity|]. rewrite <- Ev in *.
    assert (Lv : (1 <= length v)%nat) by (subst; cbn; lia).
    destruct (pdiv_spec q Pq [- r; 1] ltac:(easy) (linear_lead q r Pq) v ltac:(cbn; lia))
      as [quo [rem [E [L1 [L2 [L3 C]]]]]]. cbn [length] in *.
    assert (Ev2 : forall x, poly_at v x ==[q] (x - r) * poly_at quo x + poly_at rem x).
    { intros x. rewrite (pdiv_eval q Pq [- r; 1] ltac:(easy) (linear_lead q r Pq) v quo rem x E) by (cbn; lia).
      rewrite !poly_at_cons, poly_at_nil. apply cong_eq; ring. }
    destruct rem as [|c0 [|c1 rem]]; cbn [length] in *; try lia.
    assert (C0 : c0 ==[q] 0).
    { rewrite <- (Hr r) by auto with datatypes. rewrite Ev2, !poly_at_cons, poly_at_nil. apply cong_eq; ring. }
    assert (Q0 : forall k, coef quo k ==[q] 0).
    { apply IH.
      - intros i j Hi Hj Hij. assert (S i = S j) by (apply Hd; cbn; auto; lia). lia.
      - lia.
      - intros s Hs. specialize (Hr s (or_intror Hs)). rewrite Ev2 in Hr.
        rewrite !poly_at_cons, poly_at_nil, C0 in Hr.
        assert (Hr' : (s - r) * poly_at quo s ==[q] 0) by (rewrite <- Hr; apply cong_eq; ring).
        destruct (cong_integral q Pq _ _ Hr') as [H|H]; auto. exfalso.
        apply cong_sub_0 in H. destruct (In_nth rs s 0 Hs) as [i [Hi Ei]].
        assert (S i = O); [|lia]. apply Hd; cbn [length nth]; try lia. now rewrite Ei. }
    rewrite C. unfold conv.
    rewrite (zsum_map_cong q _ (fun _ => 0)).
    + rewrite zsum_map_0 by auto. rewrite coef_cons. destruct k; [rewrite C0; reflexivity|]. rewrite coef_nil. reflexivity.
    + intros i _. rewrite Q0. apply cong_eq; ring.
Qed.

Lemma small_distinct q i j : Z.of_nat i < q -> Z.of_nat j < q ->
  Z.of_nat i ==[q] Z.of_nat j -> i = j.
Proof. intros Hi Hj E. apply cong_canon_unique in E; lia. Qed.

(** Two polynomials with at most n coefficients that agree at 0..n-1 are the same. *)
Lemma interp_unique q n a b : prime q -> Z.of_nat n <= q ->
  (length a <= n)%nat -> (length b <= n)%nat ->
  (forall i, (i < n)%nat -> poly_at a (Z.of_nat i) ==[q] poly_at b (Z.of_nat i)) -> peq q a b.
Proof.
  intros Pq Hn La Lb H k.
  assert (E : coef (psub q a b) k ==[q] 0).
  { apply (too_many_roots q Pq (map Z.of_nat (seq 0 n))).
    - rewrite map_length, seq_length. intros i j Hi Hj.
      change 0 with (Z.of_nat 0). rewrite !map_nth, !seq_nth by auto.
      intros E. apply small_distinct in E; lia.
    - rewrite psub_length, map_length, seq_length. lia.
    - intros r Hr. apply in_map_iff in Hr. destruct Hr as [i [<- Hi]]. apply in_seq in Hi.
      rewrite psub_eval, H by lia. apply cong_eq; ring. }
  rewrite psub_coef in E. now apply cong_sub_0.
Qed.

(** ** Lagrange basis *)
Lemma fold_fmul q (f : nat -> Z) l : forall acc,
  fold_left (fun acc i => fmul q acc (f i)) l acc ==[q] acc * zprod (map f l).
Proof.
  induction l as [|i l IH]; intros acc; cbn [fold_left map zprod].
  - apply cong_eq; ring.
  - rewrite IH, fmul_cong. apply cong_eq; ring.
Qed.

Definition others (k n : nat) : list nat := filter (fun i => negb (Nat.eqb i k)) (seq 0 n).

Lemma filter_all {A} (f : A -> bool) l : (forall x, In x l -> f x = true) -> filter f l = l.
Proof. induction l; cbn; intros H; auto. rewrite H, IHl; auto. Qed.

Lemma others_split k n : (k < n)%nat -> others k n = seq 0 k ++ seq (S k) (n - S k).
Proof.
  intros H. unfold others. replace n with (k + S (n - S k))%nat at 1 by lia.
  rewrite seq_app, filter_app. cbn [seq]. cbn [filter Nat.add]. rewrite Nat.eqb_refl. cbn [negb].
  f_equal; apply filter_all; intros x Hx; apply in_seq in Hx;
    destruct (Nat.eqb_spec x k); auto; lia.
Qed.

Lemma others_length k n : (k < n)%nat -> length (others k n) = (n - 1)%nat.
Proof. intros. rewrite others_split, app_length, !seq_length; lia. Qed.

Lemma others_In k n i : In i (others k n) <-> (i < n)%nat /\ i <> k.
Proof.
  unfold others. rewrite filter_In, in_seq. destruct (Nat.eqb_spec i k); cbn; split; intros; lia.
Qed.

Lemma lag_fac_spec q k n : (k < n)%nat ->
  lag_fac q k n ==[q] zprod (map (fun i => Z.of_nat k - Z.of_nat i) (others k n)).
Proof.
  intros H. unfold lag_fac. rewrite !(fold_fmul q (fun i => Z.of_nat k - Z.of_nat i)).
  rewrite others_split, map_app, zprod_app by auto. apply cong_eq; ring.
Qed.

Lemma fold_fmul_range q (f : nat -> Z) l : 1 < q -> forall acc, 0 <= acc < q ->
  0 <= fold_left (fun acc i => fmul q acc (f i)) l acc < q.
Proof. intros Hq; induction l; cbn; intros; auto. apply IHl. apply fmul_range; lia. Qed.

Lemma lag_fac_range q k n : 1 < q -> 0 <= lag_fac q k n < q.
Proof.
  intros. unfold lag_fac. apply (fold_fmul_range q (fun i => Z.of_nat k - Z.of_nat i)); auto.
  apply (fold_fmul_range q (fun i => Z.of_nat k - Z.of_nat i)); auto. lia.
Qed.

Lemma lag_fac_nz q k n : prime q -> Z.of_nat n <= q -> (k < n)%nat -> ~ lag_fac q k n ==[q] 0.
Proof.
  intros Pq Hn Hk. rewrite lag_fac_spec by auto. apply zprod_nonzero; auto.
  intros x Hx. apply in_map_iff in Hx. destruct Hx as [i [<- Hi]]. apply others_In in Hi.
  intros E. apply cong_sub_0 in E. apply small_distinct in E; lia.
Qed.

Lemma lag_prod_fold_eval q k x l : forall r,
  poly_at (fold_left (fun r i => if Nat.eqb i k then r else pmul q r [- Z.of_nat i; 1]) l r) x
  ==[q] poly_at r x * zprod (map (fun i => x - Z.of_nat i) (filter (fun i => negb (Nat.eqb i k)) l)).
Proof.
  induction l as [|i l IH]; intros r; cbn [fold_left filter].
  - cbn [map zprod]. apply cong_eq; ring.
  - rewrite IH. destruct (Nat.eqb i k); cbn [negb map zprod]; [reflexivity|].
    rewrite pmul_eval, !poly_at_cons, poly_at_nil. apply cong_eq; ring.
Qed.

Lemma lag_prod_eval q k n c x : poly_at (lag_prod q k n c) x ==[q]
  c * zprod (map (fun i => x - Z.of_nat i) (others k n)).
Proof.
  unfold lag_prod. rewrite lag_prod_fold_eval, poly_at_cons, poly_at_nil. apply cong_eq. unfold others. ring.
Qed.

Lemma lag_prod_fold_length q k l : forall r, (1 <= length r)%nat ->
  length (fold_left (fun r i => if Nat.eqb i k then r else pmul q r [- Z.of_nat i; 1]) l r)
  = (length r + length (filter (fun i => negb (Nat.eqb i k)) l))%nat.
Proof.
  induction l as [|i l IH]; intros r Hr; cbn [fold_left filter]; [cbn; lia|].
  destruct (Nat.eqb i k); cbn [negb length]; [apply IH; auto|].
  rewrite IH; rewrite pmul_length; cbn [length]; lia.
Qed.

Lemma lag_prod_length q k n c : (k < n)%nat -> length (lag_prod q k n c) = n.
Proof.
  intros H. unfold lag_prod. rewrite lag_prod_fold_length by (cbn; lia).
  fold (others k n). rewrite others_length by auto. cbn [length]. lia.
Qed.

(** Value of a basis polynomial at the points 0..n-1. *)
Lemma lag_base_fresh_spec q k n : prime q -> Z.of_nat n <= q -> (k < n)%nat ->
  exists b, lag_base_fresh q k n = Some b /\ length b = n /\
    forall i, (i < n)%nat -> poly_at b (Z.of_nat i) ==[q] if Nat.eqb i k then 1 else 0.
Proof.
  intros Pq Hn Hk. unfold lag_base_fresh.
  destruct (finv_prime q _ Pq (lag_fac_nz q k n Pq Hn Hk)) as [hf [E [_ Ei]]].
  rewrite E. eexists; split; [reflexivity|split].
  - rewrite pmul_scalar_length. now apply lag_prod_length.
  - intros i Hi. rewrite pmul_scalar_eval, lag_prod_eval.
    destruct (Nat.eqb_spec i k) as [->|Hik].
    + rewrite <- lag_fac_spec by auto. etransitivity; [|exact Ei]. apply cong_eq; ring.
    + rewrite (zprod_cong_0 q _ (Z.of_nat i - Z.of_nat i)).
      * apply cong_eq; ring.
      * apply in_map_iff. exists i; split; auto. now apply others_In.
      * apply cong_eq; ring.
Qed.

(** ** The cache *)
Definition cache_ok (q : Z) (c : cache) : Prop :=
  forall k n v, cache_get c k n = Some v -> lag_base_fresh q k n = Some v.

Lemma cache_ok_nil q : cache_ok q [].
Proof. intros k n v H; discriminate. Qed.

Lemma lag_base_ok q c k n : cache_ok q c ->
  match lag_base q c k n with
  | Some (v, c') => lag_base_fresh q k n = Some v /\ cache_ok q c'
  | None => lag_base_fresh q k n = None
  end.
Proof.
  intros Hc. unfold lag_base. destruct (cache_get c k n) as [v|] eqn:E.
  - split; auto.
  - destruct (lag_base_fresh q k n) as [r|] eqn:F; auto. split; auto.
    intros k' n' v. cbn [cache_get].
    destruct (Nat.eqb_spec k' k), (Nat.eqb_spec n' n); cbn [andb]; try apply Hc.
    subst. intros [= <-]. exact F.
Qed.

Lemma lag_loop_cache q n : forall data i c1 c2 p,
  cache_ok q c1 -> cache_ok q c2 ->
  match lag_loop q c1 n i data p, lag_loop q c2 n i data p with
  | Some (r1, c1'), Some (r2, c2') => r1 = r2 /\ cache_ok q c1' /\ cache_ok q c2'
  | None, None => True
  | _, _ => False
  end.
Proof.
  induction data as [|v data IH]; intros i c1 c2 p H1 H2; cbn [lag_loop]; auto.
  destruct (v =? 0); [now apply IH|].
  assert (B1 := lag_base_ok q c1 i n H1). assert (B2 := lag_base_ok q c2 i n H2).
  destruct (lag_base q c1 i n) as [[b1 c1']|], (lag_base q c2 i n) as [[b2 c2']|].
  - destruct B1 as [B1 B1'], B2 as [B2 B2']. rewrite B1 in B2. injection B2 as <-. now apply IH.
  - destruct B1 as [B1 _]. congruence.
  - destruct B2 as [B2 _]. congruence.
  - exact I.
Qed.

(** A history of interpolation calls on one field object; a panic ends it. *)
Fixpoint lag_history (q : Z) (c : cache) (hist : list (list Z)) : option cache :=
  match hist with
  | [] => Some c
  | d :: hist' => match lagrange q c d with
                  | Some (_, c') => lag_history q c' hist'
                  | None => None
                  end
  end.

Lemma lagrange_cache_ok q c d r c' : cache_ok q c -> lagrange q c d = Some (r, c') -> cache_ok q c'.
Proof.
  intros Hc E. assert (H := lag_loop_cache q (length d) d 0 c c (zeros (length d)) Hc Hc).
  unfold lagrange in E. rewrite E in H. tauto.
Qed.

Lemma lag_history_ok q hist : forall c c', cache_ok q c -> lag_history q c hist = Some c' -> cache_ok q c'.
Proof.
  induction hist as [|d hist IH]; cbn [lag_history]; intros c c' Hc E; [injection E as <-; assumption|].
  destruct (lagrange q c d) as [[r c1]|] eqn:F; [|discriminate].
  apply (IH c1); auto. eapply lagrange_cache_ok; eauto.
Qed.

Lemma lagrange_cache_indep q c d : cache_ok q c ->
  option_map fst (lagrange q c d) = option_map fst (lagrange q [] d).
Proof.
  intros Hc. assert (H := lag_loop_cache q (length d) d 0 c [] (zeros (length d)) Hc (cache_ok_nil q)).
  unfold lagrange. destruct (lag_loop q c _ _ _ _) as [[r1 ?]|], (lag_loop q [] _ _ _ _) as [[r2 ?]|]; cbn; try easy.
  destruct H as [-> _]. reflexivity.
Qed.

Lemma lagrange_history_indep q hist c d : lag_history q [] hist = Some c ->
  option_map fst (lagrange q c d) = option_map fst (lagrange q [] d).
Proof. intros H. apply lagrange_cache_indep. eapply lag_history_ok; eauto. apply cache_ok_nil. Qed.

(** ** Interpolation *)
Lemma lag_loop_spec q n : prime q -> Z.of_nat n <= q -> forall data i c p,
  cache_ok q c -> (i + length data <= n)%nat -> length p = n ->
  exists r c', lag_loop q c n i data p = Some (r, c') /\ length r = n /\
    forall j, (j < n)%nat -> poly_at r (Z.of_nat j) ==[q] poly_at p (Z.of_nat j) +
      (if Nat.leb i j then coef data (j - i) else 0).
Proof.
  intros Pq Hn. induction data as [|v data IH]; intros i c p Hc Hi Lp; cbn [lag_loop].
  - exists p, c. repeat split; auto. intros j Hj. rewrite coef_nil. destruct (Nat.leb i j); apply cong_eq; ring.
  - cbn [length] in Hi. destruct (Z.eqb_spec v 0) as [->|Hv].
    + destruct (IH (S i) c p Hc ltac:(lia) Lp) as [r [c' [E [L C]]]].
      exists r, c'. repeat split; auto. intros j Hj. rewrite C by auto.
      destruct (Nat.leb_spec (S i) j), (Nat.leb_spec i j); try lia.
      * replace (j - i)%nat with (S (j - S i)) by lia. rewrite coef_cons. reflexivity.
      * replace (j - i)%nat with O by lia. reflexivity.
      * reflexivity.
    + assert (B := lag_base_ok q c i n Hc).
      destruct (lag_base_fresh_spec q i n Pq Hn ltac:(lia)) as [b [Eb [Lb Hb]]].
      destruct (lag_base q c i n) as [[b' c']|]; [|congruence].
      destruct B as [B Hc']. rewrite Eb in B. injection B as <-.
      destruct (IH (S i) c' (padd q p (pmul_scalar q b v)) Hc' ltac:(lia)) as [r [c2 [E [L C]]]].
      { rewrite padd_length, pmul_scalar_length. lia. }
      exists r, c2. repeat split; auto. intros j Hj. rewrite C, padd_eval, pmul_scalar_eval, Hb by auto.
      destruct (Nat.eqb_spec j i) as [->|Hji].
      * replace (Nat.leb (S i) i) with false by (symmetry; apply Nat.leb_gt; lia).
        rewrite Nat.leb_refl, Nat.sub_diag, coef_cons. apply cong_eq; ring.
      * destruct (Nat.leb_spec (S i) j), (Nat.leb_spec i j); try lia; [|apply cong_eq; ring].
        replace (j - i)%nat with (S (j - S i)) by lia. rewrite coef_cons. apply cong_eq; ring.
Qed.

Lemma lagrange_spec q c data : prime q -> Z.of_nat (length data) <= q -> cache_ok q c ->
  exists r c', lagrange q c data = Some (r, c') /\ length r = length data /\ cache_ok q c' /\
    forall j, (j < length data)%nat -> poly_at r (Z.of_nat j) ==[q] nth j data 0.
Proof.
  intros Pq Hn Hc. unfold lagrange.
  destruct (lag_loop_spec q (length data) Pq Hn data 0 c (zeros (length data)) Hc ltac:(lia) (zeros_length _))
    as [r [c' [E [L C]]]].
  exists r, c'. repeat split; auto.
  - eapply lagrange_cache_ok; eauto.
  - intros j Hj. rewrite C by auto. rewrite poly_at_zeros. cbn [Nat.leb]. rewrite Nat.sub_0_r. reflexivity.
Qed.

Lemma new_pol_zero_at_spec q k n h : prime q -> Z.of_nat n <= q -> (k < n)%nat ->
  exists p, new_pol_zero_at q k n h = Some p /\ length p = n /\
    forall i, (i < n)%nat -> poly_at p (Z.of_nat i) ==[q] if Nat.eqb i k then h else 0.
Proof.
  intros Pq Hn Hk. unfold new_pol_zero_at.
  destruct (fdiv_prime q h _ Pq (lag_fac_nz q k n Pq Hn Hk)) as [hf [E [_ Ei]]].
  rewrite E. eexists; split; [reflexivity|split].
  - now apply lag_prod_length.
  - intros i Hi. rewrite lag_prod_eval. destruct (Nat.eqb_spec i k) as [->|Hik].
    + rewrite <- lag_fac_spec by auto. exact Ei.
    + rewrite (zprod_cong_0 q _ (Z.of_nat i - Z.of_nat i)).
      * apply cong_eq; ring.
      * apply in_map_iff. exists i; split; auto. now apply others_In.
      * apply cong_eq; ring.
Qed.

(** ** Divisibility by the domain polynomial *)
Lemma div_domain_zero_iff q n a : prime q -> Z.of_nat n <= q -> (1 <= n)%nat -> (n <= length a)%nat ->
  exists quo rem, pdiv q a (domain_poly q n) = Some (quo, rem) /\
    length quo = (length a - n)%nat /\ length rem = n /\
    (forall x, poly_at a x ==[q] poly_at (domain_poly q n) x * poly_at quo x + poly_at rem x) /\
    ((forall k, coef rem k ==[q] 0) <->
     (forall i, (i < n)%nat -> poly_at a (Z.of_nat i) ==[q] 0)).
Proof.
  intros Pq Hn H1 La.
  assert (Hnil : domain_poly q n <> []).
  { intros E. apply (f_equal (@length Z)) in E. rewrite domain_length in E; cbn in E; lia. }
  assert (Hlead : ~ last (domain_poly q n) 0 ==[q] 0).
  { rewrite domain_lead. now apply cong_1_0. }
  assert (HL : (length (domain_poly q n) <= length a + 1)%nat) by (rewrite domain_length; lia).
  destruct (pdiv_spec q Pq _ Hnil Hlead a HL) as [quo [rem [E [L1 [L2 [L3 C]]]]]].
  exists quo, rem. rewrite domain_length in * by auto.
  assert (Ev := fun x => pdiv_eval q Pq _ Hnil Hlead a quo rem x E).
  rewrite domain_length in Ev by auto. specialize (fun x => Ev x HL) as Ev'. clear Ev.
  repeat split; auto; try lia.
  - intros R i Hi. rewrite Ev'.
    assert (D : poly_at (domain_poly q n) (Z.of_nat i) ==[q] 0).
    { apply domain_root_iff; auto. exists i; auto. }
    assert (R0 : peq q rem []) by (intros k; rewrite R, coef_nil; reflexivity).
    rewrite D, (poly_at_peq _ _ _ _ R0), poly_at_nil. apply cong_eq; ring.
  - intros V. assert (P0 : peq q rem []).
    { apply (interp_unique q n); auto; try lia; [cbn; lia|]. intros i Hi.
      rewrite poly_at_nil.
      assert (D : poly_at (domain_poly q n) (Z.of_nat i) ==[q] 0).
      { apply domain_root_iff; auto. exists i; auto. }
      specialize (V i Hi). rewrite Ev', D in V. rewrite <- V. apply cong_eq; ring. }
    intros k. rewrite (P0 k), coef_nil. reflexivity.
Qed.

(** ** Transpose *)
Definition rectangular (rows cols : nat) (m : list (list Z)) : Prop :=
  length m = rows /\ Forall (fun r => length r = cols) m.

Lemma transpose_spec rows cols m : (0 < rows)%nat -> rectangular rows cols m ->
  exists t, transpose m = Some (map (map Some) t) /\ rectangular cols rows t /\
    forall i j, (i < rows)%nat -> (j < cols)%nat -> nth i (nth j t []) 0 = nth j (nth i m []) 0.
Proof.
  intros Hr [L F]. exists (map (fun x => map (fun row => nth x row 0) m) (seq 0 cols)).
  rewrite Forall_forall in F.
  destruct m as [|row0 m'] eqn:Em; [cbn in L; lia|]. rewrite <- Em in *.
  assert (L0 : length row0 = cols) by (apply F; subst; auto with datatypes).
  split; [|split; [split|]].
  - unfold transpose. rewrite Em at 1.
    replace (forallb _ m) with true.
    + f_equal. rewrite map_map, L0. apply map_ext_in. intros x Hx. apply in_seq in Hx.
      rewrite map_map. apply map_ext_in. intros row Hrow.
      rewrite (nth_error_nth' row 0); auto. rewrite F; auto; lia.
    + symmetry. apply forallb_forall. intros row Hrow. apply Nat.leb_le. rewrite (F row), L0 by auto. lia.
  - now rewrite map_length, seq_length.
  - apply Forall_forall. intros c Hc. apply in_map_iff in Hc. destruct Hc as [x [<- _]].
    now rewrite map_length.
  - intros i j Hi Hj.
    rewrite (nth_indep _ [] (map (fun row => nth 0 row 0) m)) by (rewrite map_length, seq_length; lia).
    rewrite (map_nth (fun x => map (fun row => nth x row 0) m) (seq 0 cols) O j).
    rewrite seq_nth by auto. cbn [Nat.add].
    rewrite (nth_indep _ 0 (nth j [] 0)) by (rewrite map_length; lia).
    now rewrite (map_nth (fun row => nth j row 0)).
Qed.

Lemma transpose_involutive rows cols m t : (0 < rows)%nat -> (0 < cols)%nat -> rectangular rows cols m ->
  transpose m = Some (map (map Some) t) -> transpose t = Some (map (map Some) m).
Proof.
  intros Hr Hc Rm E. destruct (transpose_spec rows cols m Hr Rm) as [t' [E' [Rt Ht]]].
  rewrite E in E'. injection E' as E'.
  assert (t = t').
  { clear -E'. revert t' E'. induction t as [|x t IH]; destruct t' as [|y t']; cbn; try discriminate; auto.
    intros [= H1 H2]. f_equal; [|now apply IH]. clear -H1.
    revert y H1. induction x; destruct y; cbn; try discriminate; auto. intros [= -> H]. f_equal; auto. }
  subst t'. destruct (transpose_spec cols rows t Hc Rt) as [m' [E2 [Rm' Hm]]].
  rewrite E2. repeat f_equal. destruct Rm as [L F], Rm' as [L' F'].
  rewrite Forall_forall in F, F'.
  apply (nth_ext m' m [] []); [lia|]. intros i Hi.
  assert (Li : length (nth i m' []) = cols) by (apply F', nth_In; auto).
  assert (Li2 : length (nth i m []) = cols) by (apply F, nth_In; lia).
  apply (nth_ext _ _ 0 0); [lia|]. intros j Hj. rewrite Hm, Ht by lia. reflexivity.
Qed.

(** Proofs about SparseModel. *)
Require Import ZArith NArith Znumtheory Lia Bool List Sorted Setoid Morphisms Permutation.
Require Import Verif.Cong Verif.FqModel Verif.FqSpec Verif.FqProofs Verif.PolyModel Verif.PolyProofs
  Verif.InterpProofs Verif.AvlModel Verif.AvlSpec Verif.AvlProofs Verif.SparseModel Verif.SparseSpec.
Import ListNotations.
Open Scope Z_scope.

(** Coefficient function of a tree. *)
Definition tc (t : tree) (k : nat) : Z := lookup t (N.of_nat k).

Lemma wf_rep t : wf t -> represents t (lookup t).
Proof. intros; split; auto. Qed.

Lemma put_lookup t k v f x : wf t -> f (lookup t k) v = Some x ->
  exists t', tree_put t k v f = Some t' /\ wf t' /\
    forall k', lookup t' k' = if N.eqb k' k then x else lookup t k'.
Proof.
  intros Hw E. assert (H := put_refines t (lookup t) k v f (wf_rep t Hw)). rewrite E in H.
  destruct H as [t' [E' [Hw' L]]]. exists t'. split; auto.
Qed.

Lemma lookup_leaf k : lookup Leaf k = 0.
Proof. reflexivity. Qed.

(** Sum of the values listed for a key. *)
Definition psum (l : list (N * Z)) (k : N) : Z :=
  zsum (map (fun e => if N.eqb (fst e) k then snd e else 0) l).

Lemma psum_cons k v l k' : psum ((k, v) :: l) k' = (if N.eqb k k' then v else 0) + psum l k'.
Proof. reflexivity. Qed.
Lemma psum_app l1 l2 k : psum (l1 ++ l2) k = psum l1 k + psum l2 k.
Proof. unfold psum. now rewrite map_app, zsum_app. Qed.
Lemma psum_rev l k : psum (rev l) k = psum l k.
Proof. induction l as [|[a b] l IH]; [reflexivity|]. cbn [rev]. rewrite psum_app, IH, !psum_cons. unfold psum at 2. cbn. lia. Qed.

Lemma psum_notin l k : ~ In k (map fst l) -> psum l k = 0.
Proof.
  intros H. apply zsum_map_0. intros [a b] Hi. cbn [fst snd]. destruct (N.eqb_spec a k); auto.
  exfalso. apply H. subst. change k with (fst (k, b)). now apply in_map.
Qed.

Definition assocz (l : list (N * Z)) (k : N) : Z := match assoc l k with Some v => v | None => 0 end.

Lemma psum_assoc l k : NoDup (map fst l) -> psum l k = assocz l k.
Proof.
  unfold assocz. induction l as [|[a b] l IH]; intros ND; [reflexivity|]. inversion ND; subst.
  rewrite psum_cons. cbn [assoc]. destruct (N.eqb_spec a k) as [->|].
  - rewrite psum_notin by auto. lia.
  - rewrite IH by auto. lia.
Qed.

Lemma bst_NoDup t : bst t -> NoDup (map fst (ascending t)).
Proof. apply srt_NoDup. Qed.
Lemma bst_NoDup_desc t : bst t -> NoDup (map fst (descending t)).
Proof. intros. rewrite descending_rev, map_rev. apply NoDup_rev. now apply bst_NoDup. Qed.

Lemma psum_ascending t k : bst t -> psum (ascending t) k = lookup t k.
Proof. intros H. rewrite psum_assoc by now apply bst_NoDup. unfold assocz. now rewrite lookup_assoc. Qed.
Lemma psum_descending t k : bst t -> psum (descending t) k = lookup t k.
Proof. intros H. now rewrite descending_rev, psum_rev, psum_ascending. Qed.

Lemma lookup_notin t k : bst t -> ~ In k (map fst (ascending t)) -> lookup t k = 0.
Proof. intros Hb H. rewrite <- psum_ascending by auto. now apply psum_notin. Qed.
Lemma lookup_entry t k v : bst t -> In (k, v) (ascending t) -> lookup t k = v.
Proof. intros Hb H. apply assoc_In in H; auto. unfold lookup. now rewrite get_assoc, H. Qed.
Lemma in_keys_lookup t k : wf t -> (In k (map fst (ascending t)) <-> lookup t k <> 0).
Proof.
  intros [Hb [_ Hz]]. split.
  - rewrite in_map_iff. intros [[k' v] [<- Hi]]. cbn [fst]. rewrite (lookup_entry t k' v) by auto.
    rewrite Forall_forall in Hz. now specialize (Hz _ Hi).
  - intros H. destruct (in_dec N.eq_dec k (map fst (ascending t))); auto. now rewrite lookup_notin in H.
Qed.

Section WithQ.
Variable q : Z.

(** All stored values are canonical representatives. *)
Definition ctree (t : tree) : Prop := forall k, 0 <= lookup t k < q.
(** No stored value is a multiple of q. *)
Definition nztree (t : tree) : Prop := forall k, lookup t k ==[q] 0 -> lookup t k = 0.

Lemma ctree_nz t : ctree t -> nztree t.
Proof. intros H k E. specialize (H k). apply cong_canon_unique in E; lia. Qed.

Lemma put_all_add l : forall t, wf t ->
  exists t', put_all t l (add_cb q) = Some t' /\ wf t' /\
    (forall k, lookup t' k ==[q] lookup t k + psum l k) /\
    (forall k, 0 < q -> In k (map fst l) -> 0 <= lookup t' k < q) /\
    (forall k, ~ In k (map fst l) -> lookup t' k = lookup t k).
Proof.
  induction l as [|[k v] l IH]; intros t Hw; cbn [put_all].
  - exists t. split; [reflexivity|]. split; [auto|]. split; [|split].
    + intros; apply cong_eq; unfold psum; cbn; lia.
    + intros k _ [].
    + auto.
  - destruct (put_lookup t k v (add_cb q) _ Hw eq_refl) as [t1 [E1 [W1 L1]]]. rewrite E1.
    destruct (IH t1 W1) as [t' [E [W' [C [R NI]]]]]. exists t'. split; auto. split; auto.
    split; [|split].
    + intros k'. rewrite C, L1, psum_cons. rewrite (N.eqb_sym k' k). destruct (N.eqb_spec k k').
      * subst. rewrite fadd_cong. apply cong_eq; ring.
      * apply cong_eq; ring.
    + intros k' Hq. cbn [map In fst]. destruct (in_dec N.eq_dec k' (map fst l)) as [Hi|Hi]; [auto|].
      intros [<-|]; [|easy]. rewrite NI, L1, N.eqb_refl by auto. now apply fadd_range.
    + intros k' Hn. cbn [map In fst] in Hn. rewrite NI, L1 by tauto.
      destruct (N.eqb_spec k' k); auto. subst; tauto.
Qed.

Lemma put_all_set l : forall t, wf t -> NoDup (map fst l) ->
  exists t', put_all t l set_insert = Some t' /\ wf t' /\
    forall k, lookup t' k = if in_dec N.eq_dec k (map fst l) then assocz l k else lookup t k.
Proof.
  induction l as [|[k v] l IH]; intros t Hw ND; cbn [put_all].
  - exists t; auto.
  - inversion ND; subst. destruct (put_lookup t k v set_insert _ Hw eq_refl) as [t1 [E1 [W1 L1]]]. rewrite E1.
    destruct (IH t1 W1 H2) as [t' [E [W' C]]]. exists t'. split; auto. split; auto.
    intros k'. rewrite C, L1. unfold assocz. cbn [map fst assoc].
    destruct (N.eqb_spec k k') as [->|Hk].
    + rewrite N.eqb_refl. destruct (in_dec _ k' (map fst l)); [easy|].
      destruct (in_dec _ k' _); auto. exfalso. apply n0. now left.
    + destruct (N.eqb_spec k' k); [congruence|].
      destruct (in_dec _ k' (map fst l)), (in_dec _ k' (k :: map fst l)); auto.
      * exfalso; apply n0; now right.
      * destruct i; [congruence|easy].
Qed.

Lemma clone_spec a : wf a -> exists t, clone a = Some t /\ wf t /\ forall k, lookup t k = lookup a k.
Proof.
  intros Ha. assert (Hb := proj1 Ha).
  destruct (put_all_set (descending a) Leaf wf_leaf (bst_NoDup_desc a Hb)) as [t [E [W C]]].
  exists t. split; auto. split; auto. intros k. rewrite C. rewrite <- psum_assoc by now apply bst_NoDup_desc.
  rewrite psum_descending by auto. destruct (in_dec _ _ _) as [|n]; auto.
  rewrite lookup_leaf. symmetry. apply lookup_notin; auto. intros Hi. apply n.
  rewrite descending_rev, map_rev, <- in_rev. exact Hi.
Qed.

Lemma clone_ascending a t : wf a -> wf t -> (forall k, lookup t k = lookup a k) -> ascending t = ascending a.
Proof.
  intros Ha Ht H. apply (entries_unique (lookup a)).
  - apply ascending_entries. split; auto.
  - apply ascending_entries. split; auto.
Qed.

Lemma put_all_mul_const s l : forall t, wf t -> NoDup (map fst l) ->
  exists t', put_all t (map (fun e : N * Z => (fst e, s)) l) (mul_cb q) = Some t' /\ wf t' /\
    forall k, lookup t' k = if in_dec N.eq_dec k (map fst l) then fmul q (lookup t k) s else lookup t k.
Proof.
  induction l as [|[k v] l IH]; intros t Hw ND; cbn [put_all map fst].
  - exists t; auto.
  - inversion ND; subst. destruct (put_lookup t k s (mul_cb q) _ Hw eq_refl) as [t1 [E1 [W1 L1]]]. rewrite E1.
    destruct (IH t1 W1 H2) as [t' [E [W' C]]]. exists t'. split; auto. split; auto.
    intros k'. rewrite C, !L1. cbn [map fst].
    destruct (N.eqb_spec k' k) as [->|Hk].
    + destruct (in_dec _ k (map fst l)); [easy|].
      destruct (in_dec _ k _); auto. exfalso. apply n0. now left.
    + destruct (in_dec _ k' (map fst l)), (in_dec _ k' (k :: map fst l)); auto.
      * exfalso; apply n; now right.
      * destruct i; [congruence|easy].
Qed.

Lemma scale_loop_spec a s : wf a -> exists t, scale_loop q a s = Some t /\ wf t /\
  forall k, lookup t k = fmul q (lookup a k) s.
Proof.
  intros Ha. destruct (put_all_mul_const s (ascending a) a Ha (bst_NoDup a (proj1 Ha))) as [t [E [W C]]].
  exists t. split; auto. split; auto. intros k. rewrite C. destruct (in_dec _ _ _) as [|n]; auto.
  rewrite lookup_notin by (auto; apply Ha). unfold fmul. rewrite Z.mul_0_l. now rewrite Zmod_0_l.
Qed.

Lemma mul_scalar_spec a s : wf a -> exists t, mul_sparse_scalar q a s = Some t /\ wf t /\
  forall k, lookup t k = fmul q (lookup a k) s.
Proof.
  intros Ha. destruct (clone_spec a Ha) as [a' [E [W L]]]. unfold mul_sparse_scalar. rewrite E.
  destruct (scale_loop_spec a' s W) as [t [E' [W' L']]]. exists t. split; auto. split; auto.
  intros k. now rewrite L', L.
Qed.

Lemma add_to_sparse_spec a b : wf a -> wf b -> exists t, add_to_sparse q a b = Some t /\ wf t /\
  (forall k, lookup t k ==[q] lookup a k + lookup b k) /\
  (0 < q -> ctree a -> ctree t) /\ (0 < q -> nztree a -> nztree t).
Proof.
  intros Ha Hb. destruct (clone_spec a Ha) as [a' [E [W L]]]. unfold add_to_sparse. rewrite E.
  destruct (put_all_add (descending b) a' W) as [t [E' [W' [C [R NI]]]]].
  exists t. split; auto. split; auto. split; [|split].
  - intros k. rewrite C, psum_descending, L by apply Hb. reflexivity.
  - intros Hq Hc k. destruct (in_dec N.eq_dec k (map fst (descending b))); auto.
    rewrite NI, L by auto. apply Hc.
  - intros Hq Hc k Ez. destruct (in_dec N.eq_dec k (map fst (descending b))).
    + specialize (R k Hq i). apply cong_canon_unique in Ez; lia.
    + rewrite NI, L in * by auto. now apply Hc.
Qed.

Lemma psum_neg l k : psum (map (fun e => (fst e, fneg q (snd e))) l) k ==[q] - psum l k.
Proof.
  induction l as [|[a b] l IH]; [apply cong_eq; reflexivity|]. cbn [map fst snd]. rewrite !psum_cons, IH.
  destruct (N.eqb a k); [rewrite fneg_cong|]; apply cong_eq; ring.
Qed.

Lemma sub_to_sparse_spec a b : wf a -> wf b -> exists t, sub_to_sparse q a b = Some t /\ wf t /\
  (forall k, lookup t k ==[q] lookup a k - lookup b k) /\
  (0 < q -> ctree a -> ctree t) /\ (0 < q -> nztree a -> nztree t).
Proof.
  intros Ha Hb. destruct (clone_spec a Ha) as [a' [E [W L]]]. unfold sub_to_sparse. rewrite E.
  destruct (put_all_add (map (fun e => (fst e, fneg q (snd e))) (descending b)) a' W) as [t [E' [W' [C [R NI]]]]].
  exists t. split; auto. split; auto. split; [|split].
  - intros k. rewrite C, psum_neg, psum_descending, L by apply Hb. apply cong_eq; ring.
  - intros Hq Hc k. destruct (in_dec N.eq_dec k (map fst (map (fun e => (fst e, fneg q (snd e))) (descending b)))); auto.
    rewrite NI, L by auto. apply Hc.
  - intros Hq Hc k Ez. destruct (in_dec N.eq_dec k (map fst (map (fun e => (fst e, fneg q (snd e))) (descending b)))).
    + specialize (R k Hq i). apply cong_canon_unique in Ez; lia.
    + rewrite NI, L in * by auto. now apply Hc.
Qed.

(** ** Sums over entries *)
Lemma entry_sum l (w : nat -> Z) n : NoDup (map fst l) ->
  zsum (map (fun e => if N.ltb (fst e) (N.of_nat n) then snd e * w (N.to_nat (fst e)) else 0) l) =
  zsum (map (fun i => assocz l (N.of_nat i) * w i) (seq 0 n)).
Proof.
  intros ND. induction n as [|n IH].
  - apply zsum_map_0. intros e _. destruct (N.ltb_spec (fst e) (N.of_nat 0)); auto; lia.
  - rewrite seq_S, map_app, zsum_app, <- IH. cbn [map zsum Nat.add].
    rewrite <- psum_assoc by auto. unfold psum.
    replace (zsum (map (fun e => if N.eqb (fst e) (N.of_nat n) then snd e else 0) l) * w n + 0)
      with (w n * zsum (map (fun e => if N.eqb (fst e) (N.of_nat n) then snd e else 0) l)) by ring.
    rewrite <- zsum_map_scale, <- zsum_map_add. apply zsum_map_ext. intros [k v] _. cbn [fst snd].
    destruct (N.ltb_spec k (N.of_nat (S n))), (N.ltb_spec k (N.of_nat n)), (N.eqb_spec k (N.of_nat n)); try lia.
    subst. rewrite Nnat.Nat2N.id. ring.
Qed.

Lemma tree_sum t (w : nat -> Z) n : bst t -> below (tc t) n ->
  zsum (map (fun e => snd e * w (N.to_nat (fst e))) (ascending t)) =
  zsum (map (fun i => tc t i * w i) (seq 0 n)).
Proof.
  intros Hb Hn. transitivity (zsum (map (fun i => assocz (ascending t) (N.of_nat i) * w i) (seq 0 n))).
  - rewrite <- entry_sum by now apply bst_NoDup. apply zsum_map_ext. intros [k v] Hi. cbn [fst snd].
    destruct (N.ltb_spec k (N.of_nat n)); auto.
    assert (E := lookup_entry t k v Hb Hi). specialize (Hn (N.to_nat k) ltac:(lia)). unfold tc in Hn.
    rewrite Nnat.N2Nat.id in Hn. rewrite <- E, Hn. ring.
  - apply zsum_map_ext. intros i _. unfold tc. rewrite lookup_assoc by auto. reflexivity.
Qed.

(** ** Multiplication *)
Lemma psum_shift (c : N * Z) l k : bst l ->
  psum (map (fun R => ((fst c + fst R)%N, fmul q (snd R) (snd c))) (ascending l)) k ==[q]
  if N.leb (fst c) k then snd c * lookup l (k - fst c) else 0.
Proof.
  intros Hb. unfold psum. rewrite map_map. cbn [fst snd].
  destruct (N.leb_spec (fst c) k).
  - rewrite <- psum_ascending by auto. unfold psum. rewrite <- zsum_map_scale.
    apply zsum_map_cong. intros [a b] _. cbn [fst snd].
    destruct (N.eqb_spec (fst c + a) k), (N.eqb_spec a (k - fst c)); try lia.
    + rewrite fmul_cong. apply cong_eq; ring.
    + apply cong_eq; ring.
  - apply cong_eq. apply zsum_map_0. intros [a b] _. cbn [fst snd].
    destruct (N.eqb_spec (fst c + a) k); auto; lia.
Qed.

Lemma psum_flat_map (f : N * Z -> list (N * Z)) (g : N * Z -> Z) l k :
  (forall e, psum (f e) k ==[q] g e) -> psum (flat_map f l) k ==[q] zsum (map g l).
Proof.
  intros H. induction l as [|e l IH]; [reflexivity|]. cbn [flat_map map zsum].
  rewrite psum_app, H, IH. reflexivity.
Qed.

Lemma mul_sparse_spec a b : wf a -> wf b -> exists t, mul_sparse q a b = Some t /\ wf t /\
  (forall k, tc t k ==[q] fconv (tc a) (tc b) k) /\ (0 < q -> ctree t).
Proof.
  intros Ha Hb. unfold mul_sparse.
  destruct (put_all_add (flat_map (fun L => map (fun R => ((fst L + fst R)%N, fmul q (snd R) (snd L))) (ascending b))
              (ascending a)) Leaf wf_leaf) as [t [E [W [C [R NI]]]]].
  exists t. split; auto. split; auto. split.
  - intros k. unfold tc at 1. rewrite C, lookup_leaf.
    rewrite (psum_flat_map _ (fun c => if N.leb (fst c) (N.of_nat k) then snd c * lookup b (N.of_nat k - fst c) else 0)).
    2:{ intros e. apply psum_shift. apply Hb. }
    apply cong_eq. rewrite Z.add_0_l. unfold fconv.
    rewrite <- (zsum_map_ext (fun i => assocz (ascending a) (N.of_nat i) * tc b (k - i))).
    2:{ intros i _. unfold tc. rewrite (lookup_assoc a) by apply Ha. reflexivity. }
    rewrite <- (entry_sum (ascending a) (fun i => tc b (k - i)%nat)) by (apply bst_NoDup; apply Ha).
    apply zsum_map_ext. intros [i v] _. cbn [fst snd]. unfold tc.
    destruct (N.leb_spec i (N.of_nat k)), (N.ltb_spec i (N.of_nat (S k))); try lia.
    do 2 f_equal. lia.
  - intros Hq k. match type of R with forall k, _ -> In k ?X -> _ => destruct (in_dec N.eq_dec k X) as [Hi|Hi] end.
    + now apply R.
    + rewrite NI, lookup_leaf by auto. lia.
Qed.

(** ** Link to dense coefficient lists *)
Definition dense (f : nat -> Z) (n : nat) : list Z := map f (seq 0 n).

Lemma dense_coef f n k : coef (dense f n) k = if Nat.ltb k n then f k else 0.
Proof.
  unfold coef, dense. destruct (Nat.ltb_spec k n).
  - rewrite (nth_indep _ 0 (f O)) by (rewrite map_length, seq_length; lia).
    rewrite map_nth, seq_nth by lia. reflexivity.
  - apply nth_overflow. rewrite map_length, seq_length. lia.
Qed.
Lemma dense_coef_below f n k : below f n -> coef (dense f n) k = f k.
Proof. intros H. rewrite dense_coef. destruct (Nat.ltb_spec k n); auto. now rewrite H. Qed.
Lemma dense_length f n : length (dense f n) = n.
Proof. unfold dense. now rewrite map_length, seq_length. Qed.

Lemma fval_dense f n x : fval f n x = poly_at (dense f n) x.
Proof.
  unfold fval, poly_at. rewrite dense_length. apply zsum_map_ext. intros i Hi. apply in_seq in Hi.
  fold (coef (dense f n) i). rewrite dense_coef. destruct (Nat.ltb_spec i n); auto; lia.
Qed.

Lemma fval_list v n x : (length v <= n)%nat -> fval (coef v) n x = poly_at v x.
Proof. intros. now rewrite (poly_at_bound v x n). Qed.

Lemma fval_cong (f g : nat -> Z) n x : (forall k, (k < n)%nat -> f k ==[q] g k) -> fval f n x ==[q] fval g n x.
Proof. intros H. apply zsum_map_cong. intros i Hi. apply in_seq in Hi. rewrite H by lia. reflexivity. Qed.

Lemma fval_below f n m x : below f n -> (n <= m)%nat -> fval f m x = fval f n x.
Proof.
  intros H Hm. unfold fval. replace m with (n + (m - n))%nat by lia. rewrite seq_app, map_app, zsum_app.
  rewrite (zsum_map_0 _ (seq (0 + n) (m - n))); [lia|]. intros i Hi. apply in_seq in Hi. rewrite H by lia. ring.
Qed.

Lemma conv_fconv a b k : conv a b k = fconv (coef a) (coef b) k.
Proof. reflexivity. Qed.

Lemma fconv_cong f f' g g' k : (forall i, f i ==[q] f' i) -> (forall i, g i ==[q] g' i) ->
  fconv f g k ==[q] fconv f' g' k.
Proof. intros Hf Hg. apply zsum_map_cong. intros i _. rewrite Hf, Hg. reflexivity. Qed.

Lemma fconv_add_r f g h s k : (forall i, s i ==[q] g i + h i) -> fconv f s k ==[q] fconv f g k + fconv f h k.
Proof.
  intros H. unfold fconv. rewrite <- zsum_map_add. apply zsum_map_cong. intros i _. rewrite H.
  apply cong_eq; ring.
Qed.

Lemma fconv_delta f pos l k :
  fconv f (fun i => if Nat.eqb i pos then l else 0) k = if Nat.leb pos k then f (k - pos)%nat * l else 0.
Proof.
  unfold fconv. destruct (Nat.leb_spec pos k).
  - replace (S k) with ((k - pos) + (1 + pos))%nat by lia. rewrite seq_app, map_app, zsum_app, seq_app, map_app, zsum_app.
    rewrite (zsum_map_0 _ (seq 0 (k - pos))).
    2:{ intros i Hi. apply in_seq in Hi. destruct (Nat.eqb_spec (k - i) pos); [lia|ring]. }
    rewrite (zsum_map_0 _ (seq (0 + (k - pos) + 1) pos)).
    2:{ intros i Hi. apply in_seq in Hi. destruct (Nat.eqb_spec (k - i) pos); [lia|ring]. }
    cbn [seq map zsum Nat.add]. replace (k - (k - pos))%nat with pos by lia. rewrite Nat.eqb_refl. ring.
  - apply zsum_map_0. intros i Hi. apply in_seq in Hi. destruct (Nat.eqb_spec (k - i) pos); [lia|ring].
Qed.

(** ** Evaluation *)
Lemma max_node_le t k v : wf t -> max_node t = (k, v) -> lookup t k = v /\ forall k', lookup t k' <> 0 -> (k' <= k)%N.
Proof.
  intros Hw E. destruct (max_node_spec t (lookup t) (wf_rep t Hw)) as [[_ [E' Z]]|[k1 [v1 [E' [L [_ M]]]]]].
  - rewrite E in E'. injection E' as -> ->. split; auto. intros k' H. now rewrite Z in H.
  - rewrite E in E'. injection E' as -> ->. auto.
Qed.

(** Entries of the power table. *)
Definition powers_ok (at_ : Z) (t : tree) : Prop :=
  wf t /\ lookup t 1%N <> 0 /\ forall k v, In (k, v) (ascending t) -> v ==[q] at_ ^ Z.of_N k.

Lemma power_insert at_ t k v : ~ at_ ==[q] 0 -> powers_ok at_ t -> v ==[q] at_ ^ Z.of_N k ->
  exists t', insert t k v = Some t' /\ powers_ok at_ t'.
Proof.
  intros Hat [Hw [H1 HP]] Hv. unfold insert.
  destruct (put_lookup t k v set_insert _ Hw eq_refl) as [t' [E [W L]]]. exists t'. split; auto.
  split; auto. split.
  - rewrite L. destruct (N.eqb_spec 1 k) as [<-|]; auto. intros ->. apply Hat.
    symmetry. etransitivity; [exact Hv|]. apply cong_eq. apply Z.pow_1_r.
  - intros k' v' Hi. assert (E' := lookup_entry t' k' v' (proj1 W) Hi). rewrite L in E'.
    destruct (N.eqb_spec k' k); [now subst|].
    assert (Hi' : In k' (map fst (ascending t))).
    { apply in_keys_lookup; auto. rewrite E'. intros ->. destruct W as [_ [_ Z]].
      rewrite Forall_forall in Z. now apply (Z _ Hi). }
    apply in_map_iff in Hi'. destruct Hi' as [[k1 v1] [E1 Hi1]]. cbn in E1. subst k1.
    rewrite (lookup_entry t k' v1) in E' by (auto; apply Hw). subst. now apply HP.
Qed.

Lemma power_loop_spec at_ : ~ at_ ==[q] 0 -> forall snap powers rem next e,
  powers_ok at_ powers -> Forall (fun p => snd p ==[q] at_ ^ Z.of_N (fst p)) snap ->
  (exists s1 s2, snap = s1 ++ (1%N, snd (1%N, e)) :: s2 /\ Forall (fun p => (1 < fst p)%N) s1) ->
  exists powers' next', power_loop q powers snap rem next = Some (powers', next') /\
    powers_ok at_ powers' /\ next' ==[q] next * at_ ^ Z.of_N rem.
Proof.
  intros Hat. induction snap as [|[k v] snap IH]; intros powers rem next e HP HF [s1 [s2 [Es Hs]]].
  - destruct s1; discriminate.
  - cbn [power_loop]. inversion HF as [|? ? Hv HF']; subst. cbn [fst snd] in Hv.
    assert (Hk : (0 < k)%N).
    { destruct s1 as [|[pk pv] s1]; cbn [app] in Es; injection Es; intros; subst; [lia|].
      inversion Hs; subst. cbn in *. lia. }
    destruct (N.eqb_spec k 0); [lia|].
    assert (Hvv : fexp_int q v (rem / k) ==[q] at_ ^ Z.of_N (rem / k * k)).
    { rewrite fexp_int_cong. rewrite N2Z.inj_mul, Z.mul_comm, Z.pow_mul_r by apply N2Z.is_nonneg. now apply cong_pow. }
    destruct (power_insert at_ powers (rem / k * k) _ Hat HP Hvv) as [p' [E' HP']]. rewrite E'.
    assert (Hn : fmul q next (fexp_int q v (rem / k)) * at_ ^ Z.of_N (rem mod k) ==[q] next * at_ ^ Z.of_N rem).
    { rewrite fmul_cong, Hvv. apply cong_eq. rewrite <- Z.mul_assoc, <- Z.pow_add_r by apply N2Z.is_nonneg.
      do 2 f_equal. rewrite <- N2Z.inj_add. f_equal. rewrite (N.mul_comm _ k). symmetry. apply N.div_mod. lia. }
    destruct (N.eqb_spec (rem mod k) 0) as [Er|Er].
    + do 2 eexists. split; [reflexivity|]. split; auto. rewrite Er in Hn. cbn in Hn.
      rewrite <- Hn. apply cong_eq; ring.
    + destruct s1 as [|[pk pv] s1]; cbn [app] in Es.
      * injection Es as -> -> ->. rewrite N.mod_1_r in Er. easy.
      * injection Es as <- <- ->. inversion Hs; subst.
        destruct (IH p' (rem mod k)%N (fmul q next (fexp_int q v (rem / k))) e HP' HF') as [p2 [n2 [E2 [HP2 Hn2]]]]; eauto.
        exists p2, n2. rewrite E2. split; auto. split; auto. rewrite Hn2. exact Hn.
Qed.

Lemma desc_split_at_1 t : wf t -> lookup t 1%N <> 0 ->
  exists s1 s2, descending t = s1 ++ (1%N, lookup t 1%N) :: s2 /\ Forall (fun p => (1 < fst p)%N) s1.
Proof.
  intros Hw H1. assert (Hi : In (1%N, lookup t 1%N) (ascending t)).
  { apply (ascending_entries t (lookup t) (wf_rep t Hw)). auto. }
  apply in_split in Hi. destruct Hi as [l1 [l2 E]]. exists (rev l2), (rev l1). split.
  - rewrite descending_rev, E, rev_app_distr. cbn [rev]. now rewrite <- app_assoc.
  - assert (Hb : bst t) by apply Hw. unfold bst in Hb. rewrite E in Hb. apply srt_mid in Hb.
    destruct Hb as [_ [_ [_ F]]]. apply Forall_rev. exact F.
Qed.

Lemma eval_loop_spec at_ : ~ at_ ==[q] 0 -> forall es powers result, powers_ok at_ powers ->
  exists r, eval_loop q es powers result = Some r /\
    r ==[q] result + zsum (map (fun e => snd e * at_ ^ Z.of_N (fst e)) es) /\
    (0 < q -> es <> [] \/ 0 <= result < q -> 0 <= r < q).
Proof.
  intros Hat. induction es as [|[k v] es IH]; intros powers result HP; cbn [eval_loop].
  - exists result. split; auto. split; [apply cong_eq; cbn; lia|]. intros _ [H|H]; easy.
  - destruct HP as [Hw [H1 HV]]. destruct (desc_split_at_1 powers Hw H1) as [s1 [s2 [E F]]].
    destruct (power_loop_spec at_ Hat (descending powers) powers k 1 (lookup powers 1%N)) as [p' [n' [E' [HP' Hn]]]].
    + repeat split; auto; apply Hw.
    + apply Forall_forall. intros [a b] Hi. rewrite descending_rev, <- in_rev in Hi. cbn. now apply HV.
    + exists s1, s2. split; auto.
    + rewrite E'. destruct (IH p' (fadd q result (fmul q v n')) HP') as [r [Er [C R]]].
      exists r. split; auto. split.
      * rewrite C, fadd_cong, fmul_cong, Hn. cbn [map zsum fst snd]. apply cong_eq; ring.
      * intros Hq _. apply R; auto. right. now apply fadd_range.
Qed.

Lemma below_max t : wf t -> below (tc t) (S (N.to_nat (max_power t))).
Proof.
  intros Hw k Hk. unfold max_power in Hk. destruct (max_node t) as [a b] eqn:E.
  destruct (max_node_le t a b Hw E) as [_ M]. cbn [fst] in Hk.
  destruct (Z.eq_dec (tc t k) 0) as [|n]; auto. apply M in n. lia.
Qed.

Lemma eval_sum t x n : wf t -> below (tc t) n ->
  zsum (map (fun e => snd e * x ^ Z.of_N (fst e)) (ascending t)) = fval (tc t) n x.
Proof.
  intros Hw Hn. unfold fval. rewrite <- (tree_sum t (fun i => x ^ Z.of_nat i)) by (auto; apply Hw).
  apply zsum_map_ext. intros e _. now rewrite N_nat_Z.
Qed.

Lemma fval_at_0 f n : below f n -> fval f n 0 = f O.
Proof.
  intros H. destruct n as [|n]; [cbn; rewrite H; auto; lia|]. unfold fval. cbn [seq map zsum].
  rewrite zsum_map_0; [change (0 ^ Z.of_nat 0) with 1; ring|].
  intros i Hi. apply in_seq in Hi. rewrite Z.pow_0_l by lia. ring.
Qed.

Lemma eval_sparse_spec t x n : 1 < q -> wf t -> below (tc t) n -> (x = 0 \/ ~ x ==[q] 0) ->
  exists r, eval_sparse q t x = Some r /\ r ==[q] fval (tc t) n x /\ (x <> 0 -> 0 <= r < q).
Proof.
  intros Hq Hw Hn Hx. unfold eval_sparse. destruct (Z.eqb_spec x 0) as [->|Hx0].
  - eexists. split; [reflexivity|]. split; [|easy]. rewrite fval_at_0 by auto. reflexivity.
  - destruct Hx as [|Hx]; [easy|].
    destruct (proj2 (insert_no_overwrite_spec Leaf aempty 1%N x empty_represents) eq_refl) as [p [E [W L]]].
    rewrite E. destruct (eval_loop_spec x Hx (ascending t) p 0) as [r [Er [C R]]].
    + split; auto. split.
      * rewrite L. unfold aset. cbn. exact Hx0.
      * intros k v Hi. assert (E' := lookup_entry p k v (proj1 W) Hi). rewrite L in E'. unfold aset, aempty in E'.
        destruct (N.eqb_spec k 1).
        -- subst. apply cong_eq. symmetry. apply Z.pow_1_r.
        -- exfalso. subst v. destruct W as [_ [_ Z]]. rewrite Forall_forall in Z. now apply (Z _ Hi).
    + exists r. split; auto. split.
      * rewrite C, (eval_sum t x n) by auto. apply cong_eq; ring.
      * intros _. apply R; [lia|right; lia].
Qed.

(** ** Division *)
Lemma insert_no_overwrite_lookup t k v : wf t -> lookup t k = 0 ->
  exists t', insert_no_overwrite t k v = Some t' /\ wf t' /\
    forall k', lookup t' k' = if N.eqb k' k then v else lookup t k'.
Proof.
  intros Hw H0. destruct (proj2 (insert_no_overwrite_spec t (lookup t) k v (wf_rep t Hw)) H0) as [t' [E [W L]]].
  exists t'. auto.
Qed.

Lemma max_node_lt t ka : wf t -> (forall k, (ka <= k)%N -> lookup t k = 0) -> (0 < ka)%N -> (max_power t < ka)%N.
Proof.
  intros Hw H Hk. unfold max_power. destruct (max_node_spec t (lookup t) (wf_rep t Hw)) as [[_ [-> _]]|[k [v [-> [L [Hv _]]]]]]; cbn [fst]; auto.
  destruct (N.lt_ge_cases k ka) as [|G]; auto. apply H in G. congruence.
Qed.

Section Div.
Variable b : tree.
Hypothesis Pq : prime q.
Hypothesis Wb : wf b.
Variables (kb : N) (vb : Z).
Hypothesis Mb : max_node b = (kb, vb).
Hypothesis Nb : ~ vb ==[q] 0.

Let q_pos : 0 < q.
Proof. destruct Pq; lia. Qed.

Lemma div_round_sparse res rem ka va : wf res -> wf rem -> nztree rem -> max_node rem = (ka, va) ->
  (kb <= ka)%N -> va <> 0 -> (forall k, (k <= ka - kb)%N -> lookup res k = 0) ->
  exists l aux res' mul rem', fdiv q va vb = Some l /\ insert_no_overwrite Leaf (ka - kb) l = Some aux /\
    insert_no_overwrite res (ka - kb) l = Some res' /\ mul_sparse q b aux = Some mul /\
    sub_to_sparse q rem mul = Some rem' /\ wf res' /\ wf rem' /\ nztree rem' /\ l <> 0 /\ 0 <= l < q /\
    (forall k, lookup res' k = if N.eqb k (ka - kb) then l else lookup res k) /\
    (forall k, (ka <= k)%N -> lookup rem' k = 0) /\
    (forall k, fconv (tc b) (tc res') k + tc rem' k ==[q] fconv (tc b) (tc res) k + tc rem k).
Proof.
  intros Wr Wm Zm Em Hk Hva Hres.
  destruct (max_node_le rem ka va Wm Em) as [La Ma]. destruct (max_node_le b kb vb Wb Mb) as [Lb Mb'].
  assert (Nva : ~ va ==[q] 0) by (rewrite <- La; intros X; apply Zm in X; congruence).
  destruct (fdiv_prime q va vb Pq Nb) as [l [E1 [R1 C1]]].
  assert (Hl : l <> 0) by (intros ->; apply Nva; rewrite <- C1; reflexivity).
  set (pos := (ka - kb)%N) in *.
  destruct (insert_no_overwrite_lookup Leaf pos l wf_leaf eq_refl) as [aux [E2 [W2 L2]]].
  destruct (insert_no_overwrite_lookup res pos l Wr (Hres pos ltac:(lia))) as [res' [E3 [W3 L3]]].
  destruct (mul_sparse_spec b aux Wb W2) as [mul [E4 [W4 [C4 R4]]]].
  destruct (sub_to_sparse_spec rem mul Wm W4) as [rem' [E5 [W5 [C5 [_ Z5]]]]].
  specialize (R4 q_pos). specialize (Z5 q_pos Zm).
  assert (Maux : forall k, tc mul k ==[q] if Nat.leb (N.to_nat pos) k then tc b (k - N.to_nat pos) * l else 0).
  { intros k. rewrite C4. rewrite <- (fconv_delta (tc b)). apply fconv_cong; [reflexivity|].
    intros i. unfold tc. rewrite L2, lookup_leaf. apply cong_eq.
    destruct (N.eqb_spec (N.of_nat i) pos), (Nat.eqb_spec i (N.to_nat pos)); auto; lia. }
  exists l, aux, res', mul, rem'.
  do 11 (split; [assumption|]). split.
  - intros k Hka. apply Z5. rewrite C5.
    assert (M := Maux (N.to_nat k)). unfold tc in M. rewrite Nnat.N2Nat.id in M. rewrite M.
    destruct (Nat.leb_spec (N.to_nat pos) (N.to_nat k)) as [Hp|Hp]; [|lia].
    replace (N.of_nat (N.to_nat k - N.to_nat pos)) with (k - pos)%N by lia.
    destruct (N.eq_dec k ka) as [->|Hne].
    + rewrite La. replace (ka - pos)%N with kb by lia. rewrite Lb, Z.mul_comm, C1. apply cong_eq; ring.
    + assert (lookup rem k = 0) as ->.
      { destruct (Z.eq_dec (lookup rem k) 0) as [|X]; auto. apply Ma in X. lia. }
      assert (lookup b (k - pos) = 0) as ->.
      { destruct (Z.eq_dec (lookup b (k - pos)) 0) as [|X]; auto. apply Mb' in X. lia. }
      apply cong_eq; ring.
  - intros k. rewrite (fconv_add_r (tc b) (tc res) (tc aux) (tc res')).
    + rewrite <- C4. assert (X : tc rem' k ==[q] tc rem k - tc mul k) by apply C5.
      rewrite X. apply cong_eq; ring.
    + intros i. unfold tc. rewrite L3, L2, lookup_leaf.
      destruct (N.eqb_spec (N.of_nat i) pos) as [->|]; [rewrite Hres by lia|]; apply cong_eq; ring.
Qed.

Lemma divide_loop_spec : (1 <= kb)%N -> forall fuel res rem,
  wf res -> wf rem -> nztree rem -> (N.to_nat (max_power rem) < fuel + N.to_nat kb)%nat ->
  (forall k, (k <= max_power rem - kb)%N -> (kb <= max_power rem)%N -> lookup res k = 0) ->
  exists quo rem', divide_loop q fuel b res rem = Ret (quo, rem') /\ wf quo /\ wf rem' /\ nztree rem' /\
    (max_power rem' < kb)%N /\ (ctree res -> ctree quo) /\
    (forall k, fconv (tc b) (tc quo) k + tc rem' k ==[q] fconv (tc b) (tc res) k + tc rem k).
Proof.
  intros Hkb. induction fuel as [|f IH]; intros res rem Wr Wm Zm Hf Hres.
  - cbn [divide_loop]. unfold max_power in Hf. destruct (max_node rem) as [ka va] eqn:Em. rewrite Mb. cbn [fst] in Hf.
    destruct (N.ltb_spec ka kb); [|lia]. exists res, rem.
    split; [reflexivity|]. split; [assumption|]. split; [assumption|]. split; [assumption|].
    split; [unfold max_power; rewrite Em; exact H|]. split; [auto|reflexivity].
  - cbn [divide_loop]. unfold max_power in Hf, Hres. destruct (max_node rem) as [ka va] eqn:Em. rewrite Mb. cbn [fst] in Hf, Hres.
    destruct (N.ltb_spec ka kb) as [Hlt|Hge].
    + exists res, rem.
      split; [reflexivity|]. split; [assumption|]. split; [assumption|]. split; [assumption|].
      split; [unfold max_power; rewrite Em; exact Hlt|]. split; [auto|reflexivity].
    + assert (Hva : va <> 0).
      { destruct (max_node_spec rem (lookup rem) (wf_rep rem Wm)) as [[_ [E' _]]|[k [v [E' [_ [Hv _]]]]]]; rewrite Em in E'; injection E' as -> ->; [lia|auto]. }
      destruct (div_round_sparse res rem ka va Wr Wm Zm Em Hge Hva) as
        [l [aux [res' [mul [rem' [E1 [E2 [E3 [E4 [E5 [W3 [W5 [Z5 [Hl [Rl [L3 [Hz Hc]]]]]]]]]]]]]]]]]; [auto|].
      rewrite E1, E2, E3, E4, E5.
      assert (Hmax : (max_power rem' < ka)%N) by (apply max_node_lt; auto; lia).
      destruct (IH res' rem' W3 W5 Z5) as [quo [rem2 [E [Wq [Wr2 [Zr2 [Hm [HC Hc2]]]]]]]].
      * lia.
      * intros k Hk Hk2. rewrite L3. destruct (N.eqb_spec k (ka - kb)); [lia|]. apply Hres; lia.
      * exists quo, rem2. do 5 (split; [assumption|]). split.
        -- intros X. apply HC. intros k. rewrite L3. destruct (N.eqb k (ka - kb)); auto.
        -- intros k. rewrite Hc2. apply Hc.
Qed.

Lemma divide_sparse_spec a : (1 <= kb)%N -> wf a -> nztree a ->
  forall fuel, (N.to_nat (max_power a) <= fuel)%nat ->
  exists quo rem, divide_sparse q fuel a b = Ret (quo, rem) /\ wf quo /\ wf rem /\ ctree quo /\
    nztree rem /\ (max_power rem < kb)%N /\
    forall k, tc a k ==[q] fconv (tc b) (tc quo) k + tc rem k.
Proof.
  intros Hkb Wa Za fuel Hf. unfold divide_sparse. destruct (clone_spec a Wa) as [a' [E [W L]]]. rewrite E.
  assert (M : max_power a' = max_power a).
  { unfold max_power, max_node. assert (A := clone_ascending a a' Wa W L).
    assert (R : forall t, rmd t = match rev (ascending t) with [] => None | e :: _ => Some e end).
    { intros t. destruct (rmd t) as [e|] eqn:Er.
      - rewrite (popmax_asc t e Er), rev_app_distr. reflexivity.
      - apply rmd_none in Er. now subst. }
    now rewrite !R, A. }
  destruct (divide_loop_spec Hkb fuel Leaf a' wf_leaf W) as [quo [rem [E' [Wq [Wr [Zr [Hm [HC Hc]]]]]]]].
  - intros k. rewrite L. apply Za.
  - rewrite M. lia.
  - reflexivity.
  - exists quo, rem. do 3 (split; [assumption|]). split; [apply HC; intros k; rewrite lookup_leaf; lia|].
    do 2 (split; [assumption|]). intros k. rewrite Hc.
    assert (fconv (tc b) (tc Leaf) k = 0) as ->.
    { apply zsum_map_0. intros; unfold tc; rewrite lookup_leaf; ring. }
    unfold tc. rewrite L. apply cong_eq; ring.
Qed.
End Div.
End WithQ.

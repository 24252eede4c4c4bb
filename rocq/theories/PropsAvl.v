(** C15-C19: the AVL tree behind sparse vectors. *)
Require Import ZArith NArith Lia List Sorted.
Require Import Verif.AvlModel Verif.AvlSpec Verif.AvlProofs.
Import ListNotations.
Open Scope Z_scope.

(** C15.  After any history (combining puts with arbitrary, possibly panicking callbacks;
    removals of keys that are present) the tree answers every Get and Has as the abstract map
    does, and the run panics exactly when a callback panics. *)
Theorem C15_tree_is_map : forall os,
  removes_present aempty os ->
  match arun aempty os with
  | None => run Leaf os = None
  | Some m => exists t, run Leaf os = Some t /\
      forall k, get t k = (if m k =? 0 then None else Some (m k)) /\
                has t k = negb (m k =? 0)
  end.
Proof.
  intros os H. assert (R := run_refines os Leaf aempty empty_represents H).
  destruct (arun aempty os) as [m|]; auto. destruct R as [t [E R]]. exists t. split; auto.
  intros k. rewrite has_get, (get_represents t m k R). destruct (m k =? 0); auto.
Qed.
Print Assumptions C15_tree_is_map.

Definition put1 (k : N) : op := OpPut k 1 set_insert.
Definition hist : list op :=
  map put1 [4; 2; 6; 5; 7; 8]%N ++ [OpRemove 2%N; OpRemove 4%N; OpPut 8%N (-1) (fun a b => Some (a + b))].
Example C15_case : removes_present aempty hist /\
  exists t, run Leaf hist = Some t /\ get t 5%N = Some 1 /\ get t 8%N = None /\ get t 4%N = None.
Proof. split; [cbn; repeat split; easy|]. eexists. repeat split; vm_compute; reflexivity. Qed.

(** C15.  Removing an absent key may lose entries: the node-level Remove rebalances in place but
    the tree keeps its old root pointer. *)
Theorem C15_remove_absent_refuted : exists os t t' k k' v,
  run Leaf os = Some t /\ get t k = None /\ tree_remove t k = Some (t', None) /\
  get t k' = Some v /\ get t' k' = None.
Proof.
  exists (map put1 [4; 2; 6; 5; 7; 8]%N ++ [OpRemove 2%N; OpRemove 4%N]).
  eexists. eexists. exists 9%N, 7%N, 1. repeat split; vm_compute; reflexivity.
Qed.
Print Assumptions C15_remove_absent_refuted.

(** C16.  Balancing stops on every search tree, whatever (non-negative) heights are stored in
    it, keeps the entries, and ends with a root whose stored heights differ by at most 2. *)
Theorem C16_balance_terminates : forall t,
  StronglySorted (fun a b => (fst a < fst b)%N) (ascending t) -> nonneg t ->
  exists t', balance t = Some t' /\ ascending t' = ascending t /\ nonneg t' /\
    match t' with Leaf => True | Node l _ _ _ r => Z.abs (height l - height r) <= 2 end.
Proof.
  intros t Hb Hn. destruct (balance_ok t Hb Hn) as [t' [E [N' A]]].
  exists t'. repeat split; auto. eapply balance_loop_done. exact E.
Qed.
Print Assumptions C16_balance_terminates.

(** C16.  Every tree reached by a history satisfies these hypotheses, so no insertion and no
    removal ever fails to return. *)
Theorem C16_reachable : forall os t, removes_present aempty os -> run Leaf os = Some t ->
  StronglySorted (fun a b => (fst a < fst b)%N) (ascending t) /\ nonneg t.
Proof.
  intros os t H E. assert (R := run_refines os Leaf aempty empty_represents H).
  destruct (arun aempty os) as [m|]; [|congruence]. destruct R as [t' [E' [[Hb [Hn _]] _]]].
  rewrite E in E'. injection E' as <-. split; auto.
Qed.
Print Assumptions C16_reachable.

Definition drifted : tree :=
  Node (Node (Node Leaf 1 1 9 Leaf) 2 1 7 (Node Leaf 3 1 0 Leaf)) 4%N 1 3 Leaf.
Example C16_case : nonneg drifted /\ option_map ascending (balance drifted) =
  Some [(1%N, 1); (2%N, 1); (3%N, 1); (4%N, 1)] /\ balance drifted <> Some drifted.
Proof. split; [cbn; lia|split; vm_compute; congruence]. Qed.

(** C17.  Traversals list exactly the entries of the abstract map, each once, in order. *)
Theorem C17_traversal : forall os m, removes_present aempty os -> arun aempty os = Some m ->
  exists t, run Leaf os = Some t /\ entries_of m (ascending t) /\
    descending t = rev (ascending t) /\ size t = length (ascending t).
Proof.
  intros os m H E. assert (R := run_refines os Leaf aempty empty_represents H).
  rewrite E in R. destruct R as [t [E' R]]. exists t.
  split; auto. split; [now apply ascending_entries|]. split; [apply descending_rev|apply size_ascending].
Qed.
Print Assumptions C17_traversal.

(** C17.  MaxNode, MaxPower and MinNode give the entries with the largest and the smallest key;
    on the empty tree MaxNode gives (0, 0) and MinNode aborts. *)
Theorem C17_extremes : forall os m, removes_present aempty os -> arun aempty os = Some m ->
  exists t, run Leaf os = Some t /\ max_power t = fst (max_node t) /\
    ((forall k, m k = 0) -> max_node t = (0%N, 0) /\ min_node t = None) /\
    (forall k, m k <> 0 -> (forall k', m k' <> 0 -> (k' <= k)%N) -> max_node t = (k, m k)) /\
    (forall k, m k <> 0 -> (forall k', m k' <> 0 -> (k <= k')%N) -> min_node t = Some (k, m k)).
Proof.
  intros os m H E. assert (R := run_refines os Leaf aempty empty_represents H).
  rewrite E in R. destruct R as [t [E' R]]. exists t. split; [exact E'|]. split; [reflexivity|].
  assert (HE := ascending_entries t m R). destruct HE as [Hs He].
  assert (X := max_node_spec t m R).
  assert (L : min_node t = None -> forall k, m k = 0).
  { intros N k. apply lmd_none in N. subst t. destruct (Z.eq_dec (m k) 0) as [|Hk]; [assumption|].
    exfalso. apply (proj2 (He k (m k))). auto. }
  split; [|split].
  - intros Z0. split.
    + destruct X as [(_ & X & _)|(k & v & _ & X1 & X2 & _)]; [exact X|]. subst v. now rewrite Z0 in X2.
    + destruct (min_node t) as [[k v]|] eqn:M; [|reflexivity].
      apply lmd_In in M. apply He in M. destruct M as [M1 M2]. subst v. now rewrite Z0 in M2.
  - intros k Hk Hmax. destruct X as [(_ & _ & X)|(k1 & v1 & X0 & X1 & X2 & X3)]; [now rewrite X in Hk|].
    subst v1. assert (k = k1) as -> by (apply N.le_antisymm; [now apply X3|now apply Hmax]). exact X0.
  - intros k Hk Hmin. destruct (min_node t) as [[k1 v1]|] eqn:M; [|now rewrite (L eq_refl) in Hk].
    assert (I1 := lmd_In _ _ M). apply He in I1. destruct I1 as [I1 I2].
    assert (I3 : In (k, m k) (ascending t)) by (apply He; auto).
    assert (k1 = k) as ->; [|congruence].
    rewrite (popmin_asc _ _ M) in Hs, I3. destruct I3 as [I3|I3]; [congruence|].
    inversion Hs as [|a b _ F]; subst. rewrite Forall_forall in F. specialize (F _ I3). cbn in F.
    assert (k <= k1)%N by (apply Hmin; congruence). lia.
Qed.
Print Assumptions C17_extremes.
Example C17_extremes_case : exists t, run Leaf (map put1 [4; 2; 6]%N) = Some t /\
  max_node t = (6%N, 1) /\ min_node t = Some (2%N, 1) /\ max_power t = 6%N.
Proof. eexists. split; [reflexivity|]. repeat split. Qed.

(** C17.  Hence two histories with the same final map give equal traversals, whatever the shapes. *)
Theorem C17_shape_independent : forall os1 os2 m1 m2 t1 t2,
  removes_present aempty os1 -> removes_present aempty os2 ->
  arun aempty os1 = Some m1 -> arun aempty os2 = Some m2 -> (forall k, m1 k = m2 k) ->
  run Leaf os1 = Some t1 -> run Leaf os2 = Some t2 ->
  ascending t1 = ascending t2 /\ descending t1 = descending t2 /\ size t1 = size t2.
Proof.
  intros os1 os2 m1 m2 t1 t2 P1 P2 A1 A2 Hm R1 R2.
  destruct (C17_traversal os1 m1 P1 A1) as [t1' [E1 [X1 [D1 S1]]]].
  destruct (C17_traversal os2 m2 P2 A2) as [t2' [E2 [X2 [D2 S2]]]].
  rewrite R1 in E1; injection E1 as <-. rewrite R2 in E2; injection E2 as <-.
  assert (ascending t1 = ascending t2).
  { apply (entries_unique m1); auto. destruct X2 as [Y Z]. split; auto. intros k v. now rewrite Z, Hm. }
  repeat split; auto; congruence.
Qed.
Print Assumptions C17_shape_independent.

Example C17_case : option_map ascending (run Leaf hist) = Some [(5%N, 1); (6%N, 1); (7%N, 1)] /\
  option_map descending (run Leaf (map put1 [7; 6; 5]%N)) = Some [(7%N, 1); (6%N, 1); (5%N, 1)].
Proof. split; reflexivity. Qed.

(** C18.  The no-overwrite insertion panics exactly on a present key; otherwise it is Insert. *)
Theorem C18_no_overwrite : forall os m k v, removes_present aempty os -> arun aempty os = Some m ->
  exists t, run Leaf os = Some t /\
    (m k <> 0 -> insert_no_overwrite t k v = None) /\
    (m k = 0 -> insert_no_overwrite t k v = insert t k v /\ insert_no_overwrite t k v <> None).
Proof.
  intros os m k v H E. assert (R := run_refines os Leaf aempty empty_represents H).
  rewrite E in R. destruct R as [t [E' R]]. exists t. split; auto.
  destruct (insert_no_overwrite_spec t m k v R) as [I1 I2]. split; auto. intros Hk.
  split; [|destruct (I2 Hk) as [t' [-> _]]; easy].
  assert (G := get_represents t m k R). rewrite Hk in G. cbn in G.
  unfold insert_no_overwrite, insert, tree_put.
  enough (A : node_put t k v set_insert_no_override = node_put t k v set_insert) by now rewrite A.
  clear -G. induction t as [|l IHl kk vv h r IHr]; [reflexivity|]. cbn [get] in G. cbn [node_put].
  destruct (N.eqb kk k); [discriminate|]. destruct (N.ltb k kk); [rewrite (IHl G)|rewrite (IHr G)]; reflexivity.
Qed.
Print Assumptions C18_no_overwrite.

Example C18_case : exists t, run Leaf hist = Some t /\
  insert_no_overwrite t 5%N 3 = None /\ option_map ascending (insert_no_overwrite t 2%N 3) =
  Some [(2%N, 3); (5%N, 1); (6%N, 1); (7%N, 1)].
Proof. eexists. repeat split; vm_compute; reflexivity. Qed.

(** C19.  An array survives the conversion to a tree and back to any length that exceeds its
    largest non-zero index (padding with zeros, cutting only zeros). *)
Theorem C19_round_trip : forall (l : list Z) n, (forall i, nth i l 0 <> 0 -> (i < n)%nat) ->
  exists t l', from_array l = Some t /\ to_array t (N.of_nat n) = Some l' /\ length l' = n /\
    forall i, (i < n)%nat -> nth i l' 0 = nth i l 0.
Proof.
  intros l n H. destruct (from_array_spec l) as [t [E R]].
  destruct (to_array_spec t _ (N.of_nat n) R) as [l' [E' [L C]]].
  - intros k Hk. apply H in Hk. lia.
  - exists t, l'. rewrite Nnat.Nat2N.id in L. repeat split; auto. intros i Hi.
    specialize (C (N.of_nat i) ltac:(lia)). now rewrite Nnat.Nat2N.id in C.
Qed.
Print Assumptions C19_round_trip.

(** C19.  Any shorter length panics, in particular the largest non-zero index itself, which the
    guard of ToArray lets through. *)
Theorem C19_too_short : forall (l : list Z) n i, nth i l 0 <> 0 -> (n <= i)%nat ->
  exists t, from_array l = Some t /\ to_array t (N.of_nat n) = None.
Proof.
  intros l n i Hi Hn. destruct (from_array_spec l) as [t [E R]]. exists t. split; auto.
  apply (to_array_short t _ _ (N.of_nat i) R); [|lia]. now rewrite Nnat.Nat2N.id.
Qed.
Print Assumptions C19_too_short.

Example C19_case : exists t, from_array [0; 5; 0; 7; 0] = Some t /\ to_array t 4 = Some [0; 5; 0; 7] /\
  max_power t = 3%N /\ to_array t 3 = None.
Proof. eexists. repeat split; vm_compute; reflexivity. Qed.

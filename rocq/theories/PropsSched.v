(** C24, C25: updating a tree while it is being walked. *)
Require Import ZArith NArith Znumtheory Lia Bool List.
Require Import Verif.Cong Verif.FqModel Verif.FqProofs Verif.AvlModel Verif.AvlSpec Verif.AvlProofs
  Verif.SparseModel Verif.SparseProofs Verif.SchedModel Verif.SchedProofs.
Import ListNotations.
Open Scope Z_scope.

(** C24: MulSparseScalar.  The machine starts with the clone in memory.  Whatever the
    interleaving: at most 10 steps per entry, no panic, no lost or repeated key, no deadlock; and
    when both goroutines are done the memory holds the tree of the sequential model, whose
    entries are the products. *)
Theorem C24_schedule_independent : forall q s a, prime q -> wf a ->
  (forall k v, In (k, v) (ascending a) -> ~ (q | v)) ->
  exists t, clone a = Some t /\
  forall m n st, repr m (hroot m) t -> steps q (fun _ => Some s) n (start m t) st ->
    (n <= 10 * size a)%nat /\ bad st = false /\
    (finished st \/ exists st', step q (fun _ => Some s) st st') /\
    (finished st ->
       log st = map fst (ascending a) /\
       mul_sparse_scalar q a s = Some (view st) /\
       repr (mem st) (hroot (mem st)) (view st) /\
       forall k, lookup (view st) k = (lookup a k * s) mod q).
Proof.
  intros q s a Hq Hw Hnz. destruct (clone_spec a Hw) as [t [E [Wt L]]].
  assert (EK : ascending t = ascending a).
  { apply (entries_unique (lookup a)); apply ascending_entries; split; auto. }
  exists t. split; auto. intros m n st HR HS.
  assert (ES : size t = size a) by (now rewrite !size_ascending, EK).
  assert (PF : forall k1 k2, In k1 (map fst (ascending t)) -> In k2 (map fst (ascending t)) -> (k1 < k2)%N ->
     vanishes q (fun _ => Some s) t k2 -> vanishes q (fun _ => Some s) t k1).
  { intros k1 k2 H1 H2 _. unfold vanishes, fmul. intros H.
    apply Z.mod_divide in H; [|intros ->; now apply not_prime_0]. apply prime_mult in H; auto.
    destruct H as [H|H].
    - exfalso. apply in_map_iff in H2. destruct H2 as [[k v] [<- Hi]]. rewrite (lookup_entry t _ v) in H; auto; [|apply Wt].
      rewrite EK in Hi. now apply (Hnz k v).
    - apply Z.mod_divide; [intros ->; now apply not_prime_0|]. now apply Z.divide_mul_r. }
  destruct (prefix_schedules q (fun _ => Some s) t Wt (fun _ _ => ltac:(discriminate)) PF m n st HR HS) as [A [B [C D]]].
  rewrite ES in A. split; auto. split; auto. split; auto. intros F. destruct (D F) as [D1 [D2 D3]].
  split; [now rewrite <- EK|]. split.
  { unfold mul_sparse_scalar. rewrite E. unfold scale_loop. rewrite <- D2. symmetry. apply puts_scale. }
  split.
  - assert (S := sound_steps q (fun _ => Some s) n _ st HS). destruct S as [_ S].
    + split; [exact Wt|exact HR].
    + destruct F as [_ F]. rewrite F in S. exact S.
  - intros k. rewrite D3, L. reflexivity.
Qed.
Print Assumptions C24_schedule_independent.
(** A tree with entries in every shape position and a scalar that kills all of them: the walker
    runs while the tree is emptied under it. *)
Definition C24_tree : tree := Node (Node Leaf 1 5 1 Leaf) 2 6 3 (Node Leaf 3 1 2 (Node Leaf 4 2 1 Leaf)).
Example C24_case : wf C24_tree /\
  exists st, runs 7 (fun _ => Some 0)
    [false; false; false; false; true; false; false; true; false; false; false; false; true; false; false; false; false; true; false]
    (start (heap_of C24_tree) C24_tree) = Some st /\ finished st /\ view st = Leaf.
Proof.
  split.
  - repeat split; repeat constructor; cbn; try lia.
  - eexists. split; [vm_compute; reflexivity|]. split; [split; reflexivity|reflexivity].
Qed.

(** C25, first half: Combine is schedule independent as long as the weights cover every index and
    the entries whose product vanishes precede all others (in particular when no product
    vanishes, or all do). *)
Theorem C25_no_deletion_behind : forall q a w, wf a ->
  (forall k, In k (map fst (ascending a)) -> (N.to_nat k < length w)%nat) ->
  (forall k1 k2, In k1 (map fst (ascending a)) -> In k2 (map fst (ascending a)) -> (k1 < k2)%N ->
     (lookup a k2 * nth (N.to_nat k2) w 0) mod q = 0 -> (lookup a k1 * nth (N.to_nat k1) w 0) mod q = 0) ->
  forall m n st, repr m (hroot m) a -> steps q (fun k => nth_error w (N.to_nat k)) n (start m a) st ->
    (n <= 10 * size a)%nat /\ bad st = false /\
    (finished st \/ exists st', step q (fun k => nth_error w (N.to_nat k)) st st') /\
    (finished st ->
       log st = map fst (ascending a) /\
       combine_sparse q a w = Some (view st) /\
       repr (mem st) (hroot (mem st)) (view st) /\
       forall k, lookup (view st) k = (lookup a k * nth (N.to_nat k) w 0) mod q).
Proof.
  intros q a w Hw HL HP m n st HR HS.
  assert (NE : forall k, In k (map fst (ascending a)) -> nth_error w (N.to_nat k) = Some (nth (N.to_nat k) w 0)).
  { intros k Hk. apply nth_error_nth'. now apply HL. }
  assert (WD : forall k, In k (map fst (ascending a)) -> nth_error w (N.to_nat k) <> None).
  { intros k Hk. rewrite NE; auto. discriminate. }
  assert (PF : forall k1 k2, In k1 (map fst (ascending a)) -> In k2 (map fst (ascending a)) -> (k1 < k2)%N ->
     vanishes q (fun k => nth_error w (N.to_nat k)) a k2 -> vanishes q (fun k => nth_error w (N.to_nat k)) a k1).
  { intros k1 k2 H1 H2 Hk. unfold vanishes. rewrite !NE by auto. unfold fmul. now apply HP. }
  destruct (prefix_schedules q _ a Hw WD PF m n st HR HS) as [A [B [C D]]].
  split; auto. split; auto. split; auto. intros F. destruct (D F) as [D1 [D2 D3]].
  split; auto. split.
  { unfold combine_sparse. rewrite <- D2. symmetry. apply puts_combine. }
  split.
  - assert (S := sound_steps q _ n _ st HS). destruct S as [_ S].
    + split; [exact Hw|exact HR].
    + destruct F as [_ F]. rewrite F in S. exact S.
  - intros k. rewrite D3. destruct (in_dec N.eq_dec k (map fst (ascending a))) as [Hi|Hi].
    + rewrite NE by auto. reflexivity.
    + rewrite (lookup_notin a k) by (auto; apply Hw). rewrite Z.mul_0_l, Zmod_0_l.
      destruct (nth_error w (N.to_nat k)); auto.
Qed.
Print Assumptions C25_no_deletion_behind.

(** C25, second half: with a zero weight in the middle two schedules of the same call give
    different vectors; in the first one, key 1 is multiplied twice. *)
Theorem C25_schedule_independent_refuted :
  exists q a w m, prime q /\ wf a /\ repr m (hroot m) a /\
    (forall k v, In (k, v) (ascending a) -> 0 < v < q /\ (N.to_nat k < length w)%nat) /\
    Forall (fun x => 0 <= x < q) w /\
    exists n1 s1 n2 s2,
      steps q (fun k => nth_error w (N.to_nat k)) n1 (start m a) s1 /\ finished s1 /\ bad s1 = false /\
      steps q (fun k => nth_error w (N.to_nat k)) n2 (start m a) s2 /\ finished s2 /\ bad s2 = false /\
      combine_sparse q a w = Some (view s2) /\
      lookup (view s1) 1 <> lookup (view s2) 1 /\
      log s1 = [1; 2; 1; 3; 4]%N.
Proof.
  exists 7, C24_tree, [0; 2; 0; 1; 1], (heap_of C24_tree).
  split; [apply prime_intro; [lia|]; intros n Hn; apply Zgcd_1_rel_prime; assert (X : n = 1 \/ n = 2 \/ n = 3 \/ n = 4 \/ n = 5 \/ n = 6) by lia;
          destruct X as [->|[->|[->|[->|[->| ->]]]]]; reflexivity|].
  split; [apply C24_case|]. split; [apply repr_heap_of; apply C24_case|].
  split; [cbn; intros k v H; repeat (destruct H as [H|H]; [injection H as <- <-; cbn; split; lia|]); destruct H|].
  split; [repeat constructor; lia|].
  set (W := fun k => nth_error [0; 2; 0; 1; 1] (N.to_nat k)).
  destruct (runs 7 W [false; false; false; false; false; false; true; true; false; false; false; false; false; false; false;
                      false; false; false; false; false; false] (start (heap_of C24_tree) C24_tree)) as [s1|] eqn:E1;
    [|vm_compute in E1; discriminate].
  destruct (runs 7 W [false; false; false; false; false; false; false; false; false; true; true; false; false; false; false;
                      false; false] (start (heap_of C24_tree) C24_tree)) as [s2|] eqn:E2; [|vm_compute in E2; discriminate].
  eexists _, s1, _, s2. split; [apply (runs_steps _ _ _ _ _ E1)|].
  vm_compute in E1. injection E1 as <-.
  split; [split; reflexivity|]. split; [reflexivity|]. split; [apply (runs_steps _ _ _ _ _ E2)|].
  vm_compute in E2. injection E2 as <-.
  split; [split; reflexivity|]. split; [reflexivity|]. split; [vm_compute; reflexivity|].
  split; [vm_compute; discriminate|reflexivity].
Qed.
Print Assumptions C25_schedule_independent_refuted.
Example C25_case : wf C24_tree /\ exists st,
  runs 7 (fun k => nth_error [0; 2; 3; 4; 5] (N.to_nat k))
    [false; false; false; false; false; false; false; false; false; false; false; false; false; false; false]
    (start (heap_of C24_tree) C24_tree) = Some st /\ finished st /\
  ascending (view st) = [(1%N, 3); (2%N, 4); (3%N, 4); (4%N, 3)].
Proof.
  split; [apply C24_case|]. eexists. split; [vm_compute; reflexivity|]. split; [split; reflexivity|reflexivity].
Qed.

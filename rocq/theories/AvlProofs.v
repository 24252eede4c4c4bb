(** Proofs about AvlModel. *)
Require Import ZArith NArith Lia Bool List Sorted Sorting.Permutation.
Require Import Verif.AvlModel Verif.AvlSpec.
Import ListNotations.
Open Scope Z_scope.

(** ** Sorted association lists *)
Definition klt (a b : N * Z) : Prop := (fst a < fst b)%N.
Notation srt := (StronglySorted klt).

Lemma srt_mid l1 e l2 : srt (l1 ++ e :: l2) <->
  srt l1 /\ srt l2 /\ Forall (fun a => klt a e) l1 /\ Forall (klt e) l2.
Proof.
  induction l1 as [|a l1 IH]; cbn [app].
  - split.
    + intros H. inversion H; subst. repeat split; auto. constructor.
    + intros [_ [H1 [_ H2]]]. now constructor.
  - split.
    + intros H. inversion H as [|? ? H1 H2]; subst. apply IH in H1. destruct H1 as [A [B [C D]]].
      rewrite Forall_app in H2. destruct H2 as [H2 H3]. inversion H3; subst.
      repeat split; auto; constructor; auto.
    + intros [A [B [C D]]]. inversion A; subst. inversion C; subst. constructor.
      * apply IH; auto.
      * rewrite Forall_app. split; auto. constructor; auto.
        eapply Forall_impl; [|exact D]. unfold klt in *. intros; lia.
Qed.

Fixpoint assoc (l : list (N * Z)) (key : N) : option Z :=
  match l with
  | [] => None
  | (k, v) :: l' => if N.eqb k key then Some v else assoc l' key
  end.

Lemma assoc_app l1 l2 key : assoc (l1 ++ l2) key =
  match assoc l1 key with Some v => Some v | None => assoc l2 key end.
Proof. induction l1 as [|[k v] l1 IH]; cbn; auto. destruct (N.eqb k key); auto. Qed.

Lemma assoc_none l key : Forall (fun e => fst e <> key) l -> assoc l key = None.
Proof.
  induction 1 as [|[k v] l H _ IH]; cbn; auto. cbn in H.
  destruct (N.eqb_spec k key); [lia|auto].
Qed.

Lemma assoc_In l key v : srt l -> (assoc l key = Some v <-> In (key, v) l).
Proof.
  induction 1 as [|[k x] l Hs IH HF]; cbn [assoc In]; [split; easy|].
  destruct (N.eqb_spec k key) as [->|Hk].
  - split; [intros [= ->]; auto|]. intros [[= ->]|H]; auto. exfalso.
    rewrite Forall_forall in HF. specialize (HF _ H). unfold klt in HF; cbn in HF; lia.
  - rewrite IH. split; [auto|]. intros [[= ? ?]|H]; auto; congruence.
Qed.

Lemma Forall_lt_ne l key : Forall (fun a => (fst a < key)%N) l -> Forall (fun e : N * Z => fst e <> key) l.
Proof. apply Forall_impl. intros; lia. Qed.
Lemma Forall_gt_ne l key : Forall (fun a => (key < fst a)%N) l -> Forall (fun e : N * Z => fst e <> key) l.
Proof. apply Forall_impl. intros; lia. Qed.

(** Sorted insertion/replacement and deletion. *)
Fixpoint lput (l : list (N * Z)) (key : N) (x : Z) : list (N * Z) :=
  match l with
  | [] => [(key, x)]
  | (k, v) :: l' => if N.eqb k key then (k, x) :: l'
                    else if N.ltb key k then (key, x) :: (k, v) :: l'
                    else (k, v) :: lput l' key x
  end.
Definition lremove (l : list (N * Z)) (key : N) : list (N * Z) :=
  filter (fun e => negb (N.eqb (fst e) key)) l.

Lemma assoc_lput l key x k' : srt l ->
  assoc (lput l key x) k' = if N.eqb key k' then Some x else assoc l k'.
Proof.
  induction 1 as [|[k v] l Hs IH HF]; cbn [lput assoc].
  - reflexivity.
  - destruct (N.eqb_spec k key) as [->|Hk]; cbn [assoc].
    + destruct (N.eqb key k'); auto.
    + destruct (N.ltb_spec key k); cbn [assoc]; [reflexivity|].
      rewrite IH. destruct (N.eqb_spec k k'), (N.eqb_spec key k'); subst; auto; lia.
Qed.

Lemma lput_Forall (Q : N * Z -> Prop) l key x : (forall v, Q (key, v)) -> Forall Q l -> Forall Q (lput l key x).
Proof.
  intros Hq. induction 1 as [|[k v] l H HF IH]; cbn [lput]; [constructor; auto|].
  destruct (N.eqb_spec k key) as [->|]; [constructor; auto|].
  destruct (N.ltb key k); constructor; auto.
Qed.

Lemma lput_srt l key x : srt l -> srt (lput l key x).
Proof.
  induction 1 as [|[k v] l Hs IH HF]; cbn [lput].
  - constructor; constructor.
  - destruct (N.eqb_spec k key) as [->|Hk].
    + constructor; auto.
    + destruct (N.ltb_spec key k).
      * constructor; [constructor; auto|]. constructor; [exact H|].
        eapply Forall_impl; [|exact HF]. unfold klt; cbn; intros; lia.
      * constructor; auto. apply lput_Forall; auto. unfold klt; cbn; intros; lia.
Qed.

Lemma lremove_Forall (Q : N * Z -> Prop) l key : Forall Q l -> Forall Q (lremove l key).
Proof. unfold lremove. rewrite !Forall_forall. intros H x Hx. apply filter_In in Hx. apply H, Hx. Qed.

Lemma lremove_srt l key : srt l -> srt (lremove l key).
Proof.
  induction 1 as [|e l Hs IH HF]; cbn; [constructor|].
  destruct (negb _); auto. constructor; auto. now apply lremove_Forall.
Qed.

Lemma assoc_lremove l key k' : srt l ->
  assoc (lremove l key) k' = if N.eqb key k' then None else assoc l k'.
Proof.
  induction 1 as [|[k v] l Hs IH HF]; cbn [lremove filter assoc fst].
  - destruct (N.eqb key k'); auto.
  - fold (lremove l key). destruct (N.eqb_spec k key) as [->|Hk]; cbn [negb assoc].
    + rewrite IH. destruct (N.eqb key k'); auto.
    + rewrite IH. destruct (N.eqb_spec k k'), (N.eqb_spec key k'); subst; auto; lia.
Qed.

Lemma lput_mid_l l1 k v l2 key x : (key < k)%N ->
  lput (l1 ++ (k, v) :: l2) key x = lput l1 key x ++ (k, v) :: l2.
Proof.
  intros H. induction l1 as [|[k1 v1] l1 IH]; cbn [app lput].
  - destruct (N.eqb_spec k key); [lia|]. destruct (N.ltb_spec key k); [auto|lia].
  - destruct (N.eqb k1 key); auto. destruct (N.ltb key k1); auto. now rewrite IH.
Qed.
Lemma lput_mid_r l1 k v l2 key x : (k < key)%N -> Forall (fun a => klt a (k, v)) l1 ->
  lput (l1 ++ (k, v) :: l2) key x = l1 ++ (k, v) :: lput l2 key x.
Proof.
  intros H HF. induction HF as [|[k1 v1] l1 H1 HF IH]; cbn [app lput].
  - destruct (N.eqb_spec k key); [lia|]. destruct (N.ltb_spec key k); [lia|auto].
  - unfold klt in H1; cbn in H1. destruct (N.eqb_spec k1 key); [lia|].
    destruct (N.ltb_spec key k1); [lia|]. now rewrite IH.
Qed.
Lemma lput_mid_eq l1 k v l2 x : Forall (fun a => klt a (k, v)) l1 ->
  lput (l1 ++ (k, v) :: l2) k x = l1 ++ (k, x) :: l2.
Proof.
  intros HF. induction HF as [|[k1 v1] l1 H1 HF IH]; cbn [app lput].
  - now rewrite N.eqb_refl.
  - unfold klt in H1; cbn in H1. destruct (N.eqb_spec k1 k); [lia|].
    destruct (N.ltb_spec k k1); [lia|]. now rewrite IH.
Qed.

Lemma lremove_app l1 l2 key : lremove (l1 ++ l2) key = lremove l1 key ++ lremove l2 key.
Proof. apply filter_app. Qed.
Lemma lremove_none l key : Forall (fun e => fst e <> key) l -> lremove l key = l.
Proof.
  induction 1 as [|[k v] l H _ IH]; cbn; auto. cbn in H. fold (lremove l key).
  destruct (N.eqb_spec k key); [lia|]. cbn. now rewrite IH.
Qed.

(** ** Search-tree invariant *)
Definition bst (t : tree) : Prop := srt (ascending t).

Lemma bst_node l k v h r : bst (Node l k v h r) <->
  bst l /\ bst r /\ Forall (fun a => (fst a < k)%N) (ascending l) /\ Forall (fun a => (k < fst a)%N) (ascending r).
Proof. unfold bst. cbn [ascending]. rewrite srt_mid. unfold klt. reflexivity. Qed.

Lemma get_assoc t key : bst t -> get t key = assoc (ascending t) key.
Proof.
  induction t as [|l IHl k v h r IHr]; intros H; [reflexivity|].
  apply bst_node in H. destruct H as [Hl [Hr [Fl Fr]]].
  cbn [get ascending]. rewrite assoc_app. cbn [assoc].
  destruct (N.eqb_spec k key) as [->|Hk].
  - now rewrite assoc_none by (now apply Forall_lt_ne).
  - destruct (N.ltb_spec key k).
    + rewrite IHl by auto. destruct (assoc (ascending l) key) eqn:E; auto.
      symmetry. apply assoc_none. eapply Forall_impl; [|exact Fr]. cbn; intros; lia.
    + rewrite IHr by auto. rewrite (assoc_none (ascending l)); auto.
      eapply Forall_impl; [|exact Fl]. cbn; intros; lia.
Qed.

Lemma has_get t key : has t key = match get t key with Some _ => true | None => false end.
Proof.
  induction t as [|l IHl k v h r IHr]; [reflexivity|]. cbn [has get].
  destruct (N.eqb k key); auto. destruct (N.ltb key k); auto.
Qed.

(** ** Structural versions of pop and push *)
Fixpoint popmax (t : tree) : tree :=
  match t with
  | Leaf => Leaf
  | Node l k v h Leaf => l
  | Node l k v h r => Node l k v (fresh_height l (popmax r)) (popmax r)
  end.
Fixpoint popmin (t : tree) : tree :=
  match t with
  | Leaf => Leaf
  | Node Leaf k v h r => r
  | Node l k v h r => Node (popmin l) k v (fresh_height (popmin l) r) r
  end.
Fixpoint pushmax (t : tree) (key : N) (x : Z) : tree :=
  match t with
  | Leaf => Node Leaf key x 1 Leaf
  | Node l k v h r => Node l k v (fresh_height l (pushmax r key x)) (pushmax r key x)
  end.
Fixpoint pushmin (t : tree) (key : N) (x : Z) : tree :=
  match t with
  | Leaf => Node Leaf key x 1 Leaf
  | Node l k v h r => Node (pushmin l key x) k v (fresh_height (pushmin l key x) r) r
  end.

Lemma popmax_asc t e : rmd t = Some e -> ascending t = ascending (popmax t) ++ [e].
Proof.
  induction t as [|l _ k v h r IHr]; [discriminate|]. cbn [rmd].
  destruct r as [|rl rk rv rh rr] eqn:Er.
  - intros [= <-]. reflexivity.
  - rewrite <- Er in *. intros H. specialize (IHr H).
    replace (popmax (Node l k v h r)) with (Node l k v (fresh_height l (popmax r)) (popmax r)) by (now subst r).
    cbn [ascending]. rewrite IHr at 1. now rewrite <- app_assoc, app_comm_cons.
Qed.

Lemma popmin_asc t e : lmd t = Some e -> ascending t = e :: ascending (popmin t).
Proof.
  induction t as [|l IHl k v h r _]; [discriminate|]. cbn [lmd].
  destruct l as [|ll lk lv lh lr] eqn:El.
  - intros [= <-]. reflexivity.
  - rewrite <- El in *. intros H. specialize (IHl H).
    replace (popmin (Node l k v h r)) with (Node (popmin l) k v (fresh_height (popmin l) r) r) by (now subst l).
    cbn [ascending]. rewrite IHl at 1. reflexivity.
Qed.

Lemma rmd_none t : rmd t = None -> t = Leaf.
Proof. induction t as [|l _ k v h r IHr]; auto. cbn [rmd]. destruct r; try discriminate. intros H. apply IHr in H. discriminate. Qed.
Lemma lmd_none t : lmd t = None -> t = Leaf.
Proof. induction t as [|l IHl k v h r _]; auto. cbn [lmd]. destruct l; try discriminate. intros H. apply IHl in H. discriminate. Qed.

Lemma rmd_In t e : rmd t = Some e -> In e (ascending t).
Proof. intros H. rewrite (popmax_asc _ _ H). apply in_or_app; right; left; reflexivity. Qed.
Lemma lmd_In t e : lmd t = Some e -> In e (ascending t).
Proof. intros H. rewrite (popmin_asc _ _ H). left; reflexivity. Qed.

Lemma pop_node_max t mk mv : bst t -> rmd t = Some (mk, mv) -> pop_node t mk = popmax t.
Proof.
  induction t as [|l _ k v h r IHr]; [discriminate|]. intros H E.
  apply bst_node in H. destruct H as [Hl [Hr [Fl Fr]]].
  destruct r as [|rl rk rv rh rr] eqn:Er.
  - cbn in E. injection E as -> ->. cbn [pop_node popmax]. rewrite N.eqb_refl. now destruct l.
  - rewrite <- Er in *.
    assert (E' : rmd r = Some (mk, mv)) by (now rewrite Er in *).
    rewrite Forall_forall in Fr. assert (B := Fr _ (rmd_In _ _ E')). cbn in B.
    replace (popmax (Node l k v h r)) with (Node l k v (fresh_height l (popmax r)) (popmax r)) by (now subst r).
    cbn [pop_node]. destruct (N.eqb_spec k mk); [lia|]. destruct (N.ltb_spec mk k); [lia|].
    rewrite IHr by auto. reflexivity.
Qed.

Lemma pop_node_min t mk mv : bst t -> lmd t = Some (mk, mv) -> pop_node t mk = popmin t.
Proof.
  induction t as [|l IHl k v h r _]; [discriminate|]. intros H E.
  apply bst_node in H. destruct H as [Hl [Hr [Fl Fr]]].
  destruct l as [|ll lk lv lh lr] eqn:El.
  - cbn in E. injection E as -> ->. cbn [pop_node popmin]. rewrite N.eqb_refl. reflexivity.
  - rewrite <- El in *.
    assert (E' : lmd l = Some (mk, mv)) by (now rewrite El in *).
    rewrite Forall_forall in Fl. assert (B := Fl _ (lmd_In _ _ E')). cbn in B.
    replace (popmin (Node l k v h r)) with (Node (popmin l) k v (fresh_height (popmin l) r) r) by (now subst l).
    cbn [pop_node]. destruct (N.eqb_spec k mk); [lia|]. destruct (N.ltb_spec mk k); [|lia].
    rewrite IHl by auto. reflexivity.
Qed.

Lemma push_node_max t key x : Forall (fun a => (fst a < key)%N) (ascending t) ->
  push_node t key x = pushmax t key x.
Proof.
  induction t as [|l _ k v h r IHr]; [reflexivity|]. cbn [ascending]. intros H.
  rewrite Forall_app in H. destruct H as [_ H]. inversion H; subst. cbn in H2.
  cbn [push_node pushmax]. destruct (N.ltb_spec key k); [lia|]. now rewrite IHr.
Qed.
Lemma push_node_min t key x : Forall (fun a => (key < fst a)%N) (ascending t) ->
  push_node t key x = pushmin t key x.
Proof.
  induction t as [|l IHl k v h r _]; [reflexivity|]. cbn [ascending]. intros H.
  rewrite Forall_app in H. destruct H as [H1 H]. inversion H; subst. cbn in H3.
  cbn [push_node pushmin]. destruct (N.ltb_spec key k); [|lia]. now rewrite IHl.
Qed.
Lemma pushmax_asc t key x : ascending (pushmax t key x) = ascending t ++ [(key, x)].
Proof. induction t as [|l _ k v h r IHr]; [reflexivity|]. cbn [pushmax ascending]. rewrite IHr, <- app_assoc. reflexivity. Qed.
Lemma pushmin_asc t key x : ascending (pushmin t key x) = (key, x) :: ascending t.
Proof. induction t as [|l IHl k v h r _]; [reflexivity|]. cbn [pushmin ascending]. rewrite IHl. reflexivity. Qed.

(** ** Rotations *)
Lemma rotate_right_eq l k v h r mk mv : bst (Node l k v h r) -> rmd l = Some (mk, mv) ->
  rotate_right (Node l k v h r) =
  Node (popmax l) mk mv (fresh_height (popmax l) (pushmin r k v)) (pushmin r k v).
Proof.
  intros H E. cbn [rotate_right]. rewrite E. apply bst_node in H. destruct H as [Hl [Hr [Fl Fr]]].
  rewrite (pop_node_max l mk mv) by auto. cbn [push_node].
  rewrite Forall_forall in Fl. assert (B := Fl _ (rmd_In _ _ E)). cbn in B.
  destruct (N.ltb_spec k mk); [lia|]. now rewrite push_node_min.
Qed.
Lemma rotate_left_eq l k v h r mk mv : bst (Node l k v h r) -> lmd r = Some (mk, mv) ->
  rotate_left (Node l k v h r) =
  Node (pushmax l k v) mk mv (fresh_height (pushmax l k v) (popmin r)) (popmin r).
Proof.
  intros H E. cbn [rotate_left]. rewrite E. apply bst_node in H. destruct H as [Hl [Hr [Fl Fr]]].
  rewrite (pop_node_min r mk mv) by auto. cbn [push_node].
  rewrite Forall_forall in Fr. assert (B := Fr _ (lmd_In _ _ E)). cbn in B.
  destruct (N.ltb_spec k mk); [|lia]. now rewrite push_node_max.
Qed.

Lemma rotate_right_asc t : bst t -> ascending (rotate_right t) = ascending t.
Proof.
  destruct t as [|l k v h r]; [reflexivity|]. intros H.
  destruct (rmd l) as [[mk mv]|] eqn:E.
  - rewrite (rotate_right_eq _ _ _ _ _ mk mv) by auto. cbn [ascending].
    rewrite pushmin_asc, (popmax_asc l _ E), <- app_assoc. reflexivity.
  - cbn [rotate_right]. now rewrite E.
Qed.
Lemma rotate_left_asc t : bst t -> ascending (rotate_left t) = ascending t.
Proof.
  destruct t as [|l k v h r]; [reflexivity|]. intros H.
  destruct (lmd r) as [[mk mv]|] eqn:E.
  - rewrite (rotate_left_eq _ _ _ _ _ mk mv) by auto. cbn [ascending].
    rewrite pushmax_asc, (popmin_asc r _ E), <- app_assoc. reflexivity.
  - cbn [rotate_left]. now rewrite E.
Qed.

Lemma balance_loop_asc fuel : forall t t', bst t -> balance_loop fuel t = Some t' ->
  ascending t' = ascending t.
Proof.
  induction fuel as [|f IH]; intros t t' H; destruct t as [|l k v h r]; cbn [balance_loop];
    try (intros [= <-]; reflexivity); destruct (2 <? _); try discriminate; try (intros [= <-]; reflexivity).
  intros E. assert (A : ascending (if height r <? height l then rotate_right (Node l k v h r) else rotate_left (Node l k v h r))
    = ascending (Node l k v h r)).
  { destruct (height r <? height l); [now apply rotate_right_asc | now apply rotate_left_asc]. }
  rewrite <- A. apply IH; auto. unfold bst. now rewrite A.
Qed.

(** ** Termination of balancing *)
(** Stored heights are non-negative (all the termination argument needs of them). *)
Fixpoint nonneg (t : tree) : Prop :=
  match t with Leaf => True | Node l _ _ h r => 0 <= h /\ nonneg l /\ nonneg r end.

(** Number of nodes whose stored height is not one more than the larger stored height below. *)
Fixpoint inc (t : tree) : nat :=
  match t with
  | Leaf => O
  | Node l _ _ h r => ((if Z.eqb h (fresh_height l r) then 0 else 1) + inc l + inc r)%nat
  end.

Lemma height_nonneg t : nonneg t -> 0 <= height t.
Proof. destruct t; cbn; lia. Qed.

Lemma fresh_height_max l r : fresh_height l r = Z.max (height l) (height r) + 1.
Proof. unfold fresh_height. destruct (Z.ltb_spec (height r) (height l)); lia. Qed.

Lemma fresh_nonneg l r : nonneg l -> nonneg r -> 0 <= fresh_height l r.
Proof. intros Hl Hr. apply height_nonneg in Hl, Hr. rewrite fresh_height_max. lia. Qed.

Lemma inc_fresh l k v r : inc (Node l k v (fresh_height l r) r) = (inc l + inc r)%nat.
Proof. cbn [inc]. now rewrite Z.eqb_refl. Qed.

Lemma popmax_props t : nonneg t -> t <> Leaf ->
  nonneg (popmax t) /\ size t = S (size (popmax t)) /\ (inc (popmax t) <= inc t)%nat /\
  (inc (popmax t) = inc t -> height t - 1 <= height (popmax t)).
Proof.
  induction t as [|l _ k v h r IHr]; [easy|]. intros [Hh [Hl Hr]] _.
  destruct r as [|rl rk rv rh rr] eqn:Er.
  - cbn [popmax size inc height]. split; [auto|split; [lia|split; [lia|]]].
    destruct (Z.eqb_spec h (fresh_height l Leaf)) as [E|]; [|lia]. intros _.
    rewrite E, fresh_height_max. cbn [height]. apply height_nonneg in Hl. lia.
  - rewrite <- Er in *. destruct IHr as [A [B [C D]]]; auto; [now subst|].
    replace (popmax (Node l k v h r)) with (Node l k v (fresh_height l (popmax r)) (popmax r)) by (now subst r).
    rewrite inc_fresh. cbn [nonneg size inc height].
    split; [|split; [lia|split; [lia|]]].
    + repeat split; auto. now apply fresh_nonneg.
    + destruct (Z.eqb_spec h (fresh_height l r)) as [E|]; [|lia]. intros Hi.
      rewrite E, !fresh_height_max. specialize (D ltac:(lia)). lia.
Qed.
Lemma popmin_props t : nonneg t -> t <> Leaf ->
  nonneg (popmin t) /\ size t = S (size (popmin t)) /\ (inc (popmin t) <= inc t)%nat /\
  (inc (popmin t) = inc t -> height t - 1 <= height (popmin t)).
Proof.
  induction t as [|l IHl k v h r _]; [easy|]. intros [Hh [Hl Hr]] _.
  destruct l as [|ll lk lv lh lr] eqn:El.
  - cbn [popmin size inc height]. split; [auto|split; [lia|split; [lia|]]].
    destruct (Z.eqb_spec h (fresh_height Leaf r)) as [E|]; [|lia]. intros _.
    rewrite E, fresh_height_max. cbn [height]. apply height_nonneg in Hr. lia.
  - rewrite <- El in *. destruct IHl as [A [B [C D]]]; auto; [now subst|].
    replace (popmin (Node l k v h r)) with (Node (popmin l) k v (fresh_height (popmin l) r) r) by (now subst l).
    rewrite inc_fresh. cbn [nonneg size inc height].
    split; [|split; [lia|split; [lia|]]].
    + repeat split; auto. now apply fresh_nonneg.
    + destruct (Z.eqb_spec h (fresh_height l r)) as [E|]; [|lia]. intros Hi.
      rewrite E, !fresh_height_max. specialize (D ltac:(lia)). lia.
Qed.
Lemma pushmax_props t key x : nonneg t ->
  nonneg (pushmax t key x) /\ size (pushmax t key x) = S (size t) /\ (inc (pushmax t key x) <= inc t)%nat /\
  (inc (pushmax t key x) = inc t -> height (pushmax t key x) <= height t + 1).
Proof.
  induction t as [|l _ k v h r IHr].
  - intros _. cbn. repeat split; try lia. 
  - intros [Hh [Hl Hr]]. destruct (IHr Hr) as [A [B [C D]]]. cbn [pushmax].
    rewrite inc_fresh. cbn [nonneg size inc height]. split; [|split; [lia|split; [lia|]]].
    + repeat split; auto. now apply fresh_nonneg.
    + destruct (Z.eqb_spec h (fresh_height l r)) as [E|]; [|lia]. intros Hi.
      rewrite E, !fresh_height_max. specialize (D ltac:(lia)). lia.
Qed.
Lemma pushmin_props t key x : nonneg t ->
  nonneg (pushmin t key x) /\ size (pushmin t key x) = S (size t) /\ (inc (pushmin t key x) <= inc t)%nat /\
  (inc (pushmin t key x) = inc t -> height (pushmin t key x) <= height t + 1).
Proof.
  induction t as [|l IHl k v h r _].
  - intros _. cbn. repeat split; try lia.
  - intros [Hh [Hl Hr]]. destruct (IHl Hl) as [A [B [C D]]]. cbn [pushmin].
    rewrite inc_fresh. cbn [nonneg size inc height]. split; [|split; [lia|split; [lia|]]].
    + repeat split; auto. now apply fresh_nonneg.
    + destruct (Z.eqb_spec h (fresh_height l r)) as [E|]; [|lia]. intros Hi.
      rewrite E, !fresh_height_max. specialize (D ltac:(lia)). lia.
Qed.

Definition mu (t : tree) : nat :=
  match t with
  | Leaf => O
  | Node l _ _ _ r => ((inc l + inc r) * S (size t) +
                       (if Z.ltb (height r) (height l) then size l else size r))%nat
  end.

Lemma mu_step (i i' n s s' : nat) : (i' < i /\ s' <= n)%nat \/ (i' = i /\ s' < s)%nat ->
  (i' * S n + s' < i * S n + s)%nat.
Proof. intros [[H1 H2]|[-> H]]; [|lia]. assert (i' * S n + S n <= i * S n)%nat by nia. lia. Qed.

Lemma balance_loop_terminates fuel : forall t, bst t -> nonneg t -> (mu t <= fuel)%nat ->
  exists t', balance_loop fuel t = Some t' /\ nonneg t'.
Proof.
  induction fuel as [|f IH]; intros t Hb Hn Hm; destruct t as [|l k v h r].
  - exists Leaf; auto.
  - cbn [balance_loop]. destruct (Z.ltb_spec 2 (Z.abs (height l - height r))) as [Hd|Hd]; [|eauto].
    exfalso. destruct Hn as [_ [Hl Hr]]. cbn [mu size] in Hm.
    assert (A := height_nonneg _ Hl). assert (B := height_nonneg _ Hr).
    destruct (Z.ltb_spec (height r) (height l)).
    + destruct l; cbn in *; lia.
    + destruct r; cbn in *; lia.
  - exists Leaf; auto.
  - cbn [balance_loop]. destruct (Z.ltb_spec 2 (Z.abs (height l - height r))) as [Hd|Hd]; [|eauto].
    destruct Hn as [Hh [Hl Hr]].
    assert (A := height_nonneg _ Hl). assert (B := height_nonneg _ Hr).
    cbn [mu] in Hm. cbn [size] in Hm.
    destruct (Z.ltb_spec (height r) (height l)) as [Hlt|Hge].
    + assert (Lne : l <> Leaf) by (intros ->; cbn in *; lia).
      destruct (rmd l) as [[mk mv]|] eqn:E; [|apply rmd_none in E; easy].
      assert (Hb' : bst (rotate_right (Node l k v h r))) by (unfold bst; rewrite rotate_right_asc; auto).
      rewrite (rotate_right_eq l k v h r mk mv) in * by auto.
      destruct (popmax_props l Hl Lne) as [P1 [P2 [P3 P4]]].
      destruct (pushmin_props r k v Hr) as [Q1 [Q2 [Q3 Q4]]].
      apply IH; auto.
      * cbn [nonneg]. repeat split; auto. now apply fresh_nonneg.
      * enough (mu (Node (popmax l) mk mv (fresh_height (popmax l) (pushmin r k v)) (pushmin r k v)) <
          (inc l + inc r) * S (S (size l + size r)) + size l)%nat by lia.
        cbn [mu size]. replace (S (S (size (popmax l) + size (pushmin r k v)))) with (S (S (size l + size r))) by lia.
        apply mu_step.
        destruct (Nat.eq_dec (inc (popmax l) + inc (pushmin r k v)) (inc l + inc r)) as [Ei|Ei].
        -- right. split; auto. specialize (P4 ltac:(lia)). specialize (Q4 ltac:(lia)).
           destruct (Z.ltb_spec (height (pushmin r k v)) (height (popmax l))); lia.
        -- left. split; [lia|]. destruct (_ <? _); lia.
    + assert (Rne : r <> Leaf) by (intros ->; cbn in *; lia).
      destruct (lmd r) as [[mk mv]|] eqn:E; [|apply lmd_none in E; easy].
      assert (Hb' : bst (rotate_left (Node l k v h r))) by (unfold bst; rewrite rotate_left_asc; auto).
      rewrite (rotate_left_eq l k v h r mk mv) in * by auto.
      destruct (popmin_props r Hr Rne) as [P1 [P2 [P3 P4]]].
      destruct (pushmax_props l k v Hl) as [Q1 [Q2 [Q3 Q4]]].
      apply IH; auto.
      * cbn [nonneg]. repeat split; auto. now apply fresh_nonneg.
      * enough (mu (Node (pushmax l k v) mk mv (fresh_height (pushmax l k v) (popmin r)) (popmin r)) <
          (inc l + inc r) * S (S (size l + size r)) + size r)%nat by lia.
        cbn [mu size]. replace (S (S (size (pushmax l k v) + size (popmin r)))) with (S (S (size l + size r))) by lia.
        apply mu_step.
        destruct (Nat.eq_dec (inc (pushmax l k v) + inc (popmin r)) (inc l + inc r)) as [Ei|Ei].
        -- right. split; auto. specialize (P4 ltac:(lia)). specialize (Q4 ltac:(lia)).
           destruct (Z.ltb_spec (height (popmin r)) (height (pushmax l k v))); lia.
        -- left. split; [lia|]. destruct (_ <? _); lia.
Qed.

Lemma inc_size t : (inc t <= size t)%nat.
Proof. induction t as [|l IHl k v h r IHr]; cbn [inc size]; [lia|]. destruct (_ =? _); lia. Qed.

Lemma balance_ok t : bst t -> nonneg t ->
  exists t', balance t = Some t' /\ nonneg t' /\ ascending t' = ascending t.
Proof.
  intros Hb Hn. unfold balance.
  destruct (balance_loop_terminates (balance_fuel t) t Hb Hn) as [t' [E N']].
  - unfold balance_fuel. destruct t as [|l k v h r]; cbn [mu]; [lia|].
    assert (A := inc_size l). assert (B := inc_size r).
    assert ((inc l + inc r) * S (size (Node l k v h r)) <= size (Node l k v h r) * S (size (Node l k v h r)))%nat
      by (apply Nat.mul_le_mono_r; cbn [size]; lia).
    assert ((if Z.ltb (height r) (height l) then size l else size r) <= size (Node l k v h r))%nat
      by (destruct (_ <? _); cbn [size]; lia).
    lia.
  - exists t'. rewrite E. repeat split; auto. eapply balance_loop_asc; eauto.
Qed.

(** ** Put *)
Definition lookup (t : tree) (key : N) : Z := match get t key with Some v => v | None => 0 end.

Lemma node_put_spec t key value f : bst t -> nonneg t ->
  match f (lookup t key) value with
  | None => node_put t key value f = None
  | Some x => exists t' u, node_put t key value f = Some (t', u) /\ nonneg t' /\
                ascending t' = lput (ascending t) key x
  end.
Proof.
  unfold lookup. induction t as [|l IHl k v h r IHr]; intros Hb Hn.
  - cbn [get node_put]. destruct (f 0 value) as [x|]; auto.
    exists (Node Leaf key x 1 Leaf), false. repeat split; auto; lia.
  - apply bst_node in Hb as Hb'. destruct Hb' as [Hl [Hr [Fl Fr]]]. destruct Hn as [Hh [Nl Nr]].
    cbn [get node_put]. destruct (N.eqb_spec k key) as [->|Hk].
    + destruct (f v value) as [x|]; auto. exists (Node l key x h r), true. repeat split; auto.
      cbn [ascending]. now rewrite lput_mid_eq by exact Fl.
    + destruct (N.ltb_spec key k) as [Hlt|Hge].
      * specialize (IHl Hl Nl). destruct (f _ value) as [x|]; [|now rewrite IHl].
        destruct IHl as [l' [u [E [N' A]]]]. rewrite E.
        assert (A2 : forall h', ascending (Node l' k v h' r) = lput (ascending (Node l k v h r)) key x).
        { intros h'. cbn [ascending]. rewrite A, lput_mid_l by auto. reflexivity. }
        destruct u.
        -- exists (Node l' k v h r), true. repeat split; auto.
        -- destruct (balance_ok (Node l' k v (h + 1) r)) as [t' [E' [N'' A']]].
           ++ unfold bst. rewrite A2. now apply lput_srt.
           ++ cbn [nonneg]. repeat split; auto; lia.
           ++ rewrite E'. exists t', false. repeat split; auto. now rewrite A', A2.
      * specialize (IHr Hr Nr). destruct (f (match get r key with Some v0 => v0 | None => 0 end) value) as [x|]; [|rewrite IHr; reflexivity].
        destruct IHr as [r' [u [E [N' A]]]]. rewrite E.
        assert (A2 : forall h', ascending (Node l k v h' r') = lput (ascending (Node l k v h r)) key x).
        { intros h'. cbn [ascending]. rewrite A, lput_mid_r; auto; lia. }
        destruct u.
        -- exists (Node l k v h r'), true. repeat split; auto.
        -- destruct (balance_ok (Node l k v (h + 1) r')) as [t' [E' [N'' A']]].
           ++ unfold bst. rewrite A2. now apply lput_srt.
           ++ cbn [nonneg]. repeat split; auto; lia.
           ++ rewrite E'. exists t', false. repeat split; auto. now rewrite A', A2.
Qed.

(** ** Remove *)
Lemma graft_left_asc t x : ascending (graft_left t x) = ascending x ++ ascending t.
Proof. induction t as [|l IHl k v h r _]; cbn [graft_left ascending]; [now rewrite app_nil_r|]. now rewrite IHl, app_assoc. Qed.
Lemma graft_right_asc t x : ascending (graft_right t x) = ascending t ++ ascending x.
Proof. induction t as [|l _ k v h r IHr]; cbn [graft_right ascending]; [reflexivity|]. now rewrite IHr, <- app_assoc. Qed.
Lemma graft_left_nonneg t x : nonneg t -> nonneg x -> nonneg (graft_left t x).
Proof. induction t; cbn; tauto. Qed.
Lemma graft_right_nonneg t x : nonneg t -> nonneg x -> nonneg (graft_right t x).
Proof. induction t; cbn; tauto. Qed.

Lemma node_remove_spec t key : bst t -> nonneg t ->
  exists t', node_remove t key = Some (t', get t key) /\ nonneg t' /\
    ascending t' = lremove (ascending t) key.
Proof.
  induction t as [|l IHl k v h r IHr]; intros Hb Hn.
  - exists Leaf; auto.
  - apply bst_node in Hb as Hb'. destruct Hb' as [Hl [Hr [Fl Fr]]]. destruct Hn as [Hh [Nl Nr]].
    cbn [get node_remove].
    destruct (N.eqb_spec k key) as [->|Hk].
    + assert (A : lremove (ascending (Node l key v h r)) key = ascending l ++ ascending r).
      { cbn [ascending]. rewrite lremove_app. cbn [lremove filter fst]. rewrite N.eqb_refl. cbn [negb].
        fold (lremove (ascending r) key).
        rewrite !lremove_none; auto using Forall_lt_ne, Forall_gt_ne. }
      rewrite A. destruct l as [|ll lk lv lh lr] eqn:El.
      { exists r; auto. }
      rewrite <- El in *. destruct r as [|rl rk rv rh rr] eqn:Er.
      { exists l. rewrite app_nil_r. auto. }
      rewrite <- Er in *. destruct (Nat.ltb (size l) (size r)).
      * exists (graft_left r l). rewrite graft_left_asc. repeat split; auto using graft_left_nonneg.
      * exists (graft_right l r). rewrite graft_right_asc. repeat split; auto using graft_right_nonneg.
    + destruct (N.ltb_spec key k) as [Hlt|Hge].
      * destruct (IHl Hl Nl) as [l' [E [N' A]]]. rewrite E.
        assert (A2 : ascending (Node l' k v h r) = lremove (ascending (Node l k v h r)) key).
        { cbn [ascending]. rewrite A, lremove_app. cbn [lremove filter fst].
          destruct (N.eqb_spec k key); [lia|]. cbn [negb]. fold (lremove (ascending r) key).
          rewrite (lremove_none (ascending r)); auto. eapply Forall_impl; [|exact Fr]. cbn; intros; lia. }
        destruct (get l key) as [x|] eqn:G.
        -- exists (Node l' k v h r). repeat split; auto.
        -- destruct (balance_ok (Node l' k v h r)) as [t' [E' [N'' A']]].
           ++ unfold bst. rewrite A2. now apply lremove_srt.
           ++ cbn [nonneg]; auto.
           ++ rewrite E'. exists t'. repeat split; auto. now rewrite A', A2.
      * destruct (IHr Hr Nr) as [r' [E [N' A]]]. rewrite E.
        assert (A2 : ascending (Node l k v h r') = lremove (ascending (Node l k v h r)) key).
        { cbn [ascending]. rewrite A, lremove_app. cbn [lremove filter fst].
          destruct (N.eqb_spec k key); [lia|]. cbn [negb]. fold (lremove (ascending r) key).
          rewrite (lremove_none (ascending l)); auto. eapply Forall_impl; [|exact Fl]. cbn; intros; lia. }
        destruct (get r key) as [x|] eqn:G.
        -- exists (Node l k v h r'). repeat split; auto.
        -- destruct (balance_ok (Node l k v h r')) as [t' [E' [N'' A']]].
           ++ unfold bst. rewrite A2. now apply lremove_srt.
           ++ cbn [nonneg]; auto.
           ++ rewrite E'. exists t'. repeat split; auto. now rewrite A', A2.
Qed.

(** ** The tree API *)
(** Well-formed tree: search order, non-negative stored heights, no stored zero. *)
Definition wf (t : tree) : Prop :=
  bst t /\ nonneg t /\ Forall (fun e => snd e <> 0) (ascending t).

Lemma wf_leaf : wf Leaf.
Proof. repeat split; constructor. Qed.

(** Entry list after storing x at key (0 deletes). *)
Definition lset (l : list (N * Z)) (key : N) (x : Z) : list (N * Z) :=
  if x =? 0 then lremove l key else lput l key x.

Lemma lremove_lput l key x : srt l -> lremove (lput l key x) key = lremove l key.
Proof.
  induction 1 as [|[k v] l Hs IH HF]; cbn [lput].
  - cbn. rewrite N.eqb_refl. reflexivity.
  - destruct (N.eqb_spec k key) as [->|Hk].
    + cbn. rewrite N.eqb_refl. reflexivity.
    + destruct (N.ltb key k); cbn; [now rewrite N.eqb_refl|].
      destruct (N.eqb_spec k key); [lia|]. cbn. f_equal. exact IH.
Qed.

Lemma lset_srt l key x : srt l -> srt (lset l key x).
Proof. unfold lset. destruct (_ =? _); auto using lremove_srt, lput_srt. Qed.

Lemma lset_nz l key x : Forall (fun e => snd e <> 0) l -> Forall (fun e : N * Z => snd e <> 0) (lset l key x).
Proof.
  unfold lset. destruct (Z.eqb_spec x 0); [apply lremove_Forall|].
  intros H. induction H as [|[k v] l H HF IH]; cbn [lput]; [constructor; auto|].
  destruct (N.eqb_spec k key) as [->|]; [constructor; auto|].
  destruct (N.ltb key k); constructor; auto.
Qed.

Lemma tree_put_spec t key value f : wf t ->
  match f (lookup t key) value with
  | None => tree_put t key value f = None
  | Some x => exists t', tree_put t key value f = Some t' /\ wf t' /\
                ascending t' = lset (ascending t) key x
  end.
Proof.
  intros [Hb [Hn Hz]]. assert (H := node_put_spec t key value f Hb Hn). unfold tree_put.
  destruct (f (lookup t key) value) as [x|]; [|now rewrite H].
  destruct H as [t1 [u [E [N1 A1]]]]. rewrite E.
  assert (B1 : bst t1) by (unfold bst; rewrite A1; now apply lput_srt).
  assert (G : get t1 key = Some x).
  { rewrite get_assoc, A1, assoc_lput, N.eqb_refl by auto. reflexivity. }
  rewrite G. unfold lset. destruct (Z.eqb_spec x 0) as [->|Hx].
  - unfold tree_remove. destruct (node_remove_spec t1 key B1 N1) as [t2 [E2 [N2 A2]]].
    rewrite E2, G. exists t2. split; [reflexivity|]. rewrite A2, A1, lremove_lput by auto.
    split; auto. repeat split; auto.
    + unfold bst. rewrite A2, A1, lremove_lput by auto. now apply lremove_srt.
    + rewrite A2, A1, lremove_lput by auto. now apply lremove_Forall.
  - exists t1. split; [reflexivity|]. split; auto. repeat split; auto.
    rewrite A1. assert (L := lset_nz (ascending t) key x Hz). unfold lset in L.
    destruct (Z.eqb_spec x 0); [easy|exact L].
Qed.

Lemma tree_remove_present t key : wf t -> get t key <> None ->
  exists t', tree_remove t key = Some (t', get t key) /\ wf t' /\
    ascending t' = lremove (ascending t) key.
Proof.
  intros [Hb [Hn Hz]] G. destruct (node_remove_spec t key Hb Hn) as [t' [E [N' A]]].
  unfold tree_remove. rewrite E. destruct (get t key) as [v|]; [|easy].
  exists t'. repeat split; auto.
  - unfold bst. rewrite A. now apply lremove_srt.
  - rewrite A. now apply lremove_Forall.
Qed.

(** ** Refinement to the abstract map *)
Definition represents (t : tree) (m : amap) : Prop := wf t /\ forall k, lookup t k = m k.

Lemma lookup_assoc t k : bst t -> lookup t k = match assoc (ascending t) k with Some v => v | None => 0 end.
Proof. intros; unfold lookup; now rewrite get_assoc. Qed.

Lemma assoc_lset l key x k : srt l ->
  match assoc (lset l key x) k with Some v => v | None => 0 end =
  if N.eqb k key then x else match assoc l k with Some v => v | None => 0 end.
Proof.
  intros H. unfold lset. rewrite (N.eqb_sym k key). destruct (Z.eqb_spec x 0) as [->|].
  - rewrite assoc_lremove by auto. destruct (N.eqb key k); auto.
  - rewrite assoc_lput by auto. destruct (N.eqb key k); auto.
Qed.

Lemma put_refines t m k v f : represents t m ->
  match f (m k) v with
  | None => tree_put t k v f = None
  | Some x => exists t', tree_put t k v f = Some t' /\ represents t' (aset m k x)
  end.
Proof.
  intros [Hw Hm]. assert (H := tree_put_spec t k v f Hw). rewrite (Hm k) in H.
  destruct (f (m k) v) as [x|]; auto. destruct H as [t' [E [Hw' A]]].
  exists t'. split; auto. split; auto. intros k'. unfold aset.
  rewrite lookup_assoc by apply Hw'. rewrite A, assoc_lset by apply Hw.
  destruct (N.eqb k' k); auto. rewrite <- Hm, lookup_assoc by apply Hw. reflexivity.
Qed.

Lemma get_represents t m k : represents t m -> get t k = if m k =? 0 then None else Some (m k).
Proof.
  intros [[Hb [Hn Hz]] Hm]. rewrite <- Hm. unfold lookup.
  destruct (get t k) as [v|] eqn:G; [|reflexivity].
  rewrite get_assoc in G by auto. apply assoc_In in G; auto.
  rewrite Forall_forall in Hz. specialize (Hz _ G). cbn in Hz.
  destruct (Z.eqb_spec v 0); [easy|reflexivity].
Qed.

Lemma remove_refines t m k : represents t m -> m k <> 0 ->
  exists t', tree_remove t k = Some (t', Some (m k)) /\ represents t' (aset m k 0).
Proof.
  intros HR Hk. assert (G := get_represents t m k HR). destruct HR as [Hw Hm].
  destruct (Z.eqb_spec (m k) 0); [easy|].
  destruct (tree_remove_present t k Hw ltac:(congruence)) as [t' [E [Hw' A]]].
  exists t'. rewrite <- G. split; auto. split; auto. intros k'. unfold aset.
  rewrite lookup_assoc by apply Hw'. rewrite A, assoc_lremove by apply Hw.
  rewrite (N.eqb_sym k' k). destruct (N.eqb_spec k k'); auto.
  rewrite <- Hm, lookup_assoc by apply Hw. reflexivity.
Qed.

(** Running a history of operations on a tree. *)
Definition step (t : tree) (o : op) : option tree :=
  match o with
  | OpPut k v f => tree_put t k v f
  | OpRemove k => option_map fst (tree_remove t k)
  end.
Fixpoint run (t : tree) (os : list op) : option tree :=
  match os with
  | [] => Some t
  | o :: os' => match step t o with Some t' => run t' os' | None => None end
  end.

Lemma run_refines os : forall t m, represents t m -> removes_present m os ->
  match arun m os with
  | None => run t os = None
  | Some m' => exists t', run t os = Some t' /\ represents t' m'
  end.
Proof.
  induction os as [|o os IH]; intros t m HR HP; cbn [arun run].
  - eauto.
  - destruct HP as [H1 H2]. destruct o as [k v f|k]; cbn [astep step] in *.
    + assert (H := put_refines t m k v f HR). destruct (f (m k) v) as [x|].
      * destruct H as [t' [E HR']]. rewrite E. now apply IH.
      * now rewrite H.
    + destruct (remove_refines t m k HR H1) as [t' [E HR']]. rewrite E. cbn [option_map fst].
      now apply IH.
Qed.

Lemma empty_represents : represents Leaf aempty.
Proof. split; [apply wf_leaf|reflexivity]. Qed.

(** ** Traversals *)
Lemma descending_rev t : descending t = rev (ascending t).
Proof.
  induction t as [|l IHl k v h r IHr]; [reflexivity|]. cbn [descending ascending].
  rewrite IHl, IHr, rev_app_distr. cbn [rev]. now rewrite <- app_assoc.
Qed.

Lemma ascending_entries t m : represents t m -> entries_of m (ascending t).
Proof.
  intros HR. assert (G := fun k => get_represents t m k HR). destruct HR as [[Hb [Hn Hz]] Hm].
  split; [exact Hb|]. intros k v. rewrite <- assoc_In, <- get_assoc, G by auto.
  destruct (Z.eqb_spec (m k) 0) as [E|E]; split.
  - discriminate.
  - intros [H1 H2]. congruence.
  - intros [= <-]. auto.
  - intros [-> _]. reflexivity.
Qed.

Lemma size_ascending t : size t = length (ascending t).
Proof. induction t as [|l IHl k v h r IHr]; [reflexivity|]. cbn [size ascending]. rewrite app_length. cbn [length]. lia. Qed.

(** Entry lists are unique. *)
Lemma srt_ext l1 l2 : srt l1 -> srt l2 -> (forall e, In e l1 <-> In e l2) -> l1 = l2.
Proof.
  intros H1. revert l2. induction H1 as [|a l1 Hs IH HF]; intros l2 H2 He.
  - destruct l2 as [|b l2]; auto. exfalso. apply (He b). left; auto.
  - destruct l2 as [|b l2]; [exfalso; apply (He a); left; auto|].
    inversion H2 as [|? ? Hs2 HF2]; subst.
    rewrite Forall_forall in HF, HF2.
    assert (a = b).
    { destruct (proj1 (He a) (or_introl eq_refl)) as [|Ha]; auto.
      destruct (proj2 (He b) (or_introl eq_refl)) as [|Hb]; auto.
      specialize (HF _ Hb). specialize (HF2 _ Ha). unfold klt in *. lia. }
    subst b. f_equal. apply IH; auto. intros e. split; intros H.
    + destruct (proj1 (He e) (or_intror H)) as [->|]; auto. specialize (HF _ H). unfold klt in HF. lia.
    + destruct (proj2 (He e) (or_intror H)) as [->|]; auto. specialize (HF2 _ H). unfold klt in HF2. lia.
Qed.

Lemma entries_unique m l1 l2 : entries_of m l1 -> entries_of m l2 -> l1 = l2.
Proof.
  intros [S1 E1] [S2 E2]. apply srt_ext; auto. intros [k v]. now rewrite E1, E2.
Qed.

(** ** Maximum *)
Lemma max_node_spec t m : represents t m ->
  (ascending t = [] /\ max_node t = (0%N, 0) /\ forall k, m k = 0) \/
  (exists k v, max_node t = (k, v) /\ m k = v /\ v <> 0 /\ forall k', m k' <> 0 -> (k' <= k)%N).
Proof.
  intros HR. assert (HE := ascending_entries t m HR). destruct HE as [Hs He].
  unfold max_node. destruct (rmd t) as [[k v]|] eqn:E.
  - right. exists k, v. assert (HI := rmd_In _ _ E). apply He in HI. destruct HI as [H1 H2].
    repeat split; auto. intros k' Hk'.
    assert (HI' : In (k', m k') (ascending t)) by (apply He; auto).
    rewrite (popmax_asc _ _ E) in *. apply in_app_or in HI'. destruct HI' as [HI'|[[= -> _]|[]]]; [|lia].
    apply srt_mid in Hs. destruct Hs as [_ [_ [HF _]]]. rewrite Forall_forall in HF.
    specialize (HF _ HI'). unfold klt in HF. cbn in HF. lia.
  - left. apply rmd_none in E. subst. repeat split; auto. intros k.
    destruct (Z.eq_dec (m k) 0) as [|H]; auto. exfalso. apply (proj2 (He k (m k))). auto.
Qed.

(** ** Conversion from and to arrays *)
Lemma insert_no_overwrite_spec t m k v : represents t m ->
  (m k <> 0 -> insert_no_overwrite t k v = None) /\
  (m k = 0 -> exists t', insert_no_overwrite t k v = Some t' /\ represents t' (aset m k v)).
Proof.
  intros HR. unfold insert_no_overwrite.
  assert (H := put_refines t m k v set_insert_no_override HR).
  unfold set_insert_no_override at 1 in H. split; intros Hk.
  - destruct (Z.eqb_spec (m k) 0); [easy|exact H].
  - rewrite Hk in H. cbn in H. exact H.
Qed.

Lemma insert_spec t m k v : represents t m ->
  exists t', insert t k v = Some t' /\ represents t' (aset m k v).
Proof. intros HR. exact (put_refines t m k v set_insert HR). Qed.

Lemma represents_ext t m m' : represents t m -> (forall k, m k = m' k) -> represents t m'.
Proof. intros [Hw Hm] H. split; auto. intros k. now rewrite Hm, H. Qed.

Lemma from_array_loop_spec l : forall t m k0, represents t m ->
  (forall k, (k0 <= k)%N -> m k = 0) ->
  exists t', from_array_loop t k0 l = Some t' /\
    represents t' (fun k => if N.ltb k k0 then m k else nth (N.to_nat (k - k0)) l 0).
Proof.
  induction l as [|v l IH]; intros t m k0 HR H0; cbn [from_array_loop].
  - exists t. split; auto. eapply represents_ext; eauto. intros k. cbn.
    destruct (N.ltb_spec k k0); auto. rewrite H0 by lia. now destruct (N.to_nat (k - k0)).
  - destruct (Z.eqb_spec v 0) as [->|Hv].
    + destruct (IH t m (N.succ k0) HR) as [t' [E HR']]; [intros; apply H0; lia|].
      exists t'. split; auto. eapply represents_ext; eauto. intros k. cbn beta.
      destruct (N.ltb_spec k (N.succ k0)), (N.ltb_spec k k0); auto; try lia.
      * assert (k = k0) by lia. subst. rewrite H0, N.sub_diag by lia. reflexivity.
      * replace (N.to_nat (k - k0)) with (S (N.to_nat (k - N.succ k0))) by lia. reflexivity.
    + destruct (proj2 (insert_no_overwrite_spec t m k0 v HR) (H0 k0 ltac:(lia))) as [t1 [E1 HR1]].
      rewrite E1. destruct (IH t1 _ (N.succ k0) HR1) as [t' [E HR']].
      { intros k Hk. unfold aset. destruct (N.eqb_spec k k0); [lia|]. apply H0; lia. }
      exists t'. split; auto. eapply represents_ext; eauto. intros k. cbn beta. unfold aset.
      destruct (N.ltb_spec k (N.succ k0)), (N.ltb_spec k k0); try lia.
      * destruct (N.eqb_spec k k0); [lia|auto].
      * assert (k = k0) by lia. subst. rewrite N.eqb_refl, N.sub_diag. reflexivity.
      * replace (N.to_nat (k - k0)) with (S (N.to_nat (k - N.succ k0))) by lia. reflexivity.
Qed.

Lemma from_array_spec l : exists t, from_array l = Some t /\
  represents t (fun k => nth (N.to_nat k) l 0).
Proof.
  destruct (from_array_loop_spec l Leaf aempty 0%N empty_represents) as [t [E HR]]; [reflexivity|].
  exists t. split; auto. eapply represents_ext; eauto. intros k. cbn beta.
  destruct (N.ltb_spec k 0); [lia|]. now rewrite N.sub_0_r.
Qed.

Lemma array_set_spec l i x : (i < length l)%nat ->
  exists l', array_set l i x = Some l' /\ length l' = length l /\
    forall j, nth j l' 0 = if Nat.eqb j i then x else nth j l 0.
Proof.
  revert i; induction l as [|y l IH]; intros i H; [cbn in H; lia|].
  destruct i as [|i]; cbn [array_set].
  - exists (x :: l). repeat split. intros [|j]; reflexivity.
  - destruct (IH i ltac:(cbn in H; lia)) as [l' [E [L C]]]. rewrite E.
    exists (y :: l'). cbn [length]. repeat split; [lia|]. intros [|j]; cbn; auto.
Qed.
Lemma array_set_none l i x : (length l <= i)%nat -> array_set l i x = None.
Proof.
  revert i; induction l as [|y l IH]; intros i H; [reflexivity|].
  destruct i as [|i]; [cbn in H; lia|]. cbn. now rewrite IH by (cbn in H; lia).
Qed.

Definition fill (acc : option (list Z)) (es : list (N * Z)) : option (list Z) :=
  fold_left (fun acc e => match acc with
                          | Some l => array_set l (N.to_nat (fst e)) (snd e)
                          | None => None
                          end) es acc.

Lemma fill_none es : fill None es = None.
Proof. induction es; cbn; auto. Qed.

Lemma fill_spec es : forall l, NoDup (map fst es) ->
  Forall (fun e => (N.to_nat (fst e) < length l)%nat) es ->
  exists l', fill (Some l) es = Some l' /\ length l' = length l /\
    forall k, nth (N.to_nat k) l' 0 = match assoc es k with Some v => v | None => nth (N.to_nat k) l 0 end.
Proof.
  induction es as [|[k0 v0] es IH]; intros l ND HF; cbn [fill fold_left].
  - exists l; auto.
  - inversion HF as [|? ? H1 H2]; subst. cbn [fst snd] in *. inversion ND as [|? ? ND1 ND2]; subst.
    destruct (array_set_spec l (N.to_nat k0) v0 H1) as [l1 [E1 [L1 C1]]]. rewrite E1.
    destruct (IH l1 ND2) as [l2 [E2 [L2 C2]]]; [now rewrite L1|].
    exists l2. split; [exact E2|]. split; [lia|]. intros k. rewrite C2, C1. cbn [assoc].
    destruct (N.eqb_spec k0 k) as [->|Hk].
    + rewrite Nat.eqb_refl. destruct (assoc es k) as [w|] eqn:A; auto.
      exfalso. apply ND1. clear -A. induction es as [|[a b] es IH]; [discriminate|]. cbn in *.
      destruct (N.eqb_spec a k); auto.
    + destruct (Nat.eqb_spec (N.to_nat k) (N.to_nat k0)); [lia|reflexivity].
Qed.

Lemma srt_NoDup l : srt l -> NoDup (map fst l).
Proof.
  induction 1 as [|e l Hs IH HF]; cbn; constructor; auto.
  rewrite in_map_iff. intros [e' [E Hin]]. rewrite Forall_forall in HF. specialize (HF _ Hin).
  unfold klt in HF. lia.
Qed.

Lemma assoc_rev l k : NoDup (map fst l) -> assoc (rev l) k = assoc l k.
Proof.
  induction l as [|[a b] l IH]; intros ND; [reflexivity|]. cbn [rev]. inversion ND; subst.
  rewrite assoc_app, IH by auto. cbn [assoc]. destruct (N.eqb_spec a k) as [->|].
  - rewrite assoc_none; auto. apply Forall_forall. intros e He E. apply H1. rewrite <- E. now apply in_map.
  - destruct (assoc l k); auto.
Qed.

Lemma to_array_spec t m n : represents t m ->
  (forall k, m k <> 0 -> (k < n)%N) ->
  exists l, to_array t n = Some l /\ length l = N.to_nat n /\
    forall k, (k < n)%N -> nth (N.to_nat k) l 0 = m k.
Proof.
  intros HR Hn. assert (HE := ascending_entries t m HR). destruct HE as [Hs He].
  assert (Hmax : N.ltb n (max_power t) = false).
  { apply N.ltb_ge. unfold max_power. destruct (max_node_spec t m HR) as [[_ [-> _]]|[k [v [-> [H1 [H2 _]]]]]]; cbn [fst].
    - lia.
    - assert (k < n)%N by (apply Hn; congruence). lia. }
  unfold to_array. rewrite Hmax.
  destruct (fill_spec (descending t) (repeat 0 (N.to_nat n))) as [l [E [L C]]].
  - rewrite descending_rev, map_rev. apply NoDup_rev. now apply srt_NoDup.
  - rewrite repeat_length, descending_rev. apply Forall_forall. intros [k v] Hk. apply in_rev in Hk.
    apply He in Hk. cbn. assert (k < n)%N by (apply Hn; destruct Hk; congruence). lia.
  - exists l. split; [exact E|]. rewrite repeat_length in L. split; auto.
    intros k Hk. rewrite C, descending_rev, assoc_rev by (now apply srt_NoDup).
    rewrite <- (proj2 HR k), lookup_assoc by apply HR.
    destruct (assoc (ascending t) k); auto. now rewrite nth_repeat.
Qed.

(** Too short a length always panics: below the top index through the guard, at the top index
    through the index expression. *)
Lemma to_array_short t m n k : represents t m -> m k <> 0 -> (n <= k)%N -> to_array t n = None.
Proof.
  intros HR Hk Hn. unfold to_array. destruct (N.ltb_spec n (max_power t)) as [|Hge]; auto.
  assert (HE := ascending_entries t m HR). destruct HE as [Hs He].
  assert (In (k, m k) (descending t)).
  { rewrite descending_rev, <- in_rev. apply He. auto. }
  apply in_split in H. destruct H as [l1 [l2 E]]. rewrite E, fold_left_app. cbn [fold_left].
  assert (F : forall es acc, fold_left (fun acc (e : N * Z) => match acc with
      | Some l => array_set l (N.to_nat (fst e)) (snd e) | None => None end) es acc = fill acc es) by reflexivity.
  rewrite !F. destruct (fill (Some (repeat 0 (N.to_nat n))) l1) as [l|] eqn:El; [|apply fill_none].
  assert (L : length l = N.to_nat n).
  { clear -El. rewrite <- (repeat_length 0 (N.to_nat n)). revert El. generalize (repeat 0 (N.to_nat n)).
    induction l1 as [|e l1 IH]; intros a H; [cbn in H; congruence|]. cbn in H.
    destruct (Nat.lt_ge_cases (N.to_nat (fst e)) (length a)).
    - destruct (array_set_spec a _ (snd e) H0) as [a' [E [L _]]]. rewrite E in H. apply IH in H. lia.
    - rewrite array_set_none in H by auto. fold (fill None l1) in H. rewrite fill_none in H. discriminate. }
  cbn [fst snd]. rewrite array_set_none by lia. apply fill_none.
Qed.

(** What the balancing loop leaves behind at the node it was called on. *)
Lemma balance_loop_done fuel : forall t t', balance_loop fuel t = Some t' ->
  match t' with Leaf => True | Node l _ _ _ r => Z.abs (height l - height r) <= 2 end.
Proof.
  induction fuel as [|f IH]; intros t t'; destruct t as [|l k v h r]; cbn [balance_loop];
    try (intros [= <-]; exact I);
    destruct (Z.ltb_spec 2 (Z.abs (height l - height r))); try discriminate;
    try (intros [= <-]; lia).
  apply IH.
Qed.

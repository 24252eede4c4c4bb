(** Proofs about SchedModel. *)
Require Import ZArith NArith Lia Bool List Sorted.
Require Import Verif.Cong Verif.FqModel Verif.FqProofs Verif.AvlModel Verif.AvlSpec Verif.AvlProofs
  Verif.SparseModel Verif.SparseProofs Verif.SchedModel.
Import ListNotations.
Open Scope Z_scope.

Notation keys t := (map fst (ascending t)).

Lemma keys_node l k v h r : keys (Node l k v h r) = keys l ++ k :: keys r.
Proof. cbn [ascending]. now rewrite map_app. Qed.

Lemma bst_NoDup t : bst t -> NoDup (keys t).
Proof. apply srt_NoDup. Qed.

(** ** Heap representation *)
Lemma repr_ext m m' t : forall p, (forall k, In k (keys t) -> hleft m k = hleft m' k /\ hright m k = hright m' k) ->
  repr m p t -> repr m' p t.
Proof.
  induction t as [|l IHl k v h r IHr]; intros p H [E R]; cbn [repr]; split; auto.
  rewrite keys_node in H. destruct R as [R1 R2].
  destruct (H k) as [A B]; [apply in_or_app; right; left; auto|]. rewrite <- A, <- B. split.
  - apply IHl; auto. intros; apply H; apply in_or_app; auto.
  - apply IHr; auto. intros; apply H; apply in_or_app; right; right; auto.
Qed.

Lemma repr_heap_of t : bst t -> repr (heap_of t) (hroot (heap_of t)) t.
Proof.
  cbn [heap_of hroot]. 
  enough (G : forall s, bst s -> (forall m, (forall n, In n (keys s) -> hleft m n = hl_of s n /\ hright m n = hr_of s n) -> repr m (tkey s) s)).
  { intros H. apply (G t H). intros; split; reflexivity. }
  induction s as [|l IHl k v h r IHr]; intros H m Hm; cbn [repr tkey]; split; auto.
  apply bst_node in H. destruct H as [Bl [Br [Fl Fr]]]. rewrite Forall_forall in Fl, Fr.
  rewrite keys_node in Hm.
  destruct (Hm k) as [A B]; [apply in_or_app; right; left; auto|].
  cbn [hl_of hr_of] in A, B. rewrite N.eqb_refl in A, B. rewrite A, B. split.
  - apply IHl; auto. intros n Hn. destruct (Hm n) as [C D]; [apply in_or_app; auto|].
    cbn [hl_of hr_of] in C, D. apply in_map_iff in Hn. destruct Hn as [e [<- He]]. apply Fl in He.
    destruct (N.eqb_spec (fst e) k); [lia|]. destruct (N.ltb_spec (fst e) k); [auto|lia].
  - apply IHr; auto. intros n Hn. destruct (Hm n) as [C D]; [apply in_or_app; right; right; auto|].
    cbn [hl_of hr_of] in C, D. apply in_map_iff in Hn. destruct Hn as [e [<- He]]. apply Fr in He.
    destruct (N.eqb_spec (fst e) k); [lia|]. destruct (N.ltb_spec (fst e) k); [lia|auto].
Qed.

Definition read (m : heap) (sl : slot) : option N :=
  match sl with SRoot => hroot m | SLeft n => hleft m n | SRight n => hright m n end.
Definition slot_out (sl : slot) (t : tree) : Prop :=
  match sl with SRoot => True | SLeft n | SRight n => ~ In n (keys t) end.

Lemma repr_write_out m sl x t p : slot_out sl t -> repr m p t -> repr (apply_write m (sl, x)) p t.
Proof.
  intros H. apply repr_ext. intros k Hk. destruct sl as [|n|n]; cbn; auto; unfold upd;
    destruct (N.eqb_spec k n); auto; subst; easy.
Qed.
Lemma read_write m sl x : read (apply_write m (sl, x)) sl = x.
Proof. destruct sl; cbn; unfold upd; rewrite ?N.eqb_refl; auto. Qed.

Lemma hl_same m n x : hleft (apply_write m (SLeft n, x)) n = x.
Proof. cbn. unfold upd. now rewrite N.eqb_refl. Qed.
Lemma hl_other m n x k : k <> n -> hleft (apply_write m (SLeft n, x)) k = hleft m k.
Proof. cbn. unfold upd. intros. now destruct (N.eqb_spec k n). Qed.
Lemma hr_same m n x : hright (apply_write m (SRight n, x)) n = x.
Proof. cbn. unfold upd. now rewrite N.eqb_refl. Qed.
Lemma hr_other m n x k : k <> n -> hright (apply_write m (SRight n, x)) k = hright m k.
Proof. cbn. unfold upd. intros. now destruct (N.eqb_spec k n). Qed.
Lemma hr_left m n x k : hright (apply_write m (SLeft n, x)) k = hright m k.
Proof. reflexivity. Qed.
Lemma hl_right m n x k : hleft (apply_write m (SRight n, x)) k = hleft m k.
Proof. reflexivity. Qed.

Lemma nodup_app_disj {A} (l1 l2 : list A) x : NoDup (l1 ++ l2) -> In x l1 -> In x l2 -> False.
Proof.
  induction l1 as [|a l1 IH]; cbn; intros ND H1 H2; [easy|]. inversion ND; subst. destruct H1 as [->|H1].
  - apply H3. apply in_or_app; auto.
  - now apply IH.
Qed.
Lemma nodup_app_l {A} (l1 l2 : list A) : NoDup (l1 ++ l2) -> NoDup l1.
Proof. induction l1; cbn; intros H; constructor; inversion H; subst; auto. intros X. apply H2. apply in_or_app; auto. Qed.
Lemma nodup_app_r {A} (l1 l2 : list A) : NoDup (l1 ++ l2) -> NoDup l2.
Proof. induction l1; cbn; intros H; auto. inversion H; subst; auto. Qed.

Lemma lmd_node l k v h r e : lmd l = Some e -> lmd (Node l k v h r) = Some e.
Proof. destruct l; [discriminate|]. intros H. exact H. Qed.

Lemma graft_left_repr m r : forall p l e, r <> Leaf -> NoDup (keys r) -> lmd r = Some e -> repr m p r ->
  (forall k, In k (keys l) -> ~ In k (keys r)) -> repr m (tkey l) l ->
  repr (apply_write m (SLeft (fst e), tkey l)) p (graft_left r l).
Proof.
  induction r as [|rl IHl k v h rr _]; intros p l e Hne ND E HR HD Rl; [easy|]. destruct HR as [Ep [R1 R2]].
  rewrite keys_node in ND, HD.
  destruct rl as [|a b c d f] eqn:El.
  - cbn [lmd] in E. injection E as <-. cbn [graft_left fst].
    cbn [repr]. split; [exact Ep|]. rewrite hl_same, hr_left. split.
    + apply (repr_write_out m (SLeft k) (tkey l)); auto. cbn. intros X. apply (HD k X). left; auto.
    + apply (repr_write_out m (SLeft k) (tkey l)); auto. cbn. cbn in ND. inversion ND; auto.
  - rewrite <- El in *.
    assert (E' : lmd rl = Some e) by (now rewrite El in *).
    assert (Ie : In (fst e) (keys rl)) by (apply in_map; now apply lmd_In).
    cbn [graft_left repr]. split; [exact Ep|].
    assert (X : k <> fst e) by (intros X; apply (nodup_app_disj _ _ k ND); [now rewrite X|left; auto]).
    rewrite hl_other, hr_left by auto. split.
    + apply IHl; auto; [subst; easy|now apply nodup_app_l in ND|]. intros j Hj X'. apply (HD j Hj). apply in_or_app; auto.
    + apply (repr_write_out m (SLeft (fst e)) (tkey l)); auto. cbn. intros X'.
      apply (nodup_app_disj _ _ (fst e) ND Ie). right; auto.
Qed.
Lemma graft_right_repr m l : forall p r e, l <> Leaf -> NoDup (keys l) -> rmd l = Some e -> repr m p l ->
  (forall k, In k (keys r) -> ~ In k (keys l)) -> repr m (tkey r) r ->
  repr (apply_write m (SRight (fst e), tkey r)) p (graft_right l r).
Proof.
  induction l as [|ll _ k v h lr IHr]; intros p r e Hne ND E HR HD Rr; [easy|]. destruct HR as [Ep [R1 R2]].
  rewrite keys_node in ND, HD.
  destruct lr as [|a b c d f] eqn:El.
  - cbn [rmd] in E. injection E as <-. cbn [graft_right fst].
    cbn [repr]. split; [exact Ep|]. rewrite hr_same, hl_right. split.
    + apply (repr_write_out m (SRight k) (tkey r)); auto. cbn. intros X. apply (nodup_app_disj _ _ k ND X). left; auto.
    + apply (repr_write_out m (SRight k) (tkey r)); auto. cbn. intros X. apply (HD k X). apply in_or_app; right; left; auto.
  - rewrite <- El in *.
    assert (E' : rmd lr = Some e) by (now rewrite El in *).
    assert (Ie : In (fst e) (keys lr)) by (apply in_map; now apply rmd_In).
    cbn [graft_right repr]. split; [exact Ep|].
    assert (ND2 := nodup_app_r _ _ ND). inversion ND2 as [|? ? Nk ND3].
    assert (X : k <> fst e) by (intros X; now rewrite <- X in Ie).
    rewrite hr_other, hl_right by auto. split.
    + apply (repr_write_out m (SRight (fst e)) (tkey r)); auto. cbn. intros X'.
      apply (nodup_app_disj _ _ (fst e) ND X'). right; auto.
    + apply IHr; auto; [now rewrite El|]. intros j Hj X'. apply (HD j Hj). apply in_or_app; right; right; auto.
Qed.

Lemma apply_writes_app m a b : apply_writes m (a ++ b) = apply_writes (apply_writes m a) b.
Proof. apply fold_left_app. Qed.

(** Only nodes of the tree and the slot are written. *)
Lemma rm_writes_frame t key : forall sl w, In w (rm_writes t key sl) ->
  fst w = sl \/ (exists n, In n (keys t) /\ (fst w = SLeft n \/ fst w = SRight n)).
Proof.
  induction t as [|l IHl k v h r IHr]; intros sl w H; [destruct H|]. cbn [rm_writes] in H. rewrite keys_node.
  destruct (N.eqb k key).
  - destruct l as [|a b c d f] eqn:El; [destruct H as [<-|[]]; auto|]. rewrite <- El in *.
    destruct r as [|a' b' c' d' f'] eqn:Er; [destruct H as [<-|[]]; auto|]. rewrite <- Er in *.
    destruct (Nat.ltb (size l) (size r)).
    + destruct (lmd r) as [e|] eqn:E; [|destruct H]. destruct H as [<-|[<-|[]]]; auto.
      right. exists (fst e). split; [|auto]. apply in_or_app; right; right. apply in_map. now apply lmd_In.
    + destruct (rmd l) as [e|] eqn:E; [|destruct H]. destruct H as [<-|[<-|[]]]; auto.
      right. exists (fst e). split; [|auto]. apply in_or_app; left. apply in_map. now apply rmd_In.
  - right. destruct (N.ltb key k).
    + apply IHl in H. destruct H as [->|[n [Hn E]]].
      * exists k. split; [apply in_or_app; right; left; auto|auto].
      * exists n. split; [apply in_or_app; auto|auto].
    + apply IHr in H. destruct H as [->|[n [Hn E]]].
      * exists k. split; [apply in_or_app; right; left; auto|auto].
      * exists n. split; [apply in_or_app; right; right; auto|auto].
Qed.

Lemma writes_read_other sl' : forall ws m, (forall w, In w ws -> fst w <> sl') -> read (apply_writes m ws) sl' = read m sl'.
Proof.
  induction ws as [|[s x] ws IH]; intros m H; [reflexivity|]. cbn [apply_writes fold_left]. fold (apply_writes (apply_write m (s, x)) ws).
  rewrite IH by (intros; apply H; now right).
  assert (N := H _ (or_introl eq_refl)). cbn in N. destruct s, sl'; cbn; auto; try easy; unfold upd;
    destruct (N.eqb_spec n0 n); auto; subst; easy.
Qed.

Lemma rm_writes_repr t key : forall m sl t' v, bst t -> repr m (read m sl) t -> slot_out sl t ->
  node_remove t key = Some (t', Some v) ->
  repr (apply_writes m (rm_writes t key sl)) (read (apply_writes m (rm_writes t key sl)) sl) t'.
Proof.
  induction t as [|l IHl k x h r IHr]; intros m sl t' v Hb HR HS E; [discriminate|].
  assert (ND : NoDup (keys (Node l k x h r))) by now apply bst_NoDup.
  rewrite keys_node in ND. unfold slot_out in HS. rewrite keys_node in HS.
  destruct HR as [Ep [Rl Rr]].
  apply bst_node in Hb as Hb'. destruct Hb' as [Bl [Br [Fl Fr]]].
  assert (HSl : slot_out sl l) by (destruct sl; cbn in *; auto; intros X; apply HS; apply in_or_app; auto).
  assert (HSr : slot_out sl r) by (destruct sl; cbn in *; auto; intros X; apply HS; apply in_or_app; right; right; auto).
  assert (Dlr : forall j, In j (keys l) -> ~ In j (keys r)) by (intros j J1 J2; apply (nodup_app_disj _ _ j ND J1); right; auto).
  assert (TL : hleft m k = tkey l) by (destruct l; cbn in Rl; tauto).
  assert (TR : hright m k = tkey r) by (destruct r; cbn in Rr; tauto).
  rewrite TL in Rl. rewrite TR in Rr.
  cbn [rm_writes node_remove] in *. destruct (N.eqb_spec k key) as [->|Hk].
  - destruct l as [|a b c d f] eqn:El.
    { injection E as <- <-. cbn [apply_writes fold_left]. rewrite read_write. now apply repr_write_out. }
    rewrite <- El in *. destruct r as [|a' b' c' d' f'] eqn:Er.
    { injection E as <- <-. cbn [apply_writes fold_left]. rewrite read_write. now apply repr_write_out. }
    rewrite <- Er in *. destruct (Nat.ltb (size l) (size r)).
    + destruct (lmd r) as [e|] eqn:Ee; [|apply lmd_none in Ee; subst r; discriminate].
      injection E as <- <-. cbn [apply_writes fold_left]. rewrite read_write.
      apply repr_write_out.
      * unfold slot_out. rewrite graft_left_asc, map_app. destruct sl; cbn in *; auto; intros X; apply in_app_or in X;
          apply HS; apply in_or_app; cbn; tauto.
      * apply graft_left_repr; auto; [subst; easy|]. now apply nodup_app_r in ND; inversion ND.
    + destruct (rmd l) as [e|] eqn:Ee; [|apply rmd_none in Ee; subst l; discriminate].
      injection E as <- <-. cbn [apply_writes fold_left]. rewrite read_write.
      apply repr_write_out.
      * unfold slot_out. rewrite graft_right_asc, map_app. destruct sl; cbn in *; auto; intros X; apply in_app_or in X;
          apply HS; apply in_or_app; cbn; tauto.
      * apply graft_right_repr; auto; [subst; easy|now apply nodup_app_l in ND|]. intros j J1 J2. now apply (Dlr j).
  - assert (Kl : ~ In k (keys l)) by (intros X; apply (nodup_app_disj _ _ k ND X); left; auto).
    assert (Kr : ~ In k (keys r)) by (apply nodup_app_r in ND; now inversion ND).
    destruct (N.ltb_spec key k).
    + destruct (node_remove l key) as [[l' [y|]]|] eqn:El; try discriminate; [|destruct (balance _); discriminate].
      injection E as <- <-.
      assert (G := IHl m (SLeft k) l' y Bl). cbn [read slot_out] in G. rewrite TL in G. specialize (G Rl Kl eq_refl).
      set (ws := rm_writes l key (SLeft k)) in *.
      assert (WF : forall sl', (forall n, In n (keys l) -> sl' <> SLeft n /\ sl' <> SRight n) -> sl' <> SLeft k ->
        read (apply_writes m ws) sl' = read m sl').
      { intros sl' H1 H2. apply writes_read_other. intros w Hw. apply rm_writes_frame in Hw.
        destruct Hw as [->|[n [Hn [->| ->]]]]; try (intros X; symmetry in X; revert X); [auto|apply (H1 n Hn)|apply (H1 n Hn)]. }
      cbn [repr]. split.
      * rewrite WF; auto.
        -- destruct sl; cbn in *; split; try discriminate; intros X; injection X as ->; apply HSl; auto.
        -- destruct sl; try discriminate. cbn in HS. intros X; injection X as ->. apply HS. apply in_or_app; right; left; auto.
      * split; [exact G|].
        assert (HRk : hright (apply_writes m ws) k = hright m k).
        { apply (WF (SRight k)); [|discriminate]. intros n Hn. split; [discriminate|]. intros X; injection X as ->. easy. }
        rewrite HRk, TR. apply (repr_ext m); auto. intros j Hj. split; symmetry.
        -- apply (WF (SLeft j)).
           ++ intros n Hn. split; [|discriminate]. intros X; injection X as ->. now apply (Dlr n).
           ++ intros X; injection X as ->. easy.
        -- apply (WF (SRight j)); [|discriminate]. intros n Hn. split; [discriminate|]. intros X; injection X as ->. now apply (Dlr n).
    + destruct (node_remove r key) as [[r' [y|]]|] eqn:Er; try discriminate; [|destruct (balance _); discriminate].
      injection E as <- <-.
      assert (G := IHr m (SRight k) r' y Br). cbn [read slot_out] in G. rewrite TR in G. specialize (G Rr Kr eq_refl).
      set (ws := rm_writes r key (SRight k)) in *.
      assert (WF : forall sl', (forall n, In n (keys r) -> sl' <> SLeft n /\ sl' <> SRight n) -> sl' <> SRight k ->
        read (apply_writes m ws) sl' = read m sl').
      { intros sl' H1 H2. apply writes_read_other. intros w Hw. apply rm_writes_frame in Hw.
        destruct Hw as [->|[n [Hn [->| ->]]]]; try (intros X; symmetry in X; revert X); [auto|apply (H1 n Hn)|apply (H1 n Hn)]. }
      cbn [repr]. split.
      * rewrite WF; auto.
        -- destruct sl; cbn in *; split; try discriminate; intros X; injection X as ->; apply HSr; auto.
        -- destruct sl; try discriminate. cbn in HS. intros X; injection X as ->. apply HS. apply in_or_app; right; left; auto.
      * split; [|exact G].
        assert (HLk : hleft (apply_writes m ws) k = hleft m k).
        { apply (WF (SLeft k)); [|discriminate]. intros n Hn. split; [|discriminate]. intros X; injection X as ->. easy. }
        rewrite HLk, TL. apply (repr_ext m); auto. intros j Hj. split; symmetry.
        -- apply (WF (SLeft j)); [|discriminate].
           intros n Hn. split; [|discriminate]. intros X; injection X as ->. now apply (Dlr n).
        -- apply (WF (SRight j)).
           ++ intros n Hn. split; [discriminate|]. intros X; injection X as ->. now apply (Dlr n).
           ++ intros X; injection X as ->. easy.
Qed.

(** ** One Put on a present key *)
(** Same pointers, possibly other values and heights. *)
Fixpoint same_shape (a b : tree) : Prop :=
  match a, b with
  | Leaf, Leaf => True
  | Node l k _ _ r, Node l' k' _ _ r' => k = k' /\ same_shape l l' /\ same_shape r r'
  | _, _ => False
  end.
Lemma same_shape_refl t : same_shape t t.
Proof. induction t; cbn; auto. Qed.
Lemma same_shape_tkey a b : same_shape a b -> tkey a = tkey b.
Proof. destruct a, b; cbn; try easy. intros [-> _]. reflexivity. Qed.
Lemma same_shape_repr m a : forall b p, same_shape a b -> repr m p a -> repr m p b.
Proof.
  induction a as [|l IHl k v h r IHr]; intros [|l' k' v' h' r'] p H; cbn in H; try easy.
  destruct H as [-> [Hl Hr]]. intros [E [R1 R2]]. split; [exact E|]. split; auto.
Qed.
Lemma same_shape_size a : forall b, same_shape a b -> size a = size b.
Proof.
  induction a as [|l IHl k v h r IHr]; intros [|l' k' v' h' r'] H; cbn in H; try easy.
  destruct H as [_ [Hl Hr]]. cbn [size]. now rewrite (IHl _ Hl), (IHr _ Hr).
Qed.
Lemma same_shape_lmd a : forall b, same_shape a b -> option_map fst (lmd a) = option_map fst (lmd b).
Proof.
  induction a as [|l IHl k v h r IHr]; intros [|l' k' v' h' r'] H; cbn in H; try easy.
  destruct H as [-> [Hl Hr]]. cbn [lmd]. destruct l as [|a b c d e]; destruct l' as [|a' b' c' d' e']; try easy. apply IHl. exact Hl.
Qed.
Lemma same_shape_rmd a : forall b, same_shape a b -> option_map fst (rmd a) = option_map fst (rmd b).
Proof.
  induction a as [|l IHl k v h r IHr]; intros [|l' k' v' h' r'] H; cbn in H; try easy.
  destruct H as [-> [Hl Hr]]. cbn [rmd]. destruct r as [|a b c d e]; destruct r' as [|a' b' c' d' e']; try easy. apply IHr. exact Hr.
Qed.
Lemma same_shape_rm a key : forall b sl, same_shape a b -> rm_writes a key sl = rm_writes b key sl.
Proof.
  induction a as [|l IHl k v h r IHr]; intros [|l' k' v' h' r'] sl H; cbn in H; try easy.
  destruct H as [-> [Hl Hr]]. cbn [rm_writes]. rewrite (IHl l' (SLeft k')), (IHr r' (SRight k')) by auto.
  destruct (N.eqb k' key); auto.
  assert (TL := same_shape_tkey _ _ Hl). assert (TR := same_shape_tkey _ _ Hr).
  assert (SL := same_shape_size _ _ Hl). assert (SR := same_shape_size _ _ Hr).
  assert (LM := same_shape_lmd _ _ Hr). assert (RM := same_shape_rmd _ _ Hl).
  rewrite TL, TR, SL, SR.
  destruct l as [|a b c d e], l' as [|a' b' c' d' e']; try easy.
  destruct r as [|a1 b1 c1 d1 e1], r' as [|a2 b2 c2 d2 e2]; try easy.
  destruct (Nat.ltb _ _).
  - destruct (lmd (Node a1 b1 c1 d1 e1)), (lmd (Node a2 b2 c2 d2 e2)); cbn in LM; try easy. injection LM as ->. reflexivity.
  - destruct (rmd (Node a b c d e)), (rmd (Node a' b' c' d' e')); cbn in RM; try easy. injection RM as ->. reflexivity.
Qed.

Lemma node_put_present t key x f t1 u v : get t key = Some v -> node_put t key x f = Some (t1, u) ->
  u = true /\ same_shape t t1 /\ exists y, f v x = Some y /\ get t1 key = Some y.
Proof.
  revert t1 u. induction t as [|l IHl k w h r IHr]; intros t1 u G E; [discriminate|]. cbn [get node_put] in *.
  destruct (N.eqb k key) eqn:Ek.
  - injection G as ->. destruct (f v x) as [y|]; [|discriminate]. injection E as <- <-. split; auto. split.
    + cbn. auto using same_shape_refl.
    + exists y. split; auto. cbn [get]. now rewrite Ek.
  - destruct (N.ltb key k) eqn:El.
    + destruct (node_put l key x f) as [[l' u']|] eqn:E1; [|discriminate].
      destruct (IHl l' u' G eq_refl) as [-> [S [y [F Gy]]]]. injection E as <- <-. split; auto. split.
      * cbn. auto using same_shape_refl.
      * exists y. split; auto. cbn [get]. now rewrite Ek, El.
    + destruct (node_put r key x f) as [[r' u']|] eqn:E1; [|discriminate].
      destruct (IHr r' u' G eq_refl) as [-> [S [y [F Gy]]]]. injection E as <- <-. split; auto. split.
      * cbn. auto using same_shape_refl.
      * exists y. split; auto. cbn [get]. now rewrite Ek, El.
Qed.

(** Put with Mul on a present key: either only the value changes, or the node is removed. *)
Lemma put_mul_present q t key x v t' : wf t -> get t key = Some v -> tree_put t key x (mul_cb q) = Some t' ->
  wf t' /\
  (fmul q v x <> 0 -> same_shape t t' /\ get t' key = Some (fmul q v x)) /\
  (fmul q v x = 0 -> exists t1, same_shape t t1 /\ bst t1 /\ node_remove t1 key = Some (t', Some 0) /\ keys t' = filter (fun k => negb (N.eqb k key)) (keys t)).
Proof.
  intros Hw G E.
  assert (S := tree_put_spec t key x (mul_cb q) Hw). unfold mul_cb at 1 in S. cbn beta iota in S.
  assert (Lk : lookup t key = v) by (unfold lookup; now rewrite G). rewrite Lk in S.
  destruct S as [t'' [E' [W' A']]]. unfold tree_put in E. unfold tree_put in E'. rewrite E in E'. injection E' as <-.
  split; auto. destruct Hw as [Hb [Hn Hz]].
  destruct (node_put t key x (mul_cb q)) as [[t1 u]|] eqn:E1; [|discriminate].
  destruct (node_put_present t key x (mul_cb q) t1 u v G E1) as [-> [SS [y [F Gy]]]].
  injection F as <-. rewrite Gy in E.
  destruct (Z.eqb_spec (fmul q v x) 0) as [Ez|Ez].
  - split; [easy|]. intros _. exists t1. split; auto.
    assert (B1 : bst t1).
    { assert (P := node_put_spec t key x (mul_cb q) Hb Hn). unfold mul_cb at 1 in P. cbn beta iota in P.
      destruct P as [t2 [u2 [E2 [_ A2]]]]. rewrite E1 in E2. injection E2 as <- <-. unfold bst. rewrite A2. now apply lput_srt. }
    split; auto. split.
    + unfold tree_remove in E. destruct (node_remove t1 key) as [[t2 [w|]]|] eqn:E2; try discriminate.
      * injection E as ->. assert (P := node_put_spec t key x (mul_cb q) Hb Hn). unfold mul_cb at 1 in P. cbn beta iota in P.
        destruct P as [t3 [u3 [E3 [N3 A3]]]]. rewrite E1 in E3. injection E3 as <- <-.
        destruct (node_remove_spec t1 key B1 N3) as [t4 [E4 _]]. rewrite E2, Gy, Ez in E4. injection E4 as _ ->. reflexivity.
      * destruct t1; discriminate.
    + rewrite A'. unfold lset. rewrite Ez. cbn [Z.eqb]. unfold lremove.
      clear. induction (ascending t) as [|[a b] l IH]; [reflexivity|]. cbn [filter map fst].
      destruct (N.eqb a key); cbn [negb filter map fst]; [exact IH|now rewrite IH].
  - injection E as <-. split; [auto|easy].
Qed.

(** ** Every reachable state: heap plus outstanding writes is the updater's tree *)
Definition sound (s : state) : Prop :=
  wf (view s) /\ repr (apply_writes (mem s) (pend s)) (hroot (apply_writes (mem s) (pend s))) (view s).

Lemma sound_step q w s1 s2 : step q w s1 s2 -> sound s1 -> sound s2.
Proof.
  intros H. destruct H; unfold sound; cbn [view mem pend]; auto.
  intros [Hw HR]. cbn [apply_writes fold_left] in HR.
  destruct (put_mul_present q t n x v t' Hw H0 H1) as [W' [A B]]. split; auto.
  destruct (Z.eqb_spec (fmul q v x) 0) as [Ez|Ez].
  - destruct (B Ez) as [t1 [SS [B1 [E _]]]]. rewrite (same_shape_rm t n t1 SRoot SS).
    apply (rm_writes_repr t1 n m SRoot t' 0); auto; [|exact I].
    cbn [read]. eapply same_shape_repr; eauto.
  - cbn [apply_writes fold_left]. eapply same_shape_repr; [apply A; auto|]. exact HR.
Qed.

Lemma sound_steps q w n s1 s2 : steps q w n s1 s2 -> sound s1 -> sound s2.
Proof. induction 1; auto. intros. eapply sound_step; eauto. Qed.

(** ** The case in which the keys to be deleted come first *)
(** x lies in the left subtree of the node p. *)
Fixpoint ldesc (t : tree) (p x : N) : Prop :=
  match t with
  | Leaf => False
  | Node l k _ _ r => (k = p /\ In x (keys l)) \/ ldesc l p x \/ ldesc r p x
  end.

Lemma same_shape_keys a : forall b, same_shape a b -> keys a = keys b.
Proof.
  induction a as [|l IHl k v h r IHr]; intros [|l' k' v' h' r'] H; cbn in H; try easy.
  destruct H as [-> [Hl Hr]]. rewrite !keys_node. now rewrite (IHl _ Hl), (IHr _ Hr).
Qed.
Lemma same_shape_ldesc a : forall b p x, same_shape a b -> ldesc b p x -> ldesc a p x.
Proof.
  induction a as [|l IHl k v h r IHr]; intros [|l' k' v' h' r'] p x H; cbn in H; try easy.
  destruct H as [-> [Hl Hr]]. cbn [ldesc]. rewrite <- (same_shape_keys _ _ Hl). intros [X|[X|X]]; eauto.
Qed.
Lemma same_shape_sym a : forall b, same_shape a b -> same_shape b a.
Proof.
  induction a as [|l IHl k v h r IHr]; intros [|l' k' v' h' r'] H; cbn in *; try easy.
  destruct H as [-> [Hl Hr]]. auto.
Qed.

(** Removing the smallest key: one pointer is written, and no left-descendant pair appears. *)
Lemma rm_min t key : forall sl, bst t -> In key (keys t) -> (forall k, In k (keys t) -> (key <= k)%N) ->
  exists s p, rm_writes t key sl = [(s, p)] /\ (s = sl \/ exists n, s = SLeft n /\ ldesc t n key).
Proof.
  induction t as [|l IHl k v h r IHr]; intros sl Hb Hi Hm; [easy|]. cbn [rm_writes].
  apply bst_node in Hb. destruct Hb as [Bl [Br [Fl Fr]]]. rewrite Forall_forall in Fl, Fr.
  rewrite keys_node in Hi, Hm.
  destruct (N.eqb_spec k key) as [->|Hk].
  - destruct l as [|a b c d e]; [eauto|]. exfalso.
    assert (In b (keys (Node a b c d e) ++ key :: keys r)).
    { rewrite keys_node. rewrite <- app_assoc. apply in_or_app; right; left; auto. }
    apply Hm in H. assert (In (b, c) (ascending (Node a b c d e))) by (cbn [ascending]; apply in_or_app; right; left; auto).
    apply Fl in H0. cbn in H0. lia.
  - assert (key <= k)%N by (apply Hm; apply in_or_app; right; left; auto).
    destruct (N.ltb_spec key k); [|lia].
    assert (Hil : In key (keys l)).
    { apply in_app_or in Hi. destruct Hi as [Hi|[->|Hi]]; auto; [lia|].
      apply in_map_iff in Hi. destruct Hi as [e [<- He]]. apply Fr in He. lia. }
    destruct (IHl (SLeft k) Bl Hil) as [s [p [E D]]]; [intros; apply Hm; apply in_or_app; auto|].
    exists s, p. split; auto. right. destruct D as [->|[n [-> D]]].
    + exists k. split; auto. cbn [ldesc]. auto.
    + exists n. split; auto. cbn [ldesc]. auto.
Qed.

Lemma ldesc_remove t key t' v : bst t -> (forall k, In k (keys t) -> (key <= k)%N) ->
  node_remove t key = Some (t', Some v) -> forall p x, ldesc t' p x -> ldesc t p x.
Proof.
  revert t' v. induction t as [|l IHl k w h r IHr]; intros t' v Hb Hm E p x D; [discriminate|]. cbn [node_remove] in E.
  apply bst_node in Hb. destruct Hb as [Bl [Br [Fl Fr]]]. rewrite Forall_forall in Fl, Fr.
  rewrite keys_node in Hm.
  destruct (N.eqb_spec k key) as [->|Hk].
  - destruct l as [|a b c d e].
    + injection E as <- <-. cbn [ldesc]. auto.
    + exfalso.
      assert (In b (keys (Node a b c d e) ++ key :: keys r)).
      { rewrite keys_node. rewrite <- app_assoc. apply in_or_app; right; left; auto. }
      apply Hm in H. assert (In (b, c) (ascending (Node a b c d e))) by (cbn [ascending]; apply in_or_app; right; left; auto).
      apply Fl in H0. cbn in H0. lia.
  - assert (key <= k)%N by (apply Hm; apply in_or_app; right; left; auto).
    destruct (N.ltb_spec key k); [|lia].
    destruct (node_remove l key) as [[l' [y|]]|] eqn:El; try discriminate; [|destruct (balance _); discriminate].
    injection E as <- <-. cbn [ldesc] in *. destruct D as [[-> D]|[D|D]]; auto.
    + left. split; auto. assert (Hsub : forall n, In n (keys l') -> In n (keys l)).
      { clear -El Bl. intros n Hn. revert l' y El n Hn. induction l as [|a IHa b c d e IHe]; intros l' y El n Hn; [discriminate|].
        cbn [node_remove] in El. apply bst_node in Bl. destruct Bl as [Ba [Be _]]. rewrite keys_node.
        destruct (N.eqb b key).
        - destruct a as [|a1 a2 a3 a4 a5] eqn:Ea; [injection El as <- <-; apply in_or_app; right; right; auto|]. rewrite <- Ea in *.
          destruct e as [|e1 e2 e3 e4 e5] eqn:Ee; [injection El as <- <-; apply in_or_app; auto|]. rewrite <- Ee in *.
          destruct (Nat.ltb (size a) (size e)); injection El as <- <-;
            rewrite ?graft_left_asc, ?graft_right_asc, map_app in Hn; apply in_app_or in Hn; apply in_or_app; cbn; tauto.
        - destruct (N.ltb key b).
          + destruct (node_remove a key) as [[a' [z|]]|] eqn:Ea; try discriminate; [|destruct (balance _); discriminate].
            injection El as <- <-. rewrite keys_node in Hn. apply in_app_or in Hn. apply in_or_app.
            destruct Hn as [Hn|Hn]; auto. left. eapply IHa; eauto.
          + destruct (node_remove e key) as [[e' [z|]]|] eqn:Ee; try discriminate; [|destruct (balance _); discriminate].
            injection El as <- <-. rewrite keys_node in Hn. apply in_app_or in Hn. apply in_or_app.
            destruct Hn as [Hn|[Hn|Hn]]; auto; [right; left; auto|]. right; right. eapply IHe; eauto. }
      auto.
    + right; left. eapply IHl; eauto. intros n Hn. apply Hm. apply in_or_app; auto.
Qed.

(** Subtrees of the initial tree. *)
Fixpoint sub (s t : tree) : Prop :=
  s = t \/ match t with Leaf => False | Node l _ _ _ r => sub s l \/ sub s r end.
Lemma sub_refl t : sub t t.
Proof. destruct t; cbn; auto. Qed.
Lemma sub_trans a b c : sub a b -> sub b c -> sub a c.
Proof.
  intros H. induction c as [|l IHl k v h r IHr]; cbn [sub].
  - intros [->|[]]. exact H.
  - intros [->|[X|X]]; [exact H|right; auto..].
Qed.
Lemma sub_left l k v h r t : sub (Node l k v h r) t -> sub l t.
Proof. apply sub_trans. cbn [sub]. right; left. apply sub_refl. Qed.
Lemma sub_right l k v h r t : sub (Node l k v h r) t -> sub r t.
Proof. apply sub_trans. cbn [sub]. right; right. apply sub_refl. Qed.
Lemma sub_keys s t k : sub s t -> In k (keys s) -> In k (keys t).
Proof.
  induction t as [|l IHl kk v h r IHr]; cbn [sub]; [intros [->|[]]; auto|].
  intros [->|[H|H]] Hk; auto; rewrite keys_node; apply in_or_app; [left|right; right]; auto.
Qed.

(** A node of the initial tree and x in its left subtree. *)
Lemma ldesc_sub t l k v h r x : sub (Node l k v h r) t -> NoDup (keys t) -> ldesc t k x -> In x (keys l).
Proof.
  induction t as [|tl IHl tk tv th tr IHr]; cbn [sub ldesc]; intros S ND D; [easy|].
  rewrite keys_node in ND.
  assert (NDl := nodup_app_l _ _ ND). assert (NDr := nodup_app_r _ _ ND). inversion NDr as [|? ? Nk NDr']; subst.
  assert (Dk : forall s p y, ldesc s p y -> In p (keys s)).
  { clear. induction s as [|a IHa b c d e IHe]; cbn [ldesc]; intros p y H; [easy|]. rewrite keys_node. apply in_or_app.
    destruct H as [[-> _]|[H|H]]; [right; left; auto|left; eauto|right; right; eauto]. }
  assert (Kn : forall s, sub (Node l k v h r) s -> In k (keys s)).
  { intros s Hs. eapply sub_keys; [exact Hs|]. rewrite keys_node. apply in_or_app; right; left; auto. }
  destruct S as [S|[S|S]].
  - injection S as -> -> -> -> ->. destruct D as [[_ D]|[D|D]]; auto; exfalso; apply Dk in D.
    + apply (nodup_app_disj _ _ tk ND D). left; auto.
    + easy.
  - destruct D as [[-> D]|[D|D]]; auto; exfalso.
    + apply Kn in S. apply (nodup_app_disj _ _ k ND S). left; auto.
    + apply Kn in S. apply Dk in D. apply (nodup_app_disj _ _ k ND S). right; auto.
  - destruct D as [[-> D]|[D|D]]; auto; exfalso.
    + apply Kn in S. easy.
    + apply Kn in S. apply Dk in D. apply (nodup_app_disj _ _ k ND D). right; auto.
Qed.

(** Walker frames with the subtree of the initial tree they work on. *)
Inductive gframe : Type := GF (pt : nat) (l : tree) (k : N) (v h : Z) (r : tree).
Definition gtree (g : gframe) : tree := let 'GF _ l k v h r := g in Node l k v h r.
Definition gerase (g : gframe) : frame :=
  let 'GF pt l k v h r := g in
  match pt with 0%nat => FLeft k | 1%nat => FLeft2 k | 2%nat => FSend k | 3%nat => FRight k | _ => FRight2 k end.
Definition grest (g : gframe) : list N :=
  let 'GF pt l k v h r := g in
  match pt with 0%nat | 1%nat => keys l ++ k :: keys r | 2%nat => k :: keys r | _ => keys r end.
Definition gok (g : gframe) : Prop :=
  let 'GF pt l k v h r := g in
  match pt with 1%nat => l <> Leaf | 4%nat => r <> Leaf | 0%nat | 2%nat | 3%nat => True | _ => False end.
Definition gcost (g : gframe) : nat :=
  let 'GF pt l k v h r := g in
  match pt with 0%nat => 5 * S (size l + size r) | 1%nat => 5 * S (size l + size r) - 1
  | 2%nat => 3 + 5 * size r | 3%nat => 2 + 5 * size r | _ => 1 + 5 * size r end.
Definition grests (gs : list gframe) : list N := flat_map grest gs.
Definition gcosts (gs : list gframe) : nat := fold_right (fun g n => gcost g + n)%nat 0%nat gs.

Section Prefix.
Variables (q : Z) (weight : N -> option Z) (t0 : tree).
Hypothesis W0 : wf t0.
Hypothesis WD : forall k, In k (keys t0) -> weight k <> None.
Definition vanishes (k : N) : Prop :=
  match weight k with Some x => fmul q (lookup t0 k) x = 0 | None => False end.
Hypothesis PF : forall k1 k2, In k1 (keys t0) -> In k2 (keys t0) -> (k1 < k2)%N -> vanishes k2 -> vanishes k1.

Let ND0 : NoDup (keys t0).
Proof. apply bst_NoDup, W0. Qed.

Definition inv (s : state) (gs : list gframe) : Prop :=
  bad s = false /\
  stack s = map gerase gs /\ Forall gok gs /\ Forall (fun g => sub (gtree g) t0) gs /\
  log s ++ grests gs = keys t0 /\
  (forall l k v h r, sub (Node l k v h r) t0 -> hright (mem s) k = tkey r) /\
  (forall l k v h r, sub (Node l k v h r) t0 -> (forall x, In x (keys l) -> ~ In x (log s)) -> hleft (mem s) k = tkey l) /\
  (forall w, In w (pend s) -> fst w = SRoot \/ exists n x, fst w = SLeft n /\ In x (log s) /\ ldesc t0 n x) /\
  (length (pend s) <= 1)%nat /\
  wf (view s) /\
  (forall k, lookup (view s) k = match weight k with
                                 | Some x => if in_dec N.eq_dec k (log s) then fmul q (lookup t0 k) x else lookup t0 k
                                 | None => 0
                                 end) /\
  (forall p x, ldesc (view s) p x -> ldesc t0 p x) /\
  puts q weight t0 (log s) = Some (view s).

Definition measure (s : state) (gs : list gframe) : nat := (2 * gcosts gs + length (pend s))%nat.

Lemma repr_start m : repr m (hroot m) t0 ->
  (forall l k v h r, sub (Node l k v h r) t0 -> hright m k = tkey r /\ hleft m k = tkey l).
Proof.
  generalize (hroot m) as p. clear. induction t0 as [|l IHl k v h r IHr]; intros p [E R] l' k' v' h' r' S; cbn [sub] in S.
  - destruct S as [S|[]]; discriminate.
  - destruct R as [R1 R2]. destruct S as [S|[S|S]].
    + injection S as -> -> -> -> ->. split.
      * destruct r; cbn in R2; tauto.
      * destruct l; cbn in R1; tauto.
    + eapply IHl; eauto.
    + eapply IHr; eauto.
Qed.

Lemma weight_lookup k : weight k = None -> lookup t0 k = 0.
Proof.
  intros H. apply lookup_notin; [apply W0|]. intros X. now apply WD in X.
Qed.

Lemma inv_start m : repr m (hroot m) t0 -> exists gs, inv (start m t0) gs /\ measure (start m t0) gs = (10 * size t0)%nat.
Proof.
  intros HR. assert (RS := repr_start m HR).
  assert (Ep : hroot m = tkey t0) by (destruct t0; cbn in HR; tauto).
  exists (match t0 with Leaf => [] | Node l k v h r => [GF 0 l k v h r] end). split.
  - unfold inv, start. cbn [bad stack log pend mem view]. rewrite Ep.
    split; [auto|]. split; [destruct t0; reflexivity|]. split; [destruct t0; repeat constructor|].
    split; [destruct t0; constructor; [apply sub_refl|constructor]|].
    split; [destruct t0 as [|l k v h r]; [reflexivity|]; cbn [grests flat_map grest app]; now rewrite app_nil_r, keys_node|].
    split; [intros; now apply RS with (1 := H)|]. split; [intros; now apply RS with (1 := H)|].
    split; [intros w []|]. split; [cbn; lia|]. split; [exact W0|]. split.
    + intros k. destruct (weight k) eqn:E; [reflexivity|]. now apply weight_lookup.
    + split; auto.
  - unfold measure, start. cbn [pend length]. destruct t0; cbn [gcosts fold_right gcost size]; lia.
Qed.

Lemma prefix_nodup a b : a ++ b = keys t0 -> forall x, In x a -> In x b -> False.
Proof. intros E x Ha Hb. assert (ND := ND0). rewrite <- E in ND. eapply nodup_app_disj; eauto. Qed.

Lemma prefix_sorted a n b : a ++ n :: b = keys t0 -> forall x, In x (keys t0) -> ~ In x a -> (n <= x)%N.
Proof.
  intros E x Hx Hn. rewrite <- E in Hx. apply in_app_or in Hx. destruct Hx as [|[->|Hx]]; [easy|lia|].
  assert (S : StronglySorted N.lt (keys t0)).
  { destruct W0 as [Hb _]. unfold bst in Hb. clear -Hb. induction Hb as [|e l S IH F]; cbn; constructor; auto.
    rewrite Forall_forall in *. intros y Hy. apply in_map_iff in Hy. destruct Hy as [e' [<- He]]. now apply F. }
  rewrite <- E in S. clear -S Hx. induction a as [|y a IH]; cbn in S; inversion S; subst; auto.
  rewrite Forall_forall in H2. specialize (H2 _ Hx). lia.
Qed.
Lemma prefix_before a n b : a ++ n :: b = keys t0 -> forall x, In x a -> (x < n)%N.
Proof.
  intros E x Hx.
  assert (S : StronglySorted N.lt (keys t0)).
  { destruct W0 as [Hb _]. unfold bst in Hb. clear -Hb. induction Hb as [|e l S IH F]; cbn; constructor; auto.
    rewrite Forall_forall in *. intros y Hy. apply in_map_iff in Hy. destruct Hy as [e' [<- He]]. now apply F. }
  rewrite <- E in S. clear -S Hx. induction a as [|y a IH]; cbn in S; [easy|]. inversion S; subst.
  destruct Hx as [->|Hx]; auto. rewrite Forall_forall in H2. apply H2. apply in_or_app; right; left; auto.
Qed.

Lemma puts_snoc ks k : forall t, puts q weight t (ks ++ [k]) =
  match puts q weight t ks with
  | Some t' => match weight k with Some x => tree_put t' k x (mul_cb q) | None => None end
  | None => None
  end.
Proof.
  induction ks as [|a ks IH]; intros t; cbn [app puts].
  - destruct (weight k); auto. destruct (tree_put t k z (mul_cb q)); auto.
  - destruct (weight a); auto. destruct (tree_put t a z (mul_cb q)); auto.
Qed.

Lemma inv_step s1 s2 gs : inv s1 gs -> step q weight s1 s2 ->
  exists gs', inv s2 gs' /\ (measure s2 gs' < measure s1 gs)%nat.
Proof.
  intros [Hbad [Hst [Hok [Hsub [Hlog [Hr [Hl [Hp [Hpl [Hw [Hv [Hd Hputs]]]]]]]]]]]] H.
  destruct H; cbn [bad stack log pend mem view] in *.
  - (* nil test of left *)
    destruct gs as [|[pt l k v h r] gs]; [discriminate|]. cbn [map gerase] in Hst.
    destruct pt as [|[|[|[|pt]]]]; cbn [gerase] in Hst; try discriminate.
    injection Hst as -> ->. inversion Hok as [|? ? Ok1 Ok2]; subst. inversion Hsub as [|? ? S1 S2]; subst.
    cbn [gtree] in S1. cbn [grests flat_map grest] in Hlog. fold (grests gs) in Hlog.
    assert (HL : hleft m k = tkey l).
    { apply (Hl l k v h r S1). intros x Hx Hx'. eapply prefix_nodup; [exact Hlog|exact Hx'|].
      apply in_or_app; left. apply in_or_app; auto. }
    rewrite HL. destruct l as [|a b c d e].
    + exists (GF 2 Leaf k v h r :: gs). split.
      * split; [auto|]. split; [reflexivity|]. split; [constructor; cbn; auto|]. split; [constructor; auto|].
        repeat split; auto; apply Hw.
      * unfold measure. cbn [pend gcosts fold_right gcost size]. lia.
    + exists (GF 1 (Node a b c d e) k v h r :: gs). split.
      * split; [auto|]. split; [reflexivity|]. split; [constructor; cbn; auto; easy|]. split; [constructor; auto|].
        repeat split; auto; apply Hw.
      * unfold measure. cbn [pend gcosts fold_right gcost size]. lia.
  - (* second read of left *)
    destruct gs as [|[pt l k v h r] gs]; [discriminate|]. cbn [map gerase] in Hst.
    destruct pt as [|[|[|[|pt]]]]; cbn [gerase] in Hst; try discriminate.
    injection Hst as -> ->. inversion Hok as [|? ? Ok1 Ok2]; subst. inversion Hsub as [|? ? S1 S2]; subst.
    cbn [gtree] in S1. cbn [grests flat_map grest] in Hlog. fold (grests gs) in Hlog.
    assert (HL : hleft m k = tkey l).
    { apply (Hl l k v h r S1). intros x Hx Hx'. eapply prefix_nodup; [exact Hlog|exact Hx'|].
      apply in_or_app; left. apply in_or_app; auto. }
    rewrite HL. destruct l as [|a b c d e]; [now cbn in Ok1|].
    exists (GF 0 a b c d e :: GF 2 (Node a b c d e) k v h r :: gs). split.
    + split; [auto|]. split; [reflexivity|]. split; [constructor; [cbn; auto|constructor; cbn; auto]|].
      split; [constructor; [cbn [gtree]; eapply sub_left; eauto|constructor; auto]|].
      split; [|repeat split; auto; apply Hw].
      cbn [grests flat_map grest]. fold (grests gs). rewrite <- Hlog. rewrite keys_node. rewrite <- !app_assoc. reflexivity.
    + unfold measure. cbn [pend gcosts fold_right gcost size]. lia.
  - (* send *)
    destruct gs as [|[pt l k v' h r] gs]; [discriminate|]. cbn [map gerase] in Hst.
    destruct pt as [|[|[|[|pt]]]]; cbn [gerase] in Hst; try discriminate.
    injection Hst as -> ->. inversion Hok as [|? ? Ok1 Ok2]; subst. inversion Hsub as [|? ? S1 S2]; subst.
    cbn [gtree] in S1. cbn [grests flat_map grest] in Hlog. fold (grests gs) in Hlog.
    destruct (put_mul_present q t k x v t' Hw H0 H1) as [W' [A B]].
    assert (Kin : In k (keys t0)) by (rewrite <- Hlog; apply in_or_app; right; left; auto).
    assert (Kfresh : ~ In k lg) by (intros X; eapply (prefix_nodup lg _ Hlog k X); left; auto).
    assert (Lk : lookup t k = lookup t0 k).
    { rewrite Hv, H. destruct (in_dec _ _ _); [easy|auto]. }
    assert (Lv : lookup t0 k = v) by (rewrite <- Lk; unfold lookup; now rewrite H0).
    assert (LP : forall j, lookup t' j = if N.eqb j k then fmul q v x else lookup t j).
    { destruct (put_lookup t k x (mul_cb q) (fmul q v x) Hw) as [t2 [E2 [_ L2]]].
      - unfold mul_cb. rewrite Lk, Lv. reflexivity.
      - rewrite H1 in E2. injection E2 as <-. exact L2. }
    assert (VM : fmul q v x = 0 -> (forall j, In j (keys t) -> (k <= j)%N) /\ In k (keys t)).
    { intros Ez. split.
      - intros j Hj. apply (in_keys_lookup t j Hw) in Hj.
        destruct (N.lt_ge_cases j k) as [Hjk|]; auto. exfalso.
        assert (Jin : In j (keys t0)).
        { apply (in_keys_lookup t0 j W0). intros X. rewrite Hv in Hj. destruct (weight j); [|easy].
          destruct (in_dec _ _ _); [|easy]. rewrite X in Hj. unfold fmul in Hj. rewrite Z.mul_0_l, Zmod_0_l in Hj. easy. }
        assert (Vk : vanishes k) by (unfold vanishes; rewrite H, Lv; exact Ez).
        assert (Vj := PF j k Jin Kin Hjk Vk). unfold vanishes in Vj. rewrite Hv in Hj.
        destruct (weight j); [|easy]. destruct (in_dec _ _ _) as [|Nj]; [easy|].
        assert (Q := prefix_sorted lg k _ Hlog j Jin Nj). lia.
      - apply (in_keys_lookup t k Hw). rewrite Lk. now apply (in_keys_lookup t0 k W0). }
    assert (PL : (length (if (fmul q v x =? 0)%Z then rm_writes t k SRoot else []) <= 1)%nat).
    { destruct (Z.eqb_spec (fmul q v x) 0) as [Ez|Ez]; [|cbn; lia]. destruct (VM Ez) as [V1 V2].
      destruct (rm_min t k SRoot (proj1 Hw) V2 V1) as [sl [pp [E D]]]. rewrite E. cbn; lia. }
    exists (GF 3 l k v' h r :: gs). split.
    + split; [auto|]. split; [reflexivity|]. split; [constructor; cbn; auto|]. split; [constructor; auto|].
      split; [cbn [grests flat_map grest]; fold (grests gs); rewrite <- Hlog; cbn [log]; now rewrite <- app_assoc|].
      split; [auto|]. split.
      { intros l1 k1 v1 h1 r1 S Hn. apply (Hl l1 k1 v1 h1 r1 S). intros y Hy Hy'. apply (Hn y Hy). apply in_or_app; auto. }
      split.
      { destruct (Z.eqb_spec (fmul q v x) 0) as [Ez|Ez]; [|intros w []].
        destruct (VM Ez) as [V1 V2].
        destruct (rm_min t k SRoot (proj1 Hw) V2 V1) as [sl [pp [E D]]]. rewrite E. intros w [<-|[]]. cbn [fst].
        destruct D as [->|[n [-> D]]]; auto. right. exists n, k. split; auto. split; [apply in_or_app; right; left; auto|]. now apply Hd. }
      split; [exact PL|].
      split; [exact W'|]. split.
      { intros j. cbn [view log]. rewrite LP. destruct (N.eqb_spec j k) as [->|Hj].
        - rewrite H. destruct (in_dec _ _ _) as [|n]; [now rewrite Lv|]. exfalso. apply n. apply in_or_app; right; left; auto.
        - rewrite Hv. destruct (weight j); auto. destruct (in_dec N.eq_dec j lg) as [i1|n1], (in_dec N.eq_dec j (lg ++ [k])) as [i2|n2]; auto; exfalso.
          + apply n2. apply in_or_app; auto.
          + apply in_app_or in i2. destruct i2 as [i2|[i2|[]]]; [easy|now symmetry in i2]. }
      split.
      { intros p y D. apply Hd. destruct (Z.eq_dec (fmul q v x) 0) as [Ez|Ez].
        - destruct (B Ez) as [t1 [SS [B1 [E _]]]]. destruct (VM Ez) as [V1 _].
          apply (same_shape_ldesc t t1); auto. eapply ldesc_remove; eauto.
          intros j Hj. rewrite <- (same_shape_keys _ _ SS) in Hj. auto.
        - destruct (A Ez) as [SS _]. eapply same_shape_ldesc; eauto. }
      cbn [log view]. rewrite puts_snoc, Hputs, H. exact H1.
    + unfold measure. cbn [pend gcosts fold_right gcost length].
      lia.
  - (* bad *)
    exfalso. destruct gs as [|[pt l k v' h r] gs]; [discriminate|]. cbn [map gerase] in Hst.
    destruct pt as [|[|[|[|pt]]]]; cbn [gerase] in Hst; try discriminate. injection Hst as -> ->.
    cbn [grests flat_map grest] in Hlog. fold (grests gs) in Hlog.
    assert (Kin : In k (keys t0)) by (rewrite <- Hlog; apply in_or_app; right; left; auto).
    assert (Kfresh : ~ In k lg) by (intros X; eapply (prefix_nodup lg _ Hlog k X); left; auto).
    assert (Wk := WD k Kin). destruct H as [|G]; [easy|].
    apply (in_keys_lookup t0 k W0) in Kin. apply Kin.
    assert (X := Hv k). unfold lookup at 1 in X. rewrite G in X. destruct (weight k); [|easy].
    destruct (in_dec _ _ _); [easy|auto].
  - (* nil test of right *)
    destruct gs as [|[pt l k v h r] gs]; [discriminate|]. cbn [map gerase] in Hst.
    destruct pt as [|[|[|[|pt]]]]; cbn [gerase] in Hst; try discriminate.
    injection Hst as -> ->. inversion Hok as [|? ? Ok1 Ok2]; subst. inversion Hsub as [|? ? S1 S2]; subst.
    cbn [gtree] in S1. cbn [grests flat_map grest] in Hlog. fold (grests gs) in Hlog.
    rewrite (Hr l k v h r S1). destruct r as [|a b c d e]; cbn [tkey].
    + exists gs. split.
      * split; [auto|]. split; [reflexivity|]. split; [auto|]. split; [auto|]. split; [exact Hlog|]. repeat split; auto; apply Hw.
      * unfold measure. cbn [pend gcosts fold_right gcost size]. fold (gcosts gs). lia.
    + exists (GF 4 l k v h (Node a b c d e) :: gs). split.
      * split; [auto|]. split; [reflexivity|]. split; [constructor; cbn; auto; easy|]. split; [constructor; auto|].
        split; [exact Hlog|]. repeat split; auto; apply Hw.
      * unfold measure. cbn [pend gcosts fold_right gcost size]. lia.
  - (* second read of right *)
    destruct gs as [|[pt l k v h r] gs]; [discriminate|]. cbn [map gerase] in Hst.
    inversion Hok as [|? ? Ok1 Ok2]; subst. inversion Hsub as [|? ? S1 S2]; subst.
    destruct pt as [|[|[|[|[|pt]]]]]; cbn [gerase] in Hst; try discriminate; [|now cbn in Ok1].
    injection Hst as -> ->.
    cbn [gtree] in S1. cbn [grests flat_map grest] in Hlog. fold (grests gs) in Hlog.
    rewrite (Hr l k v h r S1). destruct r as [|a b c d e]; cbn [tkey]; [now cbn in Ok1|].
    exists (GF 0 a b c d e :: gs). split.
    + split; [auto|]. split; [reflexivity|]. split; [constructor; cbn; auto|].
      split; [constructor; [cbn [gtree]; eapply sub_right; eauto|auto]|].
      split; [cbn [grests flat_map grest]; fold (grests gs); rewrite <- Hlog, keys_node; reflexivity|]. repeat split; auto; apply Hw.
    + unfold measure. cbn [pend gcosts fold_right gcost size]. lia.
  - (* write *)
    exists gs. split; [|unfold measure; cbn [pend length]; lia].
    split; [auto|]. split; [auto|]. split; [auto|]. split; [auto|]. split; [auto|]. cbn [mem].
    assert (Hw0 := Hp w (or_introl eq_refl)). destruct w as [sl x]. cbn [fst] in Hw0.
    split; [|split; [|split; [intros w' Hw'; apply Hp; right; auto|split; [cbn [length pend] in *; lia|repeat split; auto; apply Hw]]]].
    + intros l k v h r S. destruct Hw0 as [->|[n [y [-> _]]]]; cbn [apply_write hright]; eapply Hr; eauto.
    + intros l k v h r S Hn. destruct Hw0 as [->|[n [y [-> [Hy D]]]]]; cbn [apply_write hleft].
      * apply (Hl l k v h r S Hn).
      * unfold upd. destruct (N.eqb_spec k n) as [->|]; [|apply (Hl l k v h r S Hn)].
        exfalso. apply (Hn y); auto. eapply ldesc_sub; eauto.
Qed.

Lemma inv_steps n s1 s2 : steps q weight n s1 s2 -> forall gs, inv s1 gs ->
  exists gs', inv s2 gs' /\ (n + measure s2 gs' <= measure s1 gs)%nat.
Proof.
  induction 1 as [s|n s1 s2 s3 H IH HS]; intros gs Hi; [exists gs; split; auto|].
  destruct (IH gs Hi) as [g2 [I2 M2]]. destruct (inv_step s2 s3 g2 I2 HS) as [g3 [I3 M3]]. exists g3. split; auto. lia.
Qed.

Lemma inv_progress s gs : inv s gs -> finished s \/ exists s', step q weight s s'.
Proof.
  intros [Hbad [Hst [Hok [Hsub [Hlog [Hr [Hl [Hp [Hpl [Hw [Hv [Hd Hputs]]]]]]]]]]]].
  destruct s as [m t p st lg b]. cbn [bad stack log pend mem view] in *. subst b.
  destruct p as [|w p]; [|right; eexists; apply step_write].
  destruct st as [|[n|n|n|n|n] st].
  - left. split; reflexivity.
  - right. eexists. apply step_left.
  - right. eexists. apply step_left2.
  - right. destruct (weight n) as [x|] eqn:E; [|eexists; apply step_bad; auto].
    destruct (get t n) as [v|] eqn:G; [|eexists; apply step_bad; auto].
    destruct (put_lookup t n x (mul_cb q) (fmul q v x) Hw) as [t' [E' _]].
    { unfold mul_cb, lookup. now rewrite G. }
    eexists. eapply step_send; eauto.
  - right. eexists. apply step_right.
  - right. eexists. apply step_right2.
Qed.

(** Every execution: at most 10 steps per node, no deadlock, no bad state; when both goroutines
    are done every key was processed exactly once, in order, as in the sequential program. *)
Lemma prefix_schedules m n s : repr m (hroot m) t0 -> steps q weight n (start m t0) s ->
  (n <= 10 * size t0)%nat /\ bad s = false /\
  (finished s \/ exists s', step q weight s s') /\
  (finished s -> log s = keys t0 /\ puts q weight t0 (keys t0) = Some (view s) /\
     (forall k, lookup (view s) k = match weight k with Some x => fmul q (lookup t0 k) x | None => 0 end)).
Proof.
  intros HR HS. destruct (inv_start m HR) as [gs [I0 M0]]. destruct (inv_steps n _ s HS gs I0) as [gs' [I M]].
  split; [lia|]. split; [apply I|]. split; [eapply inv_progress; eauto|].
  destruct I as [Hbad [Hst [Hok [Hsub [Hlog [Hr [Hl [Hp [Hpl [Hw [Hv [Hd Hputs]]]]]]]]]]]].
  intros [F1 F2]. rewrite F1 in Hst. destruct gs' as [|g gs']; [|discriminate]. cbn in Hlog. rewrite app_nil_r in Hlog.
  split; auto. rewrite <- Hlog. split; auto. intros k. rewrite Hv. rewrite Hlog.
  destruct (weight k); auto. destruct (in_dec _ _ _) as [|n0]; auto.
  rewrite (lookup_notin t0 k) by (auto; apply W0). unfold fmul. now rewrite Z.mul_0_l, Zmod_0_l.
Qed.
End Prefix.

(** ** Sequential results *)
Lemma puts_scale q s (es : list (N * Z)) : forall t,
  puts q (fun _ => Some s) t (map fst es) = put_all t (map (fun e => (fst e, s)) es) (mul_cb q).
Proof.
  induction es as [|e es IH]; intros t; cbn [map puts put_all]; auto. destruct (tree_put t (fst e) s (mul_cb q)); auto.
Qed.
Lemma combine_none q w es : fold_left (fun acc (e : N * Z) => match acc, nth_error w (N.to_nat (fst e)) with
                          | Some t, Some x => tree_put t (fst e) x (mul_cb q)
                          | _, _ => None
                          end) es None = None.
Proof. induction es; cbn; auto. Qed.
Lemma puts_combine q w (es : list (N * Z)) : forall t,
  puts q (fun k => nth_error w (N.to_nat k)) t (map fst es) = combine_loop q t w es.
Proof.
  unfold combine_loop. induction es as [|e es IH]; intros t; cbn [map puts fold_left]; auto.
  destruct (nth_error w (N.to_nat (fst e))); [|now rewrite combine_none].
  destruct (tree_put t (fst e) z (mul_cb q)); [apply IH|now rewrite combine_none].
Qed.

(** ** Running one schedule: true = the updater performs a write, false = the walker moves *)
Definition run1 (q : Z) (weight : N -> option Z) (writer : bool) (s : state) : option state :=
  match s with
  | State m t p st lg false =>
      if writer then
        match p with w :: p' => Some (State (apply_write m w) t p' st lg false) | [] => None end
      else
        match st with
        | [] => None
        | FLeft n :: st' =>
            Some (State m t p (match hleft m n with Some _ => FLeft2 n :: st' | None => FSend n :: st' end) lg false)
        | FLeft2 n :: st' =>
            Some (State m t p (match hleft m n with Some c => FLeft c :: FSend n :: st' | None => FSend n :: st' end) lg false)
        | FSend n :: st' =>
            match p, weight n, get t n with
            | [], Some x, Some v =>
                match tree_put t n x (mul_cb q) with
                | Some t' => Some (State m t' (if fmul q v x =? 0 then rm_writes t n SRoot else [])
                                     (FRight n :: st') (lg ++ [n]) false)
                | None => None
                end
            | _, _, _ => None
            end
        | FRight n :: st' =>
            Some (State m t p (match hright m n with Some _ => FRight2 n :: st' | None => st' end) lg false)
        | FRight2 n :: st' =>
            Some (State m t p (match hright m n with Some c => FLeft c :: st' | None => st' end) lg false)
        end
  | _ => None
  end.
Fixpoint runs (q : Z) (weight : N -> option Z) (sched : list bool) (s : state) : option state :=
  match sched with
  | [] => Some s
  | b :: sched' => match run1 q weight b s with Some s' => runs q weight sched' s' | None => None end
  end.

Lemma run1_step q weight b s s' : run1 q weight b s = Some s' -> step q weight s s'.
Proof.
  destruct s as [m t p st lg [|]]; [discriminate|]. unfold run1. destruct b.
  - destruct p; [discriminate|]. intros H; injection H as <-. apply step_write.
  - destruct st as [|[n|n|n|n|n] st]; [discriminate| | | | |]; try (intros H; injection H as <-; constructor).
    destruct p; [|discriminate]. destruct (weight n) eqn:E1; [|discriminate]. destruct (get t n) eqn:E2; [|discriminate].
    destruct (tree_put t n z (mul_cb q)) eqn:E3; [|discriminate]. intros H; injection H as <-. now apply step_send.
Qed.
Lemma steps_trans q weight n1 s1 s2 : steps q weight n1 s1 s2 -> forall n2 s3, steps q weight n2 s2 s3 ->
  steps q weight (n2 + n1) s1 s3.
Proof. intros H n2 s3 H2. induction H2; cbn; auto. econstructor; eauto. Qed.
Lemma runs_steps q weight sched : forall s s', runs q weight sched s = Some s' -> steps q weight (length sched) s s'.
Proof.
  induction sched as [|b l IH]; intros s s' H; cbn [runs] in H.
  - injection H as <-. constructor.
  - destruct (run1 q weight b s) eqn:E; [|discriminate]. cbn [length]. rewrite <- Nat.add_1_r.
    eapply steps_trans; [|apply IH; eauto]. econstructor; [constructor|]. eapply run1_step; eauto.
Qed.

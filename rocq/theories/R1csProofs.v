Require Import ZArith NArith Bool Lia Ascii String Permutation List.
Require Import Verif.Cong Verif.FqModel Verif.FqSpec Verif.FqProofs Verif.PolyModel Verif.PolyProofs.
Require Import Verif.AvlModel Verif.AvlSpec Verif.AvlProofs Verif.SparseModel Verif.SparseSpec Verif.SparseProofs.
Require Import Verif.FactorModel Verif.FactorSpec Verif.FactorProofs Verif.R1csModel Verif.R1csSpec.
Import ListNotations.
Open Scope Z_scope.

Lemma NoDup_app2 {A} (a b : list A) : NoDup a -> NoDup b -> (forall x, In x a -> ~ In x b) -> NoDup (a ++ b).
Proof.
  induction a as [|x a IH]; intros Ha Hb H; cbn; auto. inversion Ha as [|? ? H1 H2]; subst. constructor.
  - rewrite in_app_iff. intros [C|C]; [auto|]. apply (H x); cbn; auto.
  - apply IH; auto. intros y Hy. apply H. now right.
Qed.
Lemma NoDup_comm {A} (a b : list A) : NoDup (a ++ b) -> NoDup (b ++ a).
Proof. apply Permutation_NoDup. apply Permutation_app_comm. Qed.

(** ** Numbering *)
Definition numbered (ns : list string) (m : imap) : Prop :=
  NoDup ns /\ m = combine ns (seq 0 (List.length ns)).

Lemma combine_app_seq (ns : list string) x k :
  combine (ns ++ [x]) (seq k (List.length (ns ++ [x]))) =
  combine ns (seq k (List.length ns)) ++ [(x, (k + List.length ns)%nat)].
Proof.
  revert k; induction ns as [|y ns IH]; intros k; cbn [app List.length seq combine].
  - now rewrite Nat.add_0_r.
  - rewrite IH. cbn [app]. do 2 f_equal. f_equal. f_equal. lia.
Qed.

Lemma im_get_combine ns x i k : NoDup ns ->
  im_get (combine ns (seq k (List.length ns))) x = Some i <-> (k <= i)%nat /\ nth_error ns (i - k) = Some x.
Proof.
  revert k. induction ns as [|y ns IH]; intros k ND; cbn [List.length seq combine im_get].
  - split; [discriminate|]. intros [_ H]. destruct (i - k)%nat; discriminate.
  - inversion ND as [|? ? H1 H2]; subst. destruct (String.eqb_spec y x) as [->|Hn].
    + split.
      * intros [= <-]. split; [lia|]. now rewrite Nat.sub_diag.
      * intros [Hk H]. destruct (i - k)%nat as [|d] eqn:E; [f_equal; lia|]. cbn in H.
        apply nth_error_In in H. contradiction.
    + rewrite (IH (S k) H2). split; intros [Hk H].
      * split; [lia|]. replace (i - k)%nat with (S (i - S k)) by lia. auto.
      * destruct (i - k)%nat as [|d] eqn:E; [cbn in H; congruence|]. split; [lia|].
        replace (i - S k)%nat with d by lia. auto.
Qed.
Lemma numbered_get ns m x i : numbered ns m -> (im_get m x = Some i <-> nth_error ns i = Some x).
Proof.
  intros [ND ->]. rewrite im_get_combine by auto. rewrite Nat.sub_0_r. split; [tauto|]. split; [lia|auto].
Qed.
Lemma numbered_length ns m : numbered ns m -> List.length m = List.length ns.
Proof. intros [_ ->]. rewrite combine_length, seq_length. lia. Qed.
Lemma numbered_none ns m x : numbered ns m -> (im_get m x = None <-> ~ In x ns).
Proof.
  intros H. split.
  - intros E Hi. apply In_nth_error in Hi. destruct Hi as [i Hi]. apply (numbered_get ns m x i H) in Hi. congruence.
  - intros Hn. destruct (im_get m x) as [i|] eqn:E; auto. apply (numbered_get ns m x i H) in E.
    apply nth_error_In in E. contradiction.
Qed.

Lemma im_set_absent m x i : im_get m x = None -> im_set m x i = m ++ [(x, i)].
Proof.
  induction m as [|[y j] m IH]; cbn; auto. destruct (String.eqb y x); [discriminate|]. intros H. now rewrite IH.
Qed.
Lemma numbered_snoc ns m x : numbered ns m -> ~ In x ns -> numbered (ns ++ [x]) (im_set m x (List.length m)).
Proof.
  intros H Hn. assert (L := numbered_length ns m H). rewrite im_set_absent by (apply (numbered_none ns m x H); auto).
  destruct H as [ND E]. split.
  - apply NoDup_app2; auto; [repeat constructor; easy|]. intros y Hy [<-|[]]; auto.
  - rewrite L, combine_app_seq, <- E. reflexivity.
Qed.

Lemma numbered_pubs pubs : forall ns m, numbered ns m -> NoDup (ns ++ pubs) -> numbered (ns ++ pubs) (fold_left add_public pubs m).
Proof.
  induction pubs as [|x pubs IH]; intros ns m H ND; cbn [fold_left].
  - now rewrite app_nil_r.
  - replace (ns ++ x :: pubs) with ((ns ++ [x]) ++ pubs) in * by now rewrite <- app_assoc.
    apply IH; auto. apply numbered_snoc; auto. intros Hi. rewrite <- app_assoc in ND. cbn in ND.
    apply NoDup_remove_2 in ND. apply ND. apply in_or_app; auto.
Qed.

Lemma existsb_eqb x l : existsb (String.eqb x) l = true <-> In x l.
Proof.
  rewrite existsb_exists. split.
  - intros [y [H E]]. apply String.eqb_eq in E. now subst.
  - intros H. exists x. split; auto. apply String.eqb_refl.
Qed.
Lemma fresh_ext l : forall s1 s2, (forall x, In x s1 <-> In x s2) -> fresh s1 l = fresh s2 l.
Proof.
  induction l as [|x l IH]; intros s1 s2 H; cbn; auto.
  assert (E : existsb (String.eqb x) s1 = existsb (String.eqb x) s2).
  { apply eq_true_iff_eq. rewrite !existsb_eqb. apply H. }
  rewrite E. destruct (existsb (String.eqb x) s2); auto. f_equal. apply IH. intros y. cbn. rewrite H. tauto.
Qed.
Lemma numbered_inputs ins : forall ns m, numbered ns m -> numbered (ns ++ fresh ns ins) (fold_left add_input ins m).
Proof.
  induction ins as [|x ins IH]; intros ns m H; cbn [fold_left fresh].
  - now rewrite app_nil_r.
  - unfold add_input at 2. destruct (im_get m x) as [i|] eqn:E.
    + assert (Hi : In x ns). { apply (numbered_get ns m x i H) in E. eapply nth_error_In; eauto. }
      rewrite (proj2 (existsb_eqb x ns) Hi). now apply IH.
    + apply (numbered_none ns m x H) in E. destruct (existsb (String.eqb x) ns) eqn:E'.
      { apply existsb_eqb in E'. contradiction. }
      replace (ns ++ x :: fresh (x :: ns) ins) with ((ns ++ [x]) ++ fresh (ns ++ [x]) ins).
      * apply IH. now apply numbered_snoc.
      * rewrite <- app_assoc. cbn. do 2 f_equal. apply fresh_ext. intros y. cbn. rewrite in_app_iff. cbn. tauto.
Qed.

Lemma out_names_cons g gs : out_names (g :: gs) = (if gnonew g then [] else [gid g]) ++ out_names gs.
Proof. unfold out_names. cbn [filter]. destruct (gnonew g); reflexivity. Qed.
Lemma add_gates_spec gs : forall ns m s, numbered ns m ->
  (forall m' s', add_gates (m, s) gs = Some (m', s') -> numbered (ns ++ out_names gs) m') /\
  (NoDup (ns ++ out_names gs) -> exists m' s', add_gates (m, s) gs = Some (m', s')).
Proof.
  induction gs as [|g gs IH]; intros ns m s H; cbn [add_gates].
  - change (out_names []) with (@nil string). rewrite app_nil_r. split.
    + intros m' s' [= <- <-]. auto.
    + eauto.
  - rewrite out_names_cons. unfold add_gate. destruct (gnonew g).
    + apply IH; auto.
    + destruct (im_get m (gid g)) as [i|] eqn:E.
      * split; [discriminate|]. intros ND. exfalso. cbn [app] in ND. apply NoDup_remove_2 in ND. apply ND.
        apply in_or_app. left. apply (numbered_get ns m (gid g) i H) in E. eapply nth_error_In; eauto.
      * apply (numbered_none ns m (gid g) H) in E. cbn [app].
        replace (ns ++ gid g :: out_names gs) with ((ns ++ [gid g]) ++ out_names gs) by now rewrite <- app_assoc.
        apply IH. now apply numbered_snoc.
Qed.

Lemma numbered_nil : numbered [] [].
Proof. split; [constructor|reflexivity]. Qed.

Lemma build_numbered pubs ins gs rz m s : NoDup pubs ->
  (rz = true -> ~ In rand_in (pubs ++ fresh pubs ins ++ out_names gs) /\ ~ In rand_out (pubs ++ fresh pubs ins ++ out_names gs)) ->
  build_index pubs ins gs rz = Some (m, s) -> numbered (wire_names pubs ins gs rz) m.
Proof.
  intros ND Hr. unfold build_index.
  assert (H0 := numbered_inputs ins pubs _ (numbered_pubs pubs [] [] numbered_nil ND)).
  destruct (add_gates _ gs) as [[m1 s1]|] eqn:E; [|discriminate].
  assert (H1 := proj1 (add_gates_spec gs _ _ [] H0) _ _ E). unfold wire_names. destruct rz.
  - intros [= <- <-]. destruct (Hr eq_refl) as [A B].
    assert (H2 := numbered_snoc _ _ rand_in H1).
    replace (pubs ++ fresh pubs ins ++ out_names gs ++ [rand_in; rand_out])
      with ((((pubs ++ fresh pubs ins) ++ out_names gs) ++ [rand_in]) ++ [rand_out]) by now rewrite <- !app_assoc.
    apply numbered_snoc.
    + apply H2. now rewrite <- app_assoc.
    + rewrite in_app_iff, <- app_assoc. intros [C|[C|[]]]; [auto|discriminate].
  - intros [= <- <-]. rewrite app_nil_r, app_assoc. auto.
Qed.

Lemma build_defined pubs ins gs rz : NoDup pubs ->
  ((exists r, build_index pubs ins gs rz = Some r) <-> NoDup (pubs ++ fresh pubs ins ++ out_names gs)).
Proof.
  intros ND. unfold build_index.
  assert (H0 := numbered_inputs ins pubs _ (numbered_pubs pubs [] [] numbered_nil ND)).
  destruct (add_gates_spec gs _ _ [] H0) as [A B]. rewrite app_assoc. split.
  - intros [r E]. destruct (add_gates _ gs) as [[m1 s1]|] eqn:E'; [|discriminate].
    now destruct (A _ _ eq_refl).
  - intros N. destruct (B N) as [m2 [s2 E]]. destruct (add_gates _ gs) as [[m1 s1]|] eqn:E'; [destruct rz; eauto|].
    discriminate.
Qed.

(** ** Rows as sums of terms *)
Definition terms := list (nat * Z).
Definition tsum (T : terms) (i : nat) : Z := zsum (map (fun e => if Nat.eqb (fst e) i then snd e else 0) T).
Definition tval (T : terms) (w : list Z) : Z := zsum (map (fun e => snd e * nth (fst e) w 0) T).

Lemma tsum_cons k v T i : tsum ((k, v) :: T) i = (if Nat.eqb k i then v else 0) + tsum T i.
Proof. reflexivity. Qed.
Lemma tsum_notin T i : ~ In i (map fst T) -> tsum T i = 0.
Proof.
  intros H. apply zsum_map_0. intros [a b] Hi. cbn [fst snd]. destruct (Nat.eqb_spec a i); auto.
  exfalso. apply H. subst. change i with (fst (i, b)). now apply in_map.
Qed.

Definition dense_of (T : terms) (v : list Z) : Prop :=
  Forall (fun e => (fst e < List.length v)%nat) T /\ forall i, nth i v 0 = tsum T i.
Definition sparse_of (q : Z) (T : terms) (t : tree) : Prop :=
  wf t /\ forall i, lookup t (N.of_nat i) ==[q] tsum T i.

Lemma tsum_tval T w n : Forall (fun e => (fst e < n)%nat) T ->
  zsum (map (fun i => tsum T i * nth i w 0) (seq 0 n)) = tval T w.
Proof.
  intros H. induction H as [|[k v] T Hk HF IH].
  - unfold tval. cbn. apply zsum_map_0. intros; reflexivity.
  - unfold tval in *. cbn [map zsum fst snd] in *. rewrite <- IH.
    transitivity (zsum (map (fun i => (if Nat.eqb k i then v else 0) * nth i w 0) (seq 0 n))
                  + zsum (map (fun i => tsum T i * nth i w 0) (seq 0 n))).
    + rewrite <- zsum_map_add. apply zsum_map_ext. intros i _. rewrite tsum_cons. ring.
    + f_equal. clear IH. rewrite (zsum_map_ext _ (fun i => if Nat.eqb i k then v * nth k w 0 else 0)).
      2:{ intros i _. rewrite Nat.eqb_sym. destruct (Nat.eqb_spec i k); [subst; ring|ring]. }
      clear HF. induction n as [|n IHn]; [lia|]. rewrite seq_S, map_app, zsum_app. cbn [map zsum Nat.add].
      destruct (Nat.eqb_spec n k) as [->|].
      * rewrite zsum_map_0; [ring|]. intros j Hj. apply in_seq in Hj. destruct (Nat.eqb_spec j k); [lia|auto].
      * rewrite IHn by lia. ring.
Qed.

Lemma dot_nth a : forall w, dot a w = zsum (map (fun i => nth i a 0 * nth i w 0) (seq 0 (List.length a))).
Proof.
  induction a as [|x a IH]; intros w; [reflexivity|]. destruct w as [|y w].
  - cbn [dot]. symmetry. apply zsum_map_0. intros i _. destruct i; cbn; ring.
  - cbn [dot List.length seq map zsum nth]. rewrite IH. f_equal. rewrite <- seq_shift, map_map. reflexivity.
Qed.
Lemma dense_dot T v w : dense_of T v -> dot v w = tval T w.
Proof.
  intros [HF H]. rewrite dot_nth, <- (tsum_tval T w (List.length v)) by auto. apply zsum_map_ext.
  intros i _. now rewrite H.
Qed.

Lemma edot_zsum es w : edot es w = zsum (map (fun e => snd e * nth (N.to_nat (fst e)) w 0) es).
Proof. induction es as [|[k v] es IH]; cbn; [reflexivity|]. now rewrite IH. Qed.
Lemma keys_bound (es : list (N * Z)) : exists n, Forall (fun e => (N.to_nat (fst e) < n)%nat) es.
Proof.
  induction es as [|[k v] es [n IH]]; [exists O; constructor|]. exists (n + S (N.to_nat k))%nat. constructor; cbn [fst]; [lia|].
  eapply Forall_impl; [|exact IH]. cbn; intros; lia.
Qed.
Lemma sparse_dot q T t w : sparse_of q T t -> edot (ascending t) w ==[q] tval T w.
Proof.
  intros [W H]. destruct (keys_bound (ascending t)) as [n1 H1].
  assert (exists n2, Forall (fun e : nat * Z => (fst e < n2)%nat) T) as [n2 H2].
  { clear. induction T as [|[k v] T [n IH]]; [exists O; constructor|]. exists (n + S k)%nat. constructor; cbn [fst]; [lia|].
    eapply Forall_impl; [|exact IH]. cbn; intros; lia. }
  set (n := (n1 + n2)%nat). rewrite edot_zsum.
  rewrite (tree_sum t (fun i => nth i w 0) n).
  - rewrite <- (tsum_tval T w n).
    + apply zsum_map_cong. intros i _. unfold tc. rewrite H. reflexivity.
    + eapply Forall_impl; [|exact H2]. cbn; intros; lia.
  - apply W.
  - intros k Hk. apply lookup_notin; [apply W|]. intros Hi. apply in_map_iff in Hi. destruct Hi as [[k' v] [E Hi]].
    rewrite Forall_forall in H1. specialize (H1 _ Hi). cbn in E, H1. lia.
Qed.

(** ** Building vectors *)
Lemma array_set_spec arr : forall i x v, array_set arr i x = Some v ->
  List.length v = List.length arr /\ (i < List.length arr)%nat /\ forall j, nth j v 0 = if Nat.eqb j i then x else nth j arr 0.
Proof.
  induction arr as [|y arr IH]; intros i x v; cbn [array_set]; [discriminate|]. destruct i as [|i].
  - intros [= <-]. cbn. repeat split; try lia. intros [|j]; reflexivity.
  - destruct (array_set arr i x) as [r|] eqn:E; [|discriminate]. intros [= <-]. destruct (IH _ _ _ E) as [A [B C]].
    cbn. repeat split; try lia. intros [|j]; [reflexivity|]. apply C.
Qed.
Lemma array_set_defined arr : forall i x, (i < List.length arr)%nat -> exists v, array_set arr i x = Some v.
Proof.
  induction arr as [|y arr IH]; intros i x H; cbn in H; [lia|]. destruct i as [|i]; cbn; eauto.
  destruct (IH i x ltac:(lia)) as [v ->]. eauto.
Qed.

(** A term appended to the left that does not meet the others. *)
Lemma dense_set T v i x v' : dense_of T v -> ~ In i (map fst T) -> array_set v i x = Some v' -> dense_of ((i, x) :: T) v'.
Proof.
  intros [HF H] Hn E. destruct (array_set_spec _ _ _ _ E) as [A [B C]]. split.
  - constructor; cbn [fst]; [lia|]. now rewrite A.
  - intros j. rewrite C, tsum_cons, H, (Nat.eqb_sym i j). destruct (Nat.eqb_spec j i) as [->|]; [|ring].
    rewrite tsum_notin by auto. ring.
Qed.
Lemma zeros_nth n i : nth i (zeros n) 0 = 0.
Proof. unfold zeros. revert i; induction n; intros [|i]; cbn; auto. Qed.
Lemma dense_zeros n : dense_of [] (zeros n).
Proof. split; [constructor|]. intros i. now rewrite zeros_nth. Qed.
Lemma dense_perm T T' v : (forall i, tsum T i = tsum T' i) -> Forall (fun e => (fst e < List.length v)%nat) T' -> dense_of T v -> dense_of T' v.
Proof. intros H HF [_ E]. split; auto. intros i. now rewrite E. Qed.

Section Rows.
Variable m : imap.
Definition dterm (f : factor) : nat * Z := (if is_number f then O else im_idx m (ident (ftok f)), mult f).
Definition sterm (f : factor) : nat * Z := (im_idx m (ident (ftok f)), mult f).

Lemma tsum_rev_app T1 T2 i : tsum (rev T1 ++ T2) i = tsum T1 i + tsum T2 i.
Proof. unfold tsum. rewrite map_app, zsum_app. f_equal. rewrite map_rev.
  generalize (map (fun e : nat * Z => if Nat.eqb (fst e) i then snd e else 0) T1). clear.
  induction l as [|a l IH]; cbn; [reflexivity|]. rewrite zsum_app, IH. cbn. lia. Qed.

Lemma insert_values_dense fs : forall T v v', dense_of T v -> NoDup (map fst (map dterm fs) ++ map fst T) ->
  insert_values m v fs = Some v' -> dense_of (rev (map dterm fs) ++ T) v' /\ List.length v' = List.length v.
Proof.
  induction fs as [|f fs IH]; intros T v v' HD ND; cbn [insert_values].
  - intros [= <-]. auto.
  - destruct (insert_value m v f) as [v1|] eqn:E; [|discriminate]. intros E'.
    cbn [map app] in ND. apply NoDup_cons_iff in ND. destruct ND as [N1 N2]. rewrite in_app_iff in N1.
    assert (E1 : array_set v (fst (dterm f)) (mult f) = Some v1).
    { unfold insert_value in E. unfold dterm, im_idx; cbn [fst]. destruct (is_number f); auto.
      destruct (im_get m _); [auto|discriminate]. }
    assert (D1 := dense_set T v (fst (dterm f)) (mult f) v1 HD ltac:(tauto) E1).
    destruct (array_set_spec _ _ _ _ E1) as [L1 _].
    destruct (IH _ _ v' D1) as [D2 L2]; auto.
    { cbn [map fst]. apply NoDup_comm. cbn. constructor.
      - rewrite in_app_iff. tauto.
      - now apply NoDup_comm. }
    split; [|congruence]. cbn [map rev]. rewrite <- app_assoc. exact D2.
Qed.
Lemma vec_dense size fs v : NoDup (map fst (map dterm fs)) -> vec m size fs = Some v ->
  dense_of (map dterm fs) v /\ List.length v = size.
Proof.
  intros ND E. destruct (insert_values_dense fs [] _ v (dense_zeros size)) as [D L]; auto.
  { now rewrite app_nil_r. }
  split.
  - apply (dense_perm (rev (map dterm fs) ++ [])); auto.
    + intros i. rewrite tsum_rev_app. unfold tsum at 2. cbn. lia.
    + destruct D as [F _]. rewrite app_nil_r in F. now apply Forall_rev in F; rewrite rev_involutive in F.
  - rewrite L. unfold zeros. apply repeat_length.
Qed.
Lemma unit_dense size i v : unit_at size i = Some v -> dense_of [(i, 1)] v.
Proof. intros E. apply (dense_set [] (zeros size) i 1 v); auto. apply dense_zeros. Qed.

Variable q : Z.
Hypothesis Hq : q <> 0.
Lemma sparse_put T t i x : sparse_of q T t -> exists t', tree_put t (N.of_nat i) x (add_cb q) = Some t' /\ sparse_of q ((i, x) :: T) t'.
Proof.
  intros [W H].
  destruct (put_lookup t (N.of_nat i) x (add_cb q) _ W eq_refl) as [t' [E [W' L]]].
  exists t'. split; auto. split; auto. intros j. rewrite L, tsum_cons. destruct (Nat.eqb_spec i j) as [->|Hn].
  - rewrite N.eqb_refl. unfold fadd. rewrite <- H. rewrite cong_mod by auto. apply cong_eq; ring.
  - destruct (N.eqb_spec (N.of_nat j) (N.of_nat i)); [lia|]. rewrite H. apply cong_eq; ring.
Qed.
Lemma sinsert_values_sparse fs : forall T t, sparse_of q T t ->
  (forall f, In f fs -> is_number f = false -> im_get m (ident (ftok f)) <> None) ->
  exists t', sinsert_values q m t fs = Some t' /\ sparse_of q (rev (map sterm fs) ++ T) t'.
Proof.
  induction fs as [|f fs IH]; intros T t H K; cbn [sinsert_values].
  - exists t. auto.
  - destruct (sparse_put T t (fst (sterm f)) (mult f) H) as [t1 [E1 H1]].
    assert (E : sinsert_value q m t f = Some t1).
    { unfold sinsert_value. destruct (is_number f) eqn:N; auto. specialize (K f (or_introl eq_refl) N).
      unfold sterm, im_idx in E1. cbn [fst] in E1. destruct (im_get m _); [auto|congruence]. }
    rewrite E. destruct (IH _ _ H1) as [t2 [E2 H2]].
    { intros g Hg. apply K. now right. }
    exists t2. split; auto. cbn [map rev]. rewrite <- app_assoc. exact H2.
Qed.
Lemma sparse_leaf : sparse_of q [] Leaf.
Proof. split; [apply wf_leaf|]. intros i. rewrite lookup_leaf. reflexivity. Qed.
Lemma sparse_ext T T' t : (forall i, tsum T i = tsum T' i) -> sparse_of q T t -> sparse_of q T' t.
Proof. intros H [W E]. split; auto. intros i. now rewrite <- H. Qed.
Lemma svec_sparse fs : (forall f, In f fs -> is_number f = false -> im_get m (ident (ftok f)) <> None) ->
  exists t, svec q m fs = Some t /\ sparse_of q (map sterm fs) t.
Proof.
  intros K. destruct (sinsert_values_sparse fs [] Leaf sparse_leaf K) as [t [E H]]. exists t. split; auto.
  eapply sparse_ext; [|exact H]. intros i. rewrite tsum_rev_app. unfold tsum at 2; cbn; lia.
Qed.
End Rows.

(** ** Rows of gates *)
Definition gate_terms (trm : factor -> nat * Z) (m : imap) (g : gate) : row terms :=
  let '(l, r) := swap_sides g in
  match gtyp g with
  | GMul => Row (map trm l) (map trm r) [] (map trm (gout g))
  | GBase => Row [] [] (map trm (gexp g)) [(im_idx m (gid g), 1)]
  | GEqual => Row (map trm l) [(O, 1)] [] (map trm r)
  | GBit => Row [(im_idx m (gid g), 1); (O, -1)] [(im_idx m (gid g), 1)] [] []
  | GAdd => Row (map trm l) [(O, 1)] [] (map trm (gout g))
  | GSum => Row (map trm l) [(O, 1)] [] [(im_idx m (ident (grep g)), 1)]
  | GReturnMul => Row [] [] [] []
  end.
Definition row_rel {A B} (R : A -> B -> Prop) (x : row A) (y : row B) : Prop :=
  R (rl x) (rl y) /\ R (rr x) (rr y) /\ R (re x) (re y) /\ R (ro x) (ro y).

Definition known_ids (m : imap) (fs : factors) : Prop :=
  forall f, In f fs -> is_number f = false -> im_get m (ident (ftok f)) <> None.

Lemma insert_values_known m fs : forall v v', insert_values m v fs = Some v' -> known_ids m fs.
Proof.
  induction fs as [|f fs IH]; intros v v'; cbn [insert_values]; [intros _ ? []|].
  destruct (insert_value m v f) as [v1|] eqn:E; [|discriminate]. intros E' g [<-|Hg].
  - intros N C. unfold insert_value in E. rewrite N, C in E. discriminate.
  - exact (IH _ _ E' g Hg).
Qed.
Lemma sinsert_values_known q m fs : forall v v', sinsert_values q m v fs = Some v' -> known_ids m fs.
Proof.
  induction fs as [|f fs IH]; intros v v'; cbn [sinsert_values]; [intros _ ? []|].
  destruct (sinsert_value q m v f) as [v1|] eqn:E; [|discriminate]. intros E' g [<-|Hg].
  - intros N C. unfold sinsert_value in E. rewrite N, C in E. discriminate.
  - exact (IH _ _ E' g Hg).
Qed.

Section Numbered.
Variables (names : list string) (m : imap).
Hypothesis Hm : numbered names m.
Hypothesis H1 : nth_error names 0 = Some "1"%string.

Lemma idx_one : im_idx m "1" = O.
Proof. unfold im_idx. apply (numbered_get _ _ _ _ Hm) in H1. now rewrite H1. Qed.
Lemma idx_inj x y : im_get m x <> None -> im_get m y <> None -> im_idx m x = im_idx m y -> x = y.
Proof.
  unfold im_idx. destruct (im_get m x) eqn:Ex; [|easy]. destruct (im_get m y) eqn:Ey; [|easy]. intros _ _ <-.
  apply (numbered_get _ _ _ _ Hm) in Ex, Ey. congruence.
Qed.
Lemma one_known : im_get m "1" <> None.
Proof. apply (numbered_get _ _ _ _ Hm) in H1. congruence. Qed.
Lemma dterm_slot f : fst (dterm m f) = im_idx m (slot f).
Proof. unfold dterm, slot. cbn [fst]. destruct (is_number f); auto. now rewrite idx_one. Qed.
Lemma slot_known fs f : known_ids m fs -> In f fs -> im_get m (slot f) <> None.
Proof. intros K Hi. unfold slot. destruct (is_number f) eqn:N; [apply one_known|]. now apply K. Qed.

Lemma dterm_NoDup fs : known_ids m fs -> slots_distinct fs -> NoDup (map fst (map (dterm m) fs)).
Proof.
  intros K ND. rewrite map_map. unfold slots_distinct in ND.
  assert (G : forall l, incl l fs -> NoDup (map slot l) -> NoDup (map (fun x => fst (dterm m x)) l)).
  { induction l as [|f l IH]; intros Hl N; cbn [map]; [constructor|]. cbn [map] in N.
    inversion N as [|? ? N1 N2]; subst. constructor.
    - intros Hi. apply in_map_iff in Hi. destruct Hi as [g [E Hg]]. rewrite !dterm_slot in E.
      apply N1. apply in_map_iff. exists g. split; auto. apply idx_inj; auto.
      + apply (slot_known fs); auto. apply Hl. now right.
      + apply (slot_known fs); auto. apply Hl. now left.
    - apply IH; auto. intros x Hx. apply Hl. now right. }
  apply G; auto. apply incl_refl.
Qed.

Lemma vec_ok size fs v : slots_distinct fs -> vec m size fs = Some v -> dense_of (map (dterm m) fs) v.
Proof.
  intros ND E. eapply vec_dense; eauto. apply dterm_NoDup; auto. eapply insert_values_known; eauto.
Qed.

Lemma swap_perm g : let '(l, r) := swap_sides g in
  (l = gleft g /\ r = gright g) \/ (l = gright g /\ r = gleft g).
Proof. unfold swap_sides. destruct (Nat.ltb _ _); auto. Qed.
Lemma swap_empty g : gright g = [] -> swap_sides g = (gleft g, gright g).
Proof. intros H. unfold swap_sides. rewrite H. cbn. now destruct (gleft g). Qed.

Lemma gid_idx g : gid g <> "1"%string -> im_get m (gid g) <> None -> im_idx m (gid g) <> O.
Proof. intros Hn K E. apply Hn. apply idx_inj; auto; [apply one_known|]. now rewrite idx_one. Qed.

Lemma gate_row_dense size g r : gate_distinct g ->
  (gtyp g = GBit -> gid g <> "1"%string /\ In (gid g) names) ->
  gate_row m size g = Some r -> row_rel dense_of (gate_terms (dterm m) m g) r.
Proof.
  intros [D1 [D2 [D3 D4]]] Hb. unfold gate_row, gate_terms.
  assert (P := swap_perm g). destruct (swap_sides g) as [l r'].
  assert (Dl : slots_distinct l /\ slots_distinct r') by (destruct P as [[-> ->]|[-> ->]]; auto).
  destruct Dl as [Dl Dr]. clear P.
  assert (Z0 := dense_zeros size).
  assert (V := vec_ok size). assert (U := unit_dense size).
  destruct (gtyp g) eqn:T; unfold mk_row; try discriminate.
  - destruct (vec m size l) eqn:E1; [|discriminate]. destruct (vec m size r') eqn:E2; [|discriminate].
    destruct (vec m size (gout g)) eqn:E3; [|discriminate]. intros [= <-]. repeat split; cbn [rl rr re ro]; eauto; try apply V; auto; try apply Z0.
  - destruct (vec m size (gexp g)) eqn:E1; [|discriminate]. destruct (unit_at _ _) eqn:E2; [|discriminate].
    intros [= <-]. split; [|split; [|split]]; cbn [rl rr re ro]; auto.
  - destruct (vec m size l) eqn:E1; [|discriminate]. destruct (unit_at _ _) eqn:E2; [|discriminate].
    destruct (vec m size r') eqn:E3; [|discriminate]. intros [= <-]. split; [|split; [|split]]; cbn [rl rr re ro]; auto.
  - destruct (vec m size l) eqn:E1; [|discriminate]. destruct (unit_at _ _) eqn:E2; [|discriminate].
    destruct (vec m size (gout g)) eqn:E3; [|discriminate]. intros [= <-]. split; [|split; [|split]]; cbn [rl rr re ro]; auto.
  - destruct (vec m size l) eqn:E1; [|discriminate]. destruct (unit_at size 0) eqn:E2; [|discriminate].
    destruct (unit_at _ _) eqn:E3 in |- *; [|discriminate]. intros [= <-]. split; [|split; [|split]]; cbn [rl rr re ro]; auto.
  - destruct (array_set (zeros size) 0 (-1)) as [a|] eqn:E1; [|discriminate].
    destruct (array_set a _ 1) as [b|] eqn:E2; [|discriminate]. destruct (unit_at _ _) eqn:E3; [|discriminate].
    intros [= <-]. split; [|split; [|split]]; cbn [rl rr re ro]; auto.
    apply (dense_set [(O, -1)] a); auto.
    + apply (dense_set [] (zeros size) O (-1) a); auto.
    + cbn. intros [C|[]]. destruct (Hb eq_refl) as [B1 B2]. apply (gid_idx g); auto.
      intros N. apply (numbered_none _ _ _ Hm) in N. contradiction.
Qed.

Variable q : Z.
Hypothesis Hq : q <> 0.

Lemma svec_ok fs t : svec q m fs = Some t -> sparse_of q (map (sterm m) fs) t.
Proof.
  intros E. assert (K := sinsert_values_known _ _ _ _ _ E). destruct (svec_sparse m q fs K) as [t' [E' H]]. congruence.
Qed.
Lemma sparse_insert T t i x : sparse_of q T t -> ~ In i (map fst T) ->
  exists t', insert t (N.of_nat i) x = Some t' /\ sparse_of q ((i, x) :: T) t'.
Proof.
  intros [W H] Hn. destruct (insert_spec t (lookup t) (N.of_nat i) x (wf_rep t W)) as [t' [E [W' L]]].
  exists t'. split; auto. split; auto. intros j. rewrite L, tsum_cons. unfold aset.
  destruct (Nat.eqb_spec i j) as [->|Hij].
  - rewrite N.eqb_refl, tsum_notin by auto. apply cong_eq; ring.
  - destruct (N.eqb_spec (N.of_nat j) (N.of_nat i)); [lia|]. rewrite H. apply cong_eq; ring.
Qed.
Lemma sunit_ok i : exists t, sunit_at i = Some t /\ sparse_of q [(i, 1)] t.
Proof. apply sparse_insert; [apply sparse_leaf|easy]. Qed.

Lemma sgate_row_sparse g r : (gtyp g = GBit -> gid g <> "1"%string /\ In (gid g) names) ->
  sgate_row q m g = Some r -> row_rel (sparse_of q) (gate_terms (sterm m) m g) r.
Proof.
  intros Hb. unfold sgate_row, gate_terms. destruct (swap_sides g) as [l r'].
  assert (Z0 := sparse_leaf q). assert (V := svec_ok).
  destruct (sunit_ok 0) as [u0 [Eu0 Hu0]].
  destruct (sunit_ok (im_idx m (gid g))) as [ug [Eug Hug]].
  destruct (sunit_ok (im_idx m (ident (grep g)))) as [up [Eup Hup]].
  destruct (gtyp g) eqn:T; unfold mk_srow; rewrite ?Eu0, ?Eug, ?Eup; try easy.
  - destruct (svec q m l) eqn:E1; [|discriminate]. destruct (svec q m r') eqn:E2; [|discriminate].
    destruct (svec q m (gout g)) eqn:E3; [|discriminate]. intros [= <-].
    split; [|split; [|split]]; cbn [rl rr re ro]; auto.
  - destruct (svec q m (gexp g)) eqn:E1; [|discriminate]. intros [= <-].
    split; [|split; [|split]]; cbn [rl rr re ro]; auto.
  - destruct (svec q m l) eqn:E1; [|discriminate]. destruct (svec q m r') eqn:E2; [|discriminate]. intros [= <-].
    split; [|split; [|split]]; cbn [rl rr re ro]; auto.
  - destruct (svec q m l) eqn:E1; [|discriminate].
    destruct (svec q m (gout g)) eqn:E3; [|discriminate]. intros [= <-].
    split; [|split; [|split]]; cbn [rl rr re ro]; auto.
  - destruct (svec q m l) eqn:E1; [|discriminate]. intros [= <-].
    split; [|split; [|split]]; cbn [rl rr re ro]; auto.
  - destruct (sparse_insert [] Leaf O (-1) Z0) as [a [E1 Ha]]; [easy|]. cbn [N.of_nat] in E1. rewrite E1.
    destruct (sparse_insert [(O, -1)] a (im_idx m (gid g)) 1 Ha) as [b [E2 Hb2]].
    { cbn. intros [C|[]]. destruct (Hb eq_refl) as [B1 B2]. apply (gid_idx g); auto.
      intros N. apply (numbered_none _ _ _ Hm) in N. contradiction. }
    rewrite E2. intros [= <-]. split; [|split; [|split]]; cbn [rl rr re ro]; auto.
Qed.

(** Meaning of the terms. *)
Variable a : string -> Z.
Hypothesis Ha : a "1"%string = 1.
Let w := map a names.

Lemma w_idx x : im_get m x <> None -> nth (im_idx m x) w 0 = a x.
Proof.
  unfold im_idx. destruct (im_get m x) as [i|] eqn:E; [|easy]. intros _. apply (numbered_get _ _ _ _ Hm) in E.
  unfold w. rewrite (nth_indep _ 0 (a ""%string)).
  - rewrite map_nth. f_equal. now apply nth_error_nth.
  - rewrite map_length. apply nth_error_Some. congruence.
Qed.
Lemma w_0 : nth 0 w 0 = 1.
Proof. rewrite <- Ha, <- (w_idx "1" one_known), idx_one. reflexivity. Qed.
Lemma fac_val_num f : is_number f = true -> fac_val a f = mult f.
Proof. unfold is_number, fac_val. destruct (ttyp (ftok f)); cbn; congruence. Qed.
Lemma fac_val_id f : is_number f = false -> fac_val a f = mult f * a (ident (ftok f)).
Proof. unfold is_number, fac_val. destruct (ttyp (ftok f)); cbn; congruence. Qed.

Lemma tval_cons e T v : tval (e :: T) v = snd e * nth (fst e) v 0 + tval T v.
Proof. reflexivity. Qed.
Lemma tval_nil v : tval [] v = 0.
Proof. reflexivity. Qed.
Lemma tval_dterm fs : known_ids m fs -> tval (map (dterm m) fs) w = lin a fs.
Proof.
  induction fs as [|f fs IH]; intros K; [reflexivity|]. cbn [map lin]. rewrite tval_cons, IH by (intros g Hg; apply K; now right).
  f_equal. unfold dterm; cbn [fst snd]. destruct (is_number f) eqn:N.
  - rewrite w_0, fac_val_num by auto. ring.
  - rewrite w_idx by (apply K; [now left|auto]). rewrite fac_val_id by auto. reflexivity.
Qed.
Definition apart_ids (fs : factors) : Prop :=
  forall f, In f fs -> is_number f = true -> ident (ftok f) = "1"%string \/ ~ In (ident (ftok f)) names.
Lemma sterm_dterm fs : apart_ids fs -> map (sterm m) fs = map (dterm m) fs.
Proof.
  intros Hf. apply map_ext_in. intros f Hi. unfold sterm, dterm. f_equal. destruct (is_number f) eqn:N; auto.
  destruct (Hf f Hi N) as [->|Hn]; [apply idx_one|]. unfold im_idx. apply (numbered_none _ _ _ Hm) in Hn. now rewrite Hn.
Qed.

Lemma gate_terms_eq g : numbers_apart names g -> gate_terms (sterm m) m g = gate_terms (dterm m) m g.
Proof.
  intros Hn. unfold gate_terms. assert (P := swap_perm g). destruct (swap_sides g) as [l r].
  assert (forall fs, incl fs (gleft g ++ gright g ++ gexp g ++ gout g) -> map (sterm m) fs = map (dterm m) fs) as S.
  { intros fs Hi. apply sterm_dterm. intros f Hf. apply Hn. now apply Hi. }
  assert (incl (gleft g) (gleft g ++ gright g ++ gexp g ++ gout g)) by (intros x Hx; rewrite !in_app_iff; auto).
  assert (incl (gright g) (gleft g ++ gright g ++ gexp g ++ gout g)) by (intros x Hx; rewrite !in_app_iff; auto).
  assert (incl (gexp g) (gleft g ++ gright g ++ gexp g ++ gout g)) by (intros x Hx; rewrite !in_app_iff; auto).
  assert (incl (gout g) (gleft g ++ gright g ++ gexp g ++ gout g)) by (intros x Hx; rewrite !in_app_iff; auto).
  assert (map (sterm m) l = map (dterm m) l) by (destruct P as [[-> ->]|[-> ->]]; auto).
  assert (map (sterm m) r = map (dterm m) r) by (destruct P as [[-> ->]|[-> ->]]; auto).
  destruct (gtyp g); f_equal; auto.
Qed.

Definition terms_ok (gx : Z -> Z) (r : row terms) : Prop :=
  tval (rl r) w * tval (rr r) w + gx (tval (re r) w mod q) ==[q] tval (ro r) w.

(** Factor lists that enter the row of a gate. *)
Definition used_ids (g : gate) : Prop :=
  match gtyp g with
  | GMul => known_ids m (gleft g) /\ known_ids m (gright g) /\ known_ids m (gout g)
  | GEqual => known_ids m (gleft g) /\ known_ids m (gright g)
  | GAdd => known_ids m (gleft g) /\ known_ids m (gout g)
  | GSum => known_ids m (gleft g)
  | GBase => known_ids m (gexp g) /\ In (gid g) names
  | GBit => In (gid g) names
  | GReturnMul => True
  end.

Lemma terms_gate gx g : gx 0 ==[q] 0 -> gate_shape names g -> used_ids g ->
  (terms_ok gx (gate_terms (dterm m) m g) <-> gate_holds q gx a g).
Proof.
  intros G0 Hs U. unfold terms_ok, gate_terms, gate_holds. assert (P := swap_perm g). assert (PE := swap_empty g).
  destruct (swap_sides g) as [l r]. unfold gate_shape in Hs. unfold used_ids in U.
  assert (M0 : 0 mod q = 0) by (apply Z.mod_0_l; auto).
  assert (In_known : forall x, In x names -> im_get m x <> None).
  { intros x Hx N. apply (numbered_none _ _ _ Hm) in N. contradiction. }
  destruct (gtyp g); cbn [rl rr re ro]; try contradiction.
  - destruct U as [U1 [U2 U3]]. rewrite (tval_dterm _ U3), tval_nil, M0, G0.
    replace (tval (map (dterm m) l) w * tval (map (dterm m) r) w) with (lin a (gleft g) * lin a (gright g)).
    + rewrite Z.add_0_r. reflexivity.
    + destruct P as [[-> ->]|[-> ->]]; rewrite (tval_dterm _ U1), (tval_dterm _ U2); ring.
  - destruct U as [U1 U2]. rewrite !tval_cons, !tval_nil, (tval_dterm _ U1). cbn [fst snd]. rewrite (w_idx (gid g)) by auto.
    replace (0 * 0 + gx (lin a (gexp g) mod q)) with (gx (lin a (gexp g) mod q)) by ring.
    replace (1 * a (gid g) + 0) with (a (gid g)) by ring. reflexivity.
  - destruct U as [U1 U2]. rewrite tval_cons, !tval_nil, M0, G0. cbn [fst snd]. rewrite w_0.
    destruct P as [[-> ->]|[-> ->]]; rewrite (tval_dterm _ U1), (tval_dterm _ U2).
    + replace (lin a (gleft g) * (1 * 1 + 0) + 0) with (lin a (gleft g)) by ring. reflexivity.
    + replace (lin a (gright g) * (1 * 1 + 0) + 0) with (lin a (gright g)) by ring. split; intros C; now symmetry.
  - destruct U as [U1 U2]. rewrite tval_cons, !tval_nil, M0, G0. cbn [fst snd]. rewrite w_0.
    injection (PE Hs) as -> ->. rewrite (tval_dterm _ U1), (tval_dterm _ U2).
    replace (lin a (gleft g) * (1 * 1 + 0) + 0) with (lin a (gleft g)) by ring. reflexivity.
  - destruct Hs as [Hs Hi]. rewrite !tval_cons, !tval_nil, M0, G0. cbn [fst snd]. rewrite w_0, w_idx by auto.
    injection (PE Hs) as -> ->. rewrite (tval_dterm _ U).
    replace (lin a (gleft g) * (1 * 1 + 0) + 0) with (lin a (gleft g)) by ring.
    replace (1 * a (ident (grep g)) + 0) with (a (ident (grep g))) by ring. reflexivity.
  - rewrite !tval_cons, !tval_nil, M0, G0. cbn [fst snd]. rewrite w_0, !w_idx by auto.
    replace ((1 * a (gid g) + (-1 * 1 + 0)) * (1 * a (gid g) + 0) + 0) with (a (gid g) * (a (gid g) - 1)) by ring. reflexivity.
Qed.

Lemma gate_row_known size g r : gate_shape names g -> gate_row m size g = Some r ->
  (gtyp g = GBit \/ gtyp g = GBase -> In (gid g) names) -> used_ids g.
Proof.
  unfold gate_shape, gate_row, used_ids. assert (P := swap_perm g). assert (PE := swap_empty g).
  destruct (swap_sides g) as [l r']. intros Hs E Hb.
  assert (V := insert_values_known m).
  destruct (gtyp g); unfold mk_row in E; auto.
  - destruct (vec m size l) eqn:E1; [|discriminate]. destruct (vec m size r') eqn:E2; [|discriminate].
    destruct (vec m size (gout g)) eqn:E3; [|discriminate].
    destruct P as [[-> ->]|[-> ->]]; split; [|split| |split]; eapply V; eauto.
  - destruct (vec m size (gexp g)) eqn:E1; [|discriminate]. split; [eapply V; eauto|]. auto.
  - destruct (vec m size l) eqn:E1; [|discriminate]. destruct (unit_at _ _) eqn:E2; [|discriminate].
    destruct (vec m size r') eqn:E3; [|discriminate].
    destruct P as [[-> ->]|[-> ->]]; split; eapply V; eauto.
  - injection (PE Hs) as -> ->.
    destruct (vec m size (gleft g)) eqn:E1; [|discriminate]. destruct (unit_at _ _) eqn:E2; [|discriminate].
    destruct (vec m size (gout g)) eqn:E3; [|discriminate]. split; eapply V; eauto.
  - injection (PE (proj1 Hs)) as -> ->.
    destruct (vec m size (gleft g)) eqn:E1; [|discriminate]. eapply V; eauto.
Qed.
Lemma sgate_row_known g r : gate_shape names g -> sgate_row q m g = Some r ->
  (gtyp g = GBit \/ gtyp g = GBase -> In (gid g) names) -> used_ids g.
Proof.
  unfold gate_shape, sgate_row, used_ids. assert (P := swap_perm g). assert (PE := swap_empty g).
  destruct (swap_sides g) as [l r']. intros Hs E Hb.
  assert (V := sinsert_values_known q m).
  destruct (gtyp g); unfold mk_srow in E; auto.
  - destruct (svec q m l) eqn:E1; [|discriminate]. destruct (svec q m r') eqn:E2; [|discriminate].
    destruct (svec q m (gout g)) eqn:E3; [|discriminate].
    destruct P as [[-> ->]|[-> ->]]; split; [|split| |split]; eapply V; eauto.
  - destruct (svec q m (gexp g)) eqn:E1; [|discriminate]. split; [eapply V; eauto|]. auto.
  - destruct (svec q m l) eqn:E1; [|discriminate]. destruct (sunit_at _) eqn:E2; [|discriminate].
    destruct (svec q m r') eqn:E3; [|discriminate].
    destruct P as [[-> ->]|[-> ->]]; split; eapply V; eauto.
  - injection (PE Hs) as -> ->.
    destruct (svec q m (gleft g)) eqn:E1; [|discriminate]. destruct (sunit_at _) eqn:E2; [|discriminate].
    destruct (svec q m (gout g)) eqn:E3; [|discriminate]. split; eapply V; eauto.
  - injection (PE (proj1 Hs)) as -> ->.
    destruct (svec q m (gleft g)) eqn:E1; [|discriminate]. eapply V; eauto.
Qed.

Lemma svec_defined fs : known_ids m fs -> exists t, svec q m fs = Some t.
Proof. intros K. destruct (svec_sparse m q fs K) as [t [E _]]. eauto. Qed.
Lemma sgate_row_defined g : gate_shape names g -> used_ids g ->
  (gtyp g = GBit -> gid g <> "1"%string /\ In (gid g) names) -> exists r, sgate_row q m g = Some r.
Proof.
  unfold gate_shape, sgate_row, used_ids. assert (P := swap_perm g). assert (PE := swap_empty g).
  destruct (swap_sides g) as [l r']. intros Hs U Hb.
  assert (V := svec_defined).
  destruct (sunit_ok 0) as [u0 [Eu0 Hu0]].
  destruct (sunit_ok (im_idx m (gid g))) as [ug [Eug Hug]].
  destruct (sunit_ok (im_idx m (ident (grep g)))) as [up [Eup Hup]].
  destruct (gtyp g) eqn:T; unfold mk_srow; rewrite ?Eu0, ?Eug, ?Eup; try contradiction.
  - destruct U as [U1 [U2 U3]]. destruct (V _ U1) as [t1 E1], (V _ U2) as [t2 E2], (V _ U3) as [t3 E3].
    destruct P as [[-> ->]|[-> ->]]; rewrite E1, E2, E3; eauto.
  - destruct U as [U1 U2]. destruct (V _ U1) as [t1 ->]. eauto.
  - destruct U as [U1 U2]. destruct (V _ U1) as [t1 E1], (V _ U2) as [t2 E2].
    destruct P as [[-> ->]|[-> ->]]; rewrite E1, E2; eauto.
  - destruct U as [U1 U3]. destruct (V _ U1) as [t1 E1], (V _ U3) as [t3 E3]. injection (PE Hs) as -> ->.
    rewrite E1, E3; eauto.
  - injection (PE (proj1 Hs)) as -> ->. destruct (V _ U) as [t1 ->]. eauto.
  - destruct (sparse_insert [] Leaf O (-1) (sparse_leaf q)) as [b1 [E1 Hb1]]; [easy|]. cbn [N.of_nat] in E1. rewrite E1.
    destruct (sparse_insert [(O, -1)] b1 (im_idx m (gid g)) 1 Hb1) as [b [E2 Hb2]].
    { cbn. intros [C|[]]. destruct (Hb eq_refl) as [B1 B2]. apply (gid_idx g); auto.
      intros N. apply (numbered_none _ _ _ Hm) in N. contradiction. }
    rewrite E2. eauto.
Qed.

Lemma idx_lt x : (im_idx m x < List.length names)%nat.
Proof.
  unfold im_idx. destruct (im_get m x) as [i|] eqn:E.
  - apply (numbered_get _ _ _ _ Hm) in E. apply nth_error_Some. congruence.
  - apply nth_error_Some. rewrite H1. discriminate.
Qed.
Lemma insert_values_defined fs : forall v, List.length v = List.length names -> known_ids m fs ->
  exists v', insert_values m v fs = Some v'.
Proof.
  induction fs as [|f fs IH]; intros v L K; cbn [insert_values]; eauto.
  assert (exists v', insert_value m v f = Some v') as [v' E].
  { unfold insert_value. assert (L0 := idx_lt "1"). rewrite idx_one in L0. destruct (is_number f) eqn:N.
    - apply array_set_defined. lia.
    - specialize (K f (or_introl eq_refl) N). assert (L1 := idx_lt (ident (ftok f))). unfold im_idx in L1.
      destruct (im_get m _); [|easy]. apply array_set_defined. lia. }
  rewrite E. apply IH.
  - unfold insert_value in E. rewrite <- L. destruct (is_number f); [now apply array_set_spec in E|].
    destruct (im_get m _); [now apply array_set_spec in E|discriminate].
  - intros g Hg. apply K. now right.
Qed.
Lemma zeros_length n : List.length (zeros n) = n.
Proof. apply repeat_length. Qed.
Lemma gate_row_defined g : gate_shape names g -> used_ids g -> exists r, gate_row m (List.length names) g = Some r.
Proof.
  unfold gate_shape, gate_row, used_ids. assert (P := swap_perm g). assert (PE := swap_empty g).
  destruct (swap_sides g) as [l r']. intros Hs U.
  assert (V : forall fs, known_ids m fs -> exists v, vec m (List.length names) fs = Some v).
  { intros fs K. apply insert_values_defined; auto. apply zeros_length. }
  assert (W : forall x, exists v, unit_at (List.length names) (im_idx m x) = Some v).
  { intros x. apply array_set_defined. rewrite zeros_length. apply idx_lt. }
  destruct (W "1"%string) as [u0 Eu0]. rewrite idx_one in Eu0.
  destruct (W (gid g)) as [ug Eug]. destruct (W (ident (grep g))) as [up Eup].
  destruct (gtyp g) eqn:T; unfold mk_row; rewrite ?Eu0, ?Eug, ?Eup; try contradiction.
  - destruct U as [U1 [U2 U3]]. destruct (V _ U1) as [t1 E1], (V _ U2) as [t2 E2], (V _ U3) as [t3 E3].
    destruct P as [[-> ->]|[-> ->]]; rewrite E1, E2, E3; eauto.
  - destruct U as [U1 U2]. destruct (V _ U1) as [t1 ->]. eauto.
  - destruct U as [U1 U2]. destruct (V _ U1) as [t1 E1], (V _ U2) as [t2 E2].
    destruct P as [[-> ->]|[-> ->]]; rewrite E1, E2; eauto.
  - destruct U as [U1 U3]. destruct (V _ U1) as [t1 E1], (V _ U3) as [t3 E3]. injection (PE Hs) as -> ->.
    rewrite E1, E3; eauto.
  - injection (PE (proj1 Hs)) as -> ->. destruct (V _ U) as [t1 ->]. eauto.
  - destruct (array_set_defined (zeros (List.length names)) O (-1)) as [v1 E1].
    { rewrite zeros_length. rewrite <- idx_one. apply idx_lt. }
    rewrite E1. destruct (array_set_defined v1 (im_idx m (gid g)) 1) as [v2 ->]; [|eauto].
    apply array_set_spec in E1. rewrite (proj1 E1), zeros_length. apply idx_lt.
Qed.

Lemma row_ok_terms gx T r : row_rel dense_of T r -> (row_ok q gx w r <-> terms_ok gx T).
Proof.
  intros [A [B [C D]]]. unfold row_ok, terms_ok.
  now rewrite (dense_dot _ _ w A), (dense_dot _ _ w B), (dense_dot _ _ w C), (dense_dot _ _ w D).
Qed.
Lemma srow_ok_terms gx T r : row_rel (sparse_of q) T r -> (srow_ok q gx w r <-> terms_ok gx T).
Proof.
  intros [A [B [C D]]]. unfold srow_ok, terms_ok.
  assert (E := sparse_dot _ _ _ w C). apply cong_mod_iff in E; auto. rewrite E.
  now rewrite (sparse_dot _ _ _ w A), (sparse_dot _ _ _ w B), (sparse_dot _ _ _ w D).
Qed.
End Numbered.

Lemma all_some_Forall2 {A B} (f : A -> option B) l r : all_some f l = Some r -> Forall2 (fun x y => f x = Some y) l r.
Proof.
  revert r; induction l as [|x l IH]; intros r; cbn; [intros [= <-]; constructor|].
  destruct (f x) eqn:E; [|discriminate]. destruct (all_some f l); [|discriminate]. intros [= <-]. constructor; auto.
Qed.
Lemma all_some_defined {A B} (f : A -> option B) l : Forall (fun x => exists y, f x = Some y) l -> exists r, all_some f l = Some r.
Proof. induction 1 as [|x l [y E] _ [r IH]]; cbn; eauto. rewrite E, IH. eauto. Qed.

(** ** Split map *)
Lemma sm_find_add s x i y : sm_find (sm_add s x i) y = sm_find s y ++ (if String.eqb x y then [i] else []).
Proof.
  induction s as [|[z l] s IH]; cbn.
  - destruct (String.eqb x y); reflexivity.
  - destruct (String.eqb_spec z x) as [->|Hzx]; cbn.
    + destruct (String.eqb x y); [reflexivity|]. now rewrite app_nil_r.
    + destruct (String.eqb_spec z y) as [->|]; [|apply IH].
      destruct (String.eqb_spec x y) as [->|]; [congruence|]. now rewrite app_nil_r.
Qed.
Lemma sm_add_keys s x i : NoDup (map fst s) -> NoDup (map fst (sm_add s x i)) /\
  (forall y, In y (map fst (sm_add s x i)) <-> In y (map fst s) \/ y = x).
Proof.
  induction s as [|[z l] s IH]; cbn; intros H.
  - split; [repeat constructor; easy|]. intros y. split; [intros [<-|[]]; auto|intros [[]| ->]; auto].
  - inversion H as [|? ? H1 H2]; subst. destruct (String.eqb_spec z x) as [->|Hzx]; cbn.
    + split; [now constructor|]. intros y. split; [tauto|]. intros [C| ->]; auto.
    + destruct (IH H2) as [A B]. split.
      * constructor; auto. rewrite B. intros [?|?]; [auto|congruence].
      * intros y. rewrite B. tauto.
Qed.
Lemma bit_names_cons g gs x : bit_names (g :: gs) x =
  (match gtyp g with GBit => if negb (gnonew g) && String.eqb (ident (grep g)) x then [gid g] else [] | _ => [] end) ++ bit_names gs x.
Proof. unfold bit_names. cbn [filter]. destruct (gtyp g); auto. destruct (negb (gnonew g) && _); reflexivity. Qed.

Lemma add_gates_split gs : forall ns m s m' s', numbered ns m -> add_gates (m, s) gs = Some (m', s') -> NoDup (map fst s) ->
  NoDup (map fst s') /\ (forall x, map Some (sm_find s' x) = map Some (sm_find s x) ++ map (im_get m') (bit_names gs x)) /\
  (forall x, In x (map fst s') <-> In x (map fst s) \/ bit_names gs x <> []).
Proof.
  induction gs as [|g gs IH]; intros ns m s m' s' H; cbn [add_gates].
  - intros [= <- <-] ND. split; auto. split; [intros; cbn; now rewrite app_nil_r|]. intros x. cbn. tauto.
  - destruct (add_gate (m, s) g) as [[m1 s1]|] eqn:E; [|discriminate]. intros E' ND.
    unfold add_gate in E. destruct (gnonew g) eqn:N.
    + injection E as <- <-. destruct (IH _ _ _ _ _ H E' ND) as [A [B C]].
      assert (Eb : forall x, bit_names (g :: gs) x = bit_names gs x).
      { intros x. rewrite bit_names_cons, N. cbn. now destruct (gtyp g). }
      split; auto. split; intros x; rewrite Eb; auto.
    + destruct (im_get m (gid g)) eqn:G; [discriminate|]. injection E as <- <-.
      apply (numbered_none _ _ _ H) in G. assert (Hs := numbered_snoc ns m (gid g) H G).
      assert (Gg : im_get m' (gid g) = Some (im_idx (im_set m (gid g) (List.length m)) (gid g))).
      { assert (F := proj1 (add_gates_spec gs _ _ _ Hs) _ _ E').
        assert (nth_error (ns ++ [gid g]) (List.length ns) = Some (gid g)) as Nn.
        { rewrite nth_error_app2 by lia. now rewrite Nat.sub_diag. }
        assert (G1 : im_get (im_set m (gid g) (List.length m)) (gid g) = Some (List.length ns))
          by (apply (numbered_get _ _ _ _ Hs); auto).
        unfold im_idx. rewrite G1. apply (numbered_get _ _ _ _ F). rewrite nth_error_app1; auto.
        apply nth_error_Some. congruence. }
      destruct (gtyp g) eqn:T;
        try (destruct (IH _ _ _ _ _ Hs E' ND) as [A [B C]]; split; [auto|];
             split; intros x; rewrite bit_names_cons, T; cbn [app]; auto).
      destruct (sm_add_keys s (ident (grep g)) (im_idx (im_set m (gid g) (List.length m)) (gid g)) ND) as [K1 K2].
      destruct (IH _ _ _ _ _ Hs E' K1) as [A [B C]]. split; auto. split; intros x; rewrite bit_names_cons, T, N; cbn [negb andb].
      * rewrite B, sm_find_add. destruct (String.eqb (ident (grep g)) x); cbn [app map].
        -- rewrite map_app, <- app_assoc. cbn [map app]. now rewrite Gg.
        -- now rewrite app_nil_r.
      * rewrite C, K2. destruct (String.eqb_spec (ident (grep g)) x) as [->|]; cbn [app].
        -- split; [intros _; right; discriminate|]. auto.
        -- split; [intros [[C1|C1]|C1]; [auto|congruence|auto]|]. intros [C1|C1]; auto.
Qed.

(** ** Whole systems *)
Lemma names_ok_fresh pubs ins gs rz : names_ok pubs ins gs rz ->
  rz = true -> ~ In rand_in (pubs ++ fresh pubs ins ++ out_names gs) /\ ~ In rand_out (pubs ++ fresh pubs ins ++ out_names gs).
Proof.
  intros [_ [_ H]] E. destruct (H E) as [A B].
  assert (F : forall x seen l, In x (fresh seen l) -> In x l).
  { intros x seen l. revert seen. induction l as [|y l IH]; intros seen; cbn; auto. destruct (existsb _ _); cbn; intros C.
    - right. eauto.
    - destruct C as [C|C]; eauto. }
  rewrite !in_app_iff in *. split; intros [C|[C|C]]; try apply F in C; tauto.
Qed.
Lemma system_names pubs ins gs rz m s : names_ok pubs ins gs rz -> build_index pubs ins gs rz = Some (m, s) ->
  numbered (wire_names pubs ins gs rz) m /\ nth_error (wire_names pubs ins gs rz) 0 = Some "1"%string /\
  forall g, In g gs -> gnonew g = false -> In (gid g) (wire_names pubs ins gs rz) /\ gid g <> "1"%string.
Proof.
  intros Hn E. assert (N := build_numbered pubs ins gs rz m s (proj1 Hn) (names_ok_fresh _ _ _ _ Hn) E).
  destruct Hn as [ND [H0 _]]. split; auto. split.
  - destruct pubs; [discriminate|]. exact H0.
  - intros g Hg Hf. assert (Hi : In (gid g) (out_names gs)).
    { unfold out_names. apply in_map. apply filter_In. split; auto. now rewrite Hf. }
    split.
    + unfold wire_names. rewrite !in_app_iff. auto.
    + intros C. destruct N as [N _]. unfold wire_names in N. destruct pubs as [|p pubs]; [discriminate|].
      cbn in H0. injection H0 as ->. cbn [app] in N. inversion N as [|? ? N1 N2]; subst. apply N1.
      rewrite !in_app_iff. rewrite C in Hi. auto.
Qed.

Lemma rand_names pubs ins gs : In rand_in (wire_names pubs ins gs true) /\ In rand_out (wire_names pubs ins gs true).
Proof. unfold wire_names. rewrite !in_app_iff. cbn. auto 10. Qed.

Section Systems.
Variables (q : Z) (gx : Z -> Z) (a : string -> Z).
Hypothesis Hq : q <> 0.
Hypothesis G0 : gx 0 ==[q] 0.
Hypothesis Ha : a "1"%string = 1.

Definition rand_holds : Prop := a rand_in * a rand_in + gx (a rand_in mod q) ==[q] a rand_out.

Lemma wire_distinct x k : slots_distinct (wire x k).
Proof. repeat constructor. easy. Qed.
Lemma rand_terms names m : numbered names m -> nth_error names 0 = Some "1"%string ->
  In rand_in names -> In rand_out names ->
  (terms_ok names q a gx (Row (map (dterm m) (wire rand_in 1)) (map (dterm m) (wire rand_in 1)) (map (dterm m) (wire rand_in 1)) (map (dterm m) (wire rand_out 1)))
   <-> rand_holds).
Proof.
  intros Hm H1 I1 I2. unfold terms_ok, rand_holds. cbn [rl rr re ro].
  assert (K : forall x, In x names -> known_ids m (wire x 1)).
  { intros x Hx f [<-|[]] _ N. cbn in N. apply (numbered_none _ _ _ Hm) in N. contradiction. }
  rewrite !(tval_dterm names m Hm H1 a Ha) by auto. unfold wire, lin, fac_val; cbn [ftok ttyp mult arg ident].
  replace (1 * a rand_in + 0) with (a rand_in) by ring. replace (1 * a rand_out + 0) with (a rand_out) by ring. reflexivity.
Qed.

Theorem dense_system pubs ins gs rz s : names_ok pubs ins gs rz ->
  Forall (gate_shape (wire_names pubs ins gs rz)) gs -> Forall gate_distinct gs ->
  gates_to_r1cs pubs ins gs rz = Some s ->
  exists rs, rows s = rs ++ (match rz with true => match rand_row (index_map s) (List.length (index_map s)) with Some r => [r] | None => [] end | false => [] end) /\
    Forall2 (fun g r => row_ok q gx (map a (wire_names pubs ins gs rz)) r <-> gate_holds q gx a g) gs rs /\
    (rz = true -> exists r, rows s = rs ++ [r] /\ (row_ok q gx (map a (wire_names pubs ins gs rz)) r <-> rand_holds)).
Proof.
  intros Hn Hs Hd. unfold gates_to_r1cs. destruct (build_index pubs ins gs rz) as [[m sp]|] eqn:E; [|discriminate].
  destruct (system_names _ _ _ _ _ _ Hn E) as [Hm [H1 Hg]]. set (names := wire_names pubs ins gs rz) in *.
  unfold with_rand. destruct (all_some _ gs) as [rs|] eqn:E1; [|discriminate]. intros E2.
  apply all_some_Forall2 in E1. exists rs.
  assert (F : Forall2 (fun g r => row_ok q gx (map a names) r <-> gate_holds q gx a g) gs rs).
  { clear E2. revert Hs Hd Hg. clearbody names. clear Hn E. induction E1 as [|g r gs' rs' E1 _ IH]; intros Hs Hd Hg; constructor.
    - inversion Hs as [|? ? S1 S2]; subst. inversion Hd as [|? ? D1 D2]; subst.
      rewrite (row_ok_terms names q a gx (gate_terms (dterm m) m g)).
      + apply (terms_gate names m Hm H1 q Hq a Ha gx g G0 S1).
        apply (gate_row_known names m (List.length m) g r S1 E1).
        intros C. apply Hg; [now left|]. unfold gate_shape in S1. destruct C as [C|C]; rewrite C in S1; auto.
      + apply (gate_row_dense names m Hm H1 (List.length m)); auto. intros C. destruct (Hg g (or_introl eq_refl)) as [A B]; auto.
        unfold gate_shape in S1. now rewrite C in S1.
    - inversion Hs; subst. inversion Hd; subst. apply IH; auto. intros g' Hg'. apply Hg. now right. }
  destruct rz.
  - destruct (rand_row m (List.length m)) as [r|] eqn:Er; [|discriminate]. injection E2 as <-. cbn [rows index_map].
    rewrite Er. split; auto. split; auto. intros _. exists r. split; auto.
    unfold rand_row in Er. destruct (vec m (List.length m) (wire rand_in 1)) as [v1|] eqn:V1; [|discriminate].
    destruct (vec m (List.length m) (wire rand_out 1)) as [v2|] eqn:V2; [|discriminate]. cbn [mk_row] in Er. injection Er as <-.
    destruct (rand_names pubs ins gs) as [I1 I2].
    rewrite <- (rand_terms names m Hm H1 I1 I2). apply row_ok_terms.
    assert (A := vec_ok names m Hm H1 _ _ _ (wire_distinct rand_in 1) V1).
    assert (B := vec_ok names m Hm H1 _ _ _ (wire_distinct rand_out 1) V2).
    split; [|split; [|split]]; auto.
  - injection E2 as <-. cbn [rows]. rewrite app_nil_r. split; auto. split; auto. discriminate.
Qed.

Theorem sparse_system pubs ins gs rz s : names_ok pubs ins gs rz ->
  Forall (gate_shape (wire_names pubs ins gs rz)) gs -> Forall (numbers_apart (wire_names pubs ins gs rz)) gs ->
  gates_to_sparse_r1cs q pubs ins gs rz = Some s ->
  exists rs, (rz = false -> rows s = rs) /\
    Forall2 (fun g r => srow_ok q gx (map a (wire_names pubs ins gs rz)) r <-> gate_holds q gx a g) gs rs /\
    (rz = true -> exists r, rows s = rs ++ [r] /\ (srow_ok q gx (map a (wire_names pubs ins gs rz)) r <-> rand_holds)).
Proof.
  intros Hn Hs Hd. unfold gates_to_sparse_r1cs. destruct (build_index pubs ins gs rz) as [[m sp]|] eqn:E; [|discriminate].
  destruct (system_names _ _ _ _ _ _ Hn E) as [Hm [H1 Hg]]. set (names := wire_names pubs ins gs rz) in *.
  unfold with_rand. destruct (all_some _ gs) as [rs|] eqn:E1; [|discriminate]. intros E2.
  apply all_some_Forall2 in E1. exists rs.
  assert (F : Forall2 (fun g r => srow_ok q gx (map a names) r <-> gate_holds q gx a g) gs rs).
  { clear E2. revert Hs Hd Hg. clearbody names. clear Hn E. induction E1 as [|g r gs' rs' E1 _ IH]; intros Hs Hd Hg; constructor.
    - inversion Hs as [|? ? S1 S2]; subst. inversion Hd as [|? ? D1 D2]; subst.
      rewrite (srow_ok_terms names q Hq a gx (gate_terms (dterm m) m g)).
      + apply (terms_gate names m Hm H1 q Hq a Ha gx g G0 S1).
        apply (sgate_row_known names m q g r S1 E1).
        intros C. apply Hg; [now left|]. unfold gate_shape in S1. destruct C as [C|C]; rewrite C in S1; auto.
      + rewrite <- (gate_terms_eq names m Hm H1 g D1).
        apply (sgate_row_sparse names m Hm H1 q); auto. intros C. destruct (Hg g (or_introl eq_refl)) as [A B]; auto.
        unfold gate_shape in S1. now rewrite C in S1.
    - inversion Hs; subst. inversion Hd; subst. apply IH; auto. intros g' Hg'. apply Hg. now right. }
  destruct rz.
  - destruct (srand_row q m) as [r|] eqn:Er; [|discriminate]. injection E2 as <-. cbn [rows index_map].
    split; [discriminate|]. split; auto. intros _. exists r. split; auto.
    unfold srand_row in Er. destruct (svec q m (wire rand_in 1)) as [v1|] eqn:V1; [|discriminate].
    destruct (svec q m (wire rand_out 1)) as [v2|] eqn:V2; [|discriminate]. cbn [mk_srow] in Er. injection Er as <-.
    destruct (rand_names pubs ins gs) as [I1 I2].
    rewrite <- (rand_terms names m Hm H1 I1 I2). apply srow_ok_terms; auto.
    assert (A := svec_ok m q _ _ V1). assert (B := svec_ok m q _ _ V2).
    split; [|split; [|split]]; auto.
  - injection E2 as <-. cbn [rows]. split; auto. split; auto. discriminate.
Qed.

(** Coefficient-wise agreement. *)
Definition agree (v : list Z) (t : tree) : Prop := forall i, nth i v 0 ==[q] lookup t (N.of_nat i).
Lemma agree_terms T v t : dense_of T v -> sparse_of q T t -> agree v t.
Proof. intros [_ A] [_ B] i. now rewrite A, B. Qed.
Lemma row_agree T d t : row_rel dense_of T d -> row_rel (sparse_of q) T t -> row_rel agree d t.
Proof. intros [A1 [A2 [A3 A4]]] [B1 [B2 [B3 B4]]]. repeat split; eapply agree_terms; eauto. Qed.
End Systems.

Theorem systems_agree q pubs ins gs rz : q <> 0 -> names_ok pubs ins gs rz ->
  Forall (gate_shape (wire_names pubs ins gs rz)) gs -> Forall gate_distinct gs ->
  Forall (numbers_apart (wire_names pubs ins gs rz)) gs ->
  match gates_to_r1cs pubs ins gs rz, gates_to_sparse_r1cs q pubs ins gs rz with
  | Some d, Some s => index_map d = index_map s /\ split_map d = split_map s /\
                      Forall2 (row_rel (agree q)) (rows d) (rows s)
  | None, None => True
  | _, _ => False
  end.
Proof.
  intros Hq Hn Hs Hd Ha. unfold gates_to_r1cs, gates_to_sparse_r1cs.
  destruct (build_index pubs ins gs rz) as [[m sp]|] eqn:E; auto.
  destruct (system_names _ _ _ _ _ _ Hn E) as [Hm [H1 Hg]]. rewrite (numbered_length _ _ Hm).
  set (names := wire_names pubs ins gs rz) in *.
  assert (Hb : forall g, In g gs -> gtyp g = GBit \/ gtyp g = GBase -> In (gid g) names /\ gid g <> "1"%string).
  { intros g Hi C. apply Hg; auto. rewrite Forall_forall in Hs. specialize (Hs g Hi). unfold gate_shape in Hs.
    destruct C as [C|C]; rewrite C in Hs; auto. }
  assert (R : forall g, In g gs ->
     match gate_row m (List.length names) g, sgate_row q m g with
     | Some d, Some s => row_rel (agree q) d s | None, None => True | _, _ => False end).
  { intros g Hi. assert (Hs' := proj1 (Forall_forall _ _) Hs g Hi). assert (Hd' := proj1 (Forall_forall _ _) Hd g Hi).
    assert (Ha' := proj1 (Forall_forall _ _) Ha g Hi). specialize (Hb g Hi).
    assert (B1 : gtyp g = GBit -> gid g <> "1"%string /\ In (gid g) names) by (intros C; split; apply Hb; auto).
    assert (B2 : gtyp g = GBit \/ gtyp g = GBase -> In (gid g) names) by (intros C; apply Hb; auto).
    destruct (gate_row m (List.length names) g) as [d|] eqn:Ed; destruct (sgate_row q m g) as [s|] eqn:Es; auto.
    - apply (row_agree q (gate_terms (dterm m) m g)).
      + apply (gate_row_dense names m Hm H1 (List.length names)); auto.
      + rewrite <- (gate_terms_eq names m Hm H1 g Ha'). apply (sgate_row_sparse names m Hm H1 q); auto.
    - assert (U := gate_row_known names m _ g d Hs' Ed B2).
      destruct (sgate_row_defined names m Hm H1 q g Hs' U B1) as [r Er]. congruence.
    - assert (U := sgate_row_known names m q g s Hs' Es B2).
      destruct (gate_row_defined names m Hm H1 g Hs' U) as [r Er]. congruence. }
  assert (RR : match all_some (gate_row m (List.length names)) gs, all_some (sgate_row q m) gs with
     | Some d, Some s => Forall2 (row_rel (agree q)) d s | None, None => True | _, _ => False end).
  { clearbody names. clear - R. induction gs as [|g gs IH]; cbn [all_some]; [constructor|].
    assert (Rg := R g (or_introl eq_refl)). specialize (IH (fun g' H => R g' (or_intror H))).
    destruct (gate_row m (List.length names) g), (sgate_row q m g); try contradiction;
      destruct (all_some (gate_row m (List.length names)) gs), (all_some (sgate_row q m) gs); try contradiction; auto. }
  unfold with_rand.
  destruct (all_some (gate_row m (List.length names)) gs) as [d|], (all_some (sgate_row q m) gs) as [s|]; try contradiction; auto.
  destruct rz; [|auto].
  destruct (rand_names pubs ins gs) as [I1 I2].
  assert (K : forall x, In x names -> known_ids m (wire x 1)).
  { intros x Hx f [<-|[]] _ N. cbn in N. apply (numbered_none _ _ _ Hm) in N. contradiction. }
  unfold rand_row, srand_row.
  destruct (insert_values_defined names m Hm H1 (wire rand_in 1) (zeros (List.length names)) (zeros_length _) (K _ I1)) as [v1 E1].
  destruct (insert_values_defined names m Hm H1 (wire rand_out 1) (zeros (List.length names)) (zeros_length _) (K _ I2)) as [v2 E2].
  destruct (svec_sparse m q (wire rand_in 1) (K _ I1)) as [t1 [F1 S1]].
  destruct (svec_sparse m q (wire rand_out 1) (K _ I2)) as [t2 [F2 S2]].
  assert (A1 := vec_ok names m Hm H1 _ _ _ (wire_distinct rand_in 1) E1).
  assert (A2 := vec_ok names m Hm H1 _ _ _ (wire_distinct rand_out 1) E2).
  unfold vec. rewrite E1, E2, F1, F2. cbn [mk_row mk_srow index_map split_map rows]. split; auto. split; auto.
  apply Forall2_app; auto. constructor; [|constructor].
  split; [|split; [|split]]; cbn [rl rr re ro]; eapply agree_terms; eauto.
Qed.

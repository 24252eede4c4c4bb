(** Proofs about the sparse systems of SnarkModel: the combined polynomial and its division. *)
Require Import ZArith Znumtheory NArith Bool Ascii String Lia Setoid Morphisms List.
Require Import Verif.Cong Verif.FqModel Verif.FqSpec Verif.FqProofs Verif.PolyModel Verif.PolyProofs Verif.InterpProofs.
Require Import Verif.AvlModel Verif.AvlSpec Verif.AvlProofs Verif.SparseModel Verif.SparseSpec Verif.SparseProofs Verif.SparseProofs2.
Require Import Verif.FactorModel Verif.R1csModel Verif.R1csSpec Verif.SnarkModel Verif.SnarkSpec.
Require Import Verif.SnarkProofs Verif.SnarkProofs2 Verif.SnarkProofs3 Verif.SparseSnarkSpec.
Import ListNotations.
Open Scope Z_scope.

Lemma edot_tree t w n : wf t -> below (tc t) n -> edot (ascending t) w = zsum (map (fun i => tc t i * nth i w 0) (seq 0 n)).
Proof.
  intros W B. rewrite <- (tree_sum t (fun i => nth i w 0) n) by (auto; apply W). clear.
  induction (ascending t) as [|[k v] l IH]; cbn; [reflexivity|]. now rewrite IH.
Qed.
Lemma zsum_nth (f : tree -> Z) ts : zsum (map f ts) = zsum (map (fun i => f (nth i ts Leaf)) (seq 0 (List.length ts))).
Proof. induction ts as [|t ts IH]; cbn [map zsum List.length seq nth]; auto. rewrite IH, <- seq_shift, map_map. reflexivity. Qed.
Lemma teval_poly t x n : wf t -> below (tc t) n -> teval t x = poly_at (dense (tc t) n) x.
Proof. intros W B. now rewrite (teval_fval t x n W B), fval_dense. Qed.
Lemma empty_size t : wf t -> (forall k, lookup t k = 0) -> size t = 0%nat.
Proof.
  intros W H. rewrite size_ascending. destruct (ascending t) as [|[k v] l] eqn:E; auto. exfalso.
  assert (I : In k (map fst (ascending t))) by (rewrite E; now left). apply in_keys_lookup in I; auto.
Qed.
Lemma size_empty t : size t = 0%nat -> forall k, lookup t k = 0.
Proof. destruct t; cbn; [|lia]. intros _ k. reflexivity. Qed.
Lemma nth_leaf {A} (f : A -> tree) l k r : nth_error l k = Some r -> nth k (map f l) Leaf = f r.
Proof. intros H. apply nth_error_nth. now apply map_nth_error. Qed.

Lemma divide_loop_mono q b : forall n fuel res rem r, (n <= fuel)%nat -> divide_loop q n b res rem = Ret r -> divide_loop q fuel b res rem = Ret r.
Proof.
  induction n as [|n IH]; intros fuel res rem r Hf E.
  - destruct fuel; cbn [divide_loop] in *; destruct (max_node rem) as [ka va], (max_node b) as [kb vb];
      destruct (N.ltb ka kb); try discriminate; exact E.
  - destruct fuel as [|fuel]; [lia|]. cbn [divide_loop] in *. destruct (max_node rem) as [ka va], (max_node b) as [kb vb].
    destruct (N.ltb ka kb); auto. destruct (fdiv q va vb); auto.
    destruct (insert_no_overwrite Leaf _ _); auto. destruct (insert_no_overwrite res _ _); auto.
    destruct (mul_sparse q b _); auto. destruct (sub_to_sparse q rem _); auto. apply IH; auto. lia.
Qed.
Lemma divide_sparse_mono q a b n fuel r : (n <= fuel)%nat -> divide_sparse q n a b = Ret r -> divide_sparse q fuel a b = Ret r.
Proof. unfold divide_sparse. destruct (clone a); [|discriminate]. apply divide_loop_mono. Qed.

Section Fixed.
Variable q : Z.
Hypothesis Pq : prime q.
Variable G : groups.
Local Notation gx := (gxc G).
Let q1 : 1 < q.
Proof. destruct Pq; lia. Qed.

Variable s : er1cs tree.
Hypothesis W : sparse_sized s.
Local Notation n := (List.length (rows s)).
Local Notation m := (List.length (index_map s)).

(** Columns of one side of the system. *)
Definition scols (f : row tree -> tree) (cols : list tree) : Prop :=
  List.length cols = m /\ Forall wf cols /\ Forall (fun t => below (tc t) n) cols /\
  forall j k, (j < m)%nat -> tc (nth j cols Leaf) k = tc (nth k (map f (rows s)) Leaf) j.
Definition side (f : row tree -> tree) : Prop := Forall (fun r => wf (f r) /\ below (tc (f r)) m) (rows s).

Lemma sides : side rl /\ side rr /\ side re /\ side ro.
Proof.
  unfold side. assert (H := W). unfold sparse_sized in H.
  repeat split; eapply Forall_impl; try exact H; intros r F; rewrite !Forall_cons_iff in F; tauto.
Qed.
Lemma side_nth f : side f -> forall k, wf (nth k (map f (rows s)) Leaf) /\ below (tc (nth k (map f (rows s)) Leaf)) m.
Proof.
  intros F k. destruct (nth_error (rows s) k) as [r|] eqn:E.
  - rewrite (nth_leaf f _ k r E). unfold side in F. rewrite Forall_forall in F. apply F. eapply nth_error_In; eauto.
  - rewrite nth_overflow; [|rewrite map_length; now apply nth_error_None]. split; [apply wf_leaf|]. intros i _. unfold tc. apply lookup_leaf.
Qed.
Lemma side_columns f : side f -> exists cols, transpose_sparse (map f (rows s)) m = Some cols /\ scols f cols.
Proof.
  intros F. unfold side in F. rewrite Forall_forall in F.
  destruct (transpose_sparse_spec (map f (rows s)) m) as [cols [E [L [Wc C]]]].
  - apply Forall_forall. intros t Ht. apply in_map_iff in Ht. destruct Ht as [r [<- Hr]]. apply F; auto.
  - apply Forall_forall. intros t Ht. apply in_map_iff in Ht. destruct Ht as [r [<- Hr]]. apply F; auto.
  - exists cols. split; auto. split; auto. split; auto. split; auto. apply Forall_forall. intros t Ht.
    destruct (In_nth cols t Leaf Ht) as [j [Hj <-]]. intros k Hk. rewrite C by lia.
    rewrite nth_overflow by (rewrite map_length; auto). unfold tc. apply lookup_leaf.
Qed.
Lemma columns_spec : exists T, transpose_sparse_er1cs s = Some T /\ ngates T = n /\ wlen T = m /\
  scols rl (cl T) /\ scols rr (cr T) /\ scols re (ce T) /\ scols ro (co T).
Proof.
  destruct sides as [S1 [S2 [S3 S4]]]. unfold transpose_sparse_er1cs.
  destruct (side_columns rl S1) as [l [-> A1]]. destruct (side_columns rr S2) as [r [-> A2]].
  destruct (side_columns re S3) as [e [-> A3]]. destruct (side_columns ro S4) as [o [-> A4]].
  eexists. split; [reflexivity|]. cbn. do 5 (split; [assumption || reflexivity|]). assumption.
Qed.

(** The weighted sum of the columns holds the values of the rows. *)
Lemma sweighted_spec f cols w : side f -> scols f cols -> List.length w = m ->
  exists d, sweighted q cols w = Some d /\ wf d /\ ctree q d /\ below (tc d) n /\
    forall i, (i < n)%nat -> tc d i = nth i (row_values f w s) 0 mod q.
Proof.
  intros Sf [L [Wc [_ C]]] Lw. unfold sweighted.
  destruct (linear_combine_spec q cols w Wc ltac:(lia)) as [ts [-> [Lt [Wt Ct]]]].
  destruct (add_polynomials_fold q ltac:(lia) ts Leaf wf_leaf) as [d [E [Wd [Cd Hd]]]]; auto.
  { intros k. rewrite lookup_leaf. lia. }
  assert (V : forall k, tc d k = zsum (map (fun j => tc (nth k (map f (rows s)) Leaf) j * nth j w 0) (seq 0 m)) mod q).
  { intros k. unfold tc at 1. assert (R := Cd (N.of_nat k)). rewrite <- (Z.mod_small _ _ R). apply cong_mod_iff; [lia|].
    rewrite Hd, lookup_leaf, zsum_nth, Lt, Lw, Z.add_0_l. apply zsum_map_cong. intros j Hj. apply in_seq in Hj.
    rewrite Ct by lia. rewrite fmul_cong. assert (X := C j k ltac:(lia)). unfold tc at 1 in X. rewrite X. reflexivity. }
  exists d. split; [exact E|]. split; auto. split; auto. split.
  - intros k Hk. rewrite V, zsum_map_0; [apply Z.mod_0_l; lia|]. intros j _.
    rewrite nth_overflow by (rewrite map_length; auto). unfold tc. rewrite lookup_leaf. ring.
  - intros i Hi. rewrite V. f_equal. destruct (side_nth f Sf i) as [Wi Bi]. rewrite <- (edot_tree _ w m Wi Bi).
    destruct (nth_error (rows s) i) as [r|] eqn:Er; [|apply nth_error_None in Er; lia]. rewrite (nth_leaf f _ i r Er).
    unfold row_values. now rewrite (nth_error_nth _ _ 0 (map_nth_error (fun r => edot (ascending (f r)) w) i _ Er)).
Qed.

(** The points of the exponents. *)
Lemma gx_points_spec es : NoDup (map fst es) -> forall t, wf t -> (forall k, In k (map fst es) -> lookup t k = 0) ->
  exists t', gx_points G es t = Some t' /\ wf t' /\
    forall k, lookup t' k = match assoc es k with Some v => gx v | None => lookup t k end.
Proof.
  induction es as [|[k v] es IH]; intros ND t Wt H; cbn [gx_points map fst] in *.
  - exists t. split; auto.
  - inversion ND as [|? ? NI ND']; subst. destruct (insert_no_overwrite_lookup t k (gx v) Wt (H k ltac:(now left))) as [t1 [-> [W1 L1]]].
    destruct (IH ND' t1 W1) as [t' [E [W' L']]].
    { intros k' Hk'. rewrite L1. destruct (N.eqb_spec k' k); [subst; contradiction|]. apply H. now right. }
    exists t'. split; auto. split; auto. intros k'. rewrite L', L1. cbn [assoc fst snd]. rewrite (N.eqb_sym k' k).
    destruct (N.eqb_spec k k') as [->|]; auto.
    destruct (assoc es k') as [v'|] eqn:Ea; auto. exfalso. apply NI. apply in_map_iff. exists (k', v'). split; auto.
    clear - Ea. induction es as [|[a b] es IH]; cbn in Ea; [discriminate|]. destruct (N.eqb_spec a k'); [injection Ea as ->; subst; now left|right; auto].
Qed.
Lemma exponent_points d : wf d -> gx 0 = 0 -> exists t, gx_points G (ascending d) Leaf = Some t /\ wf t /\ forall k, lookup t k = gx (lookup d k).
Proof.
  intros Wd X0. destruct (gx_points_spec (ascending d) (bst_NoDup d (proj1 Wd)) Leaf wf_leaf) as [t [E [Wt L]]].
  { intros; apply lookup_leaf. }
  exists t. split; auto. split; auto. intros k. rewrite L, (lookup_assoc d) by apply Wd. destruct (assoc _ _); auto.
Qed.

(** ** The combined polynomial *)
Lemma mod_data t data p : (forall i, (i < n)%nat -> tc t i = nth i data 0 mod q) -> List.length data = n -> wf p -> below (tc p) n ->
  (forall i, (i < n)%nat -> teval p (Z.of_nat i) ==[q] tc t i) -> interpolates q data (dense (tc p) n).
Proof.
  intros V L Wp Bp E. split; [rewrite dense_length; lia|]. rewrite L. intros i Hi.
  rewrite <- (teval_poly p _ n Wp Bp), E, V by auto. apply cong_mod.
Qed.
Theorem combine_sparse_spec T c w : transpose_sparse_er1cs s = Some T -> gx 0 = 0 ->
  (1 <= n)%nat -> Z.of_nat n <= q -> scache_ok q c -> List.length w = m ->
  exists Px c', combine_sparse_polynomials q G c w T = Some (Px, c') /\ scache_ok q c' /\
    wf Px /\ ctree q Px /\ below (tc Px) (2 * n - 1) /\
    exists l r g o, interpolates q (row_values rl w s) l /\ interpolates q (row_values rr w s) r /\
      interpolates q (map (fun v => gx (v mod q)) (row_values re w s)) g /\ interpolates q (row_values ro w s) o /\
      forall x, teval Px x ==[q] poly_at l x * poly_at r x + poly_at g x - poly_at o x.
Proof.
  intros ET X0 N Nq Hc Lw. destruct columns_spec as [T' [E' [T1 [T2 [TL [TR [TE TO]]]]]]]. rewrite ET in E'. injection E' as <-.
  destruct sides as [S1 [S2 [S3 S4]]].
  destruct (sweighted_spec rl _ w S1 TL Lw) as [dl [El [Wl [Cl [Bl Vl]]]]].
  destruct (sweighted_spec rr _ w S2 TR Lw) as [dr [Er [Wr [Cr [Br Vr]]]]].
  destruct (sweighted_spec re _ w S3 TE Lw) as [de [Ee [We [Ce [Be Ve]]]]].
  destruct (sweighted_spec ro _ w S4 TO Lw) as [d_o [Eo [Wo [Co [Bo Vo]]]]].
  unfold combine_sparse_polynomials. rewrite El, Er, Ee, Eo, T1.
  destruct (interpolate_spec q c dl n Pq Nq Hc Wl Bl ltac:(lia)) as [l [c1 [-> [Hc1 [W1 [C1 [B1 H1]]]]]]].
  destruct (interpolate_spec q c1 dr n Pq Nq Hc1 Wr Br ltac:(lia)) as [r [c2 [-> [Hc2 [W2 [C2 [B2 H2]]]]]]].
  destruct (interpolate_spec q c2 d_o n Pq Nq Hc2 Wo Bo ltac:(lia)) as [o [c3 [-> [Hc3 [W3 [C3 [B3 H3]]]]]]].
  destruct (exponent_points de We X0) as [pts [-> [Wp Lp]]].
  assert (Bp : below (tc pts) n).
  { intros k Hk. unfold tc. rewrite Lp. specialize (Be k Hk). unfold tc in Be. now rewrite Be. }
  destruct (interpolate_spec q c3 pts n Pq Nq Hc3 Wp Bp ltac:(lia)) as [g [c4 [-> [Hc4 [W4 [C4 [B4 H4]]]]]]].
  destruct (mul_sparse_spec q l r W1 W2) as [a [-> [Wa [Ca Ra]]]].
  destruct (add_to_sparse_spec q a g Wa W4) as [b [-> [Wb [Cb [Rb _]]]]].
  destruct (sub_to_sparse_spec q b o Wb W3) as [Px [-> [WP [CP [RP _]]]]].
  assert (q0 : 0 < q) by lia. specialize (Ra q0). specialize (Rb q0 Ra). specialize (RP q0 Rb).
  exists Px, c4. split; auto. split; auto. split; auto. split; auto. split.
  - intros k Hk. unfold tc. apply (cong_canon_unique q); [apply RP|lia|]. rewrite CP, Cb.
    assert (A := Ca k). unfold tc at 1 in A. rewrite A, (fconv_below (tc l) (tc r) n n B1 B2 k) by lia.
    assert (Z1 := B4 k ltac:(lia)). assert (Z2 := B3 k ltac:(lia)). unfold tc in Z1, Z2. rewrite Z1, Z2. reflexivity.
  - assert (LV : forall f, List.length (row_values f w s) = n) by (intros; apply map_length).
    exists (dense (tc l) n), (dense (tc r) n), (dense (tc g) n), (dense (tc o) n).
    split; [apply (mod_data dl); auto|]. split; [apply (mod_data dr); auto|]. split; [|split; [apply (mod_data d_o); auto|]].
    + split; rewrite map_length, LV; [rewrite dense_length; lia|]. intros i Hi. rewrite <- (teval_poly g _ n W4 B4), H4 by auto.
      unfold tc. rewrite Lp. fold (tc de i). rewrite Ve by auto. apply cong_eq.
      rewrite (nth_indep (map _ _) 0 (gx (0 mod q))) by (rewrite map_length, LV; auto).
      now rewrite (map_nth (fun v => gx (v mod q))).
    + intros x. rewrite <- (teval_poly l x n W1 B1), <- (teval_poly r x n W2 B2), <- (teval_poly g x n W4 B4), <- (teval_poly o x n W3 B3).
      assert (TP : teval Px x ==[q] teval b x - teval o x).
      { assert (E := teval_add q Px o b x WP W3 Wb). rewrite E; [apply cong_eq; ring|]. intros k. rewrite CP. apply cong_eq; ring. }
      rewrite TP, (teval_add q a g b x Wa W4 Wb Cb), (teval_mul q l r a x W1 W2 Wa Ca). reflexivity.
Qed.

(** Values at the gates. *)
Lemma row_values_nth f w i r : nth_error (rows s) i = Some r -> nth i (row_values f w s) 0 = edot (ascending (f r)) w.
Proof. intros E. unfold row_values. now rewrite (nth_error_nth _ _ 0 (map_nth_error (fun r => edot (ascending (f r)) w) i _ E)). Qed.
Lemma gate_value w l r g o (Px : tree) : interpolates q (row_values rl w s) l -> interpolates q (row_values rr w s) r ->
  interpolates q (map (fun v => gx (v mod q)) (row_values re w s)) g -> interpolates q (row_values ro w s) o ->
  (forall x, teval Px x ==[q] poly_at l x * poly_at r x + poly_at g x - poly_at o x) ->
  forall i rw, nth_error (rows s) i = Some rw -> teval Px (Z.of_nat i) ==[q]
    edot (ascending (rl rw)) w * edot (ascending (rr rw)) w + gx (edot (ascending (re rw)) w mod q) - edot (ascending (ro rw)) w.
Proof.
  intros [_ Il] [_ Ir] [_ Ig] [_ Io] E i rw H. assert (Hi : (i < n)%nat) by (apply nth_error_Some; congruence).
  assert (LV : forall f, List.length (row_values f w s) = n) by (intros; apply map_length).
  rewrite map_length in Ig. rewrite E, Il, Ir, Ig, Io by (rewrite LV; auto).
  rewrite (nth_indep (map _ _) 0 (gx (0 mod q))) by (rewrite map_length, LV; auto). rewrite (map_nth (fun v => gx (v mod q))).
  rewrite !(row_values_nth _ w i rw H). reflexivity.
Qed.

(** ** Division by the domain polynomial *)
Lemma domain_tree : (1 <= n)%nat -> exists dom vb, from_array (domain_poly q n) = Some dom /\ wf dom /\
  max_node dom = (N.of_nat n, vb) /\ vb ==[q] 1 /\ below (tc dom) (S n) /\ tc dom n = vb /\
  forall x, teval dom x = poly_at (domain_poly q n) x.
Proof.
  intros N. destruct (from_array_spec (domain_poly q n)) as [dom [E [Wd L]]]. assert (Ld := domain_length q n N).
  assert (T : forall k, tc dom k = coef (domain_poly q n) k) by (intros k; unfold tc; rewrite L, Nnat.Nat2N.id; reflexivity).
  assert (B : below (tc dom) (S n)) by (intros k Hk; rewrite T; unfold coef; apply nth_overflow; lia).
  assert (Top : tc dom n ==[q] 1).
  { rewrite T. unfold coef. rewrite <- (domain_lead q n).
    assert (Y : forall l : list Z, last l 0 = nth (List.length l - 1) l 0).
    { clear. induction l as [|a [|b l] IH]; auto. change (last (a :: b :: l) 0) with (last (b :: l) 0). rewrite IH.
      cbn [List.length]. replace (S (S (List.length l)) - 1)%nat with (S (S (List.length l) - 1)) by lia. reflexivity. }
    rewrite Y, Ld. replace (S n - 1)%nat with n by lia. reflexivity. }
  exists dom, (tc dom n). split; auto. split; auto. split; [|split; auto; split; auto; split; auto].
  - destruct (max_node_spec dom (lookup dom) (wf_rep dom Wd)) as [[_ [_ Z0]]|[k [v [Em [Lk [Hv M]]]]]].
    + exfalso. unfold tc in Top. rewrite Z0 in Top. apply cong_canon_unique in Top; lia.
    + rewrite Em. destruct (max_node_le dom k v Wd Em) as [_ M']. assert (H1 : (N.of_nat n <= k)%N).
      { apply M'. intros H0. unfold tc in Top. rewrite H0 in Top. apply cong_canon_unique in Top; lia. }
      assert (H2 : (k <= N.of_nat n)%N).
      { destruct (N.le_gt_cases k (N.of_nat n)) as [|H]; auto. exfalso. apply Hv. rewrite <- Lk.
        assert (Z0 := B (N.to_nat k) ltac:(lia)). unfold tc in Z0. now rewrite Nnat.N2Nat.id in Z0. }
      assert (k = N.of_nat n) by lia. subst k. unfold tc. now rewrite Lk.
  - intros x. rewrite (teval_fval dom x (S n) Wd B). rewrite <- (fval_list (domain_poly q n) (S n) x) by lia.
    unfold fval. apply zsum_map_ext. intros i _. now rewrite T.
Qed.

Lemma fconv_top f g a b : below f (S a) -> below g (S b) -> fconv f g (a + b) = f a * g b.
Proof.
  intros Hf Hg. unfold fconv. replace (S (a + b)) with (a + S b)%nat by lia. rewrite seq_app, map_app, zsum_app.
  rewrite zsum_map_0. 2:{ intros i Hi. apply in_seq in Hi. rewrite (Hg (a + b - i)%nat) by lia. ring. }
  cbn [seq map zsum]. rewrite zsum_map_0. 2:{ intros i Hi. apply in_seq in Hi. rewrite (Hf i) by lia. ring. }
  replace (a + b - (0 + a))%nat with b by lia. rewrite Nat.add_0_l. ring.
Qed.

Lemma divide_domain Px : (1 <= n)%nat -> Z.of_nat n <= q -> wf Px -> ctree q Px -> below (tc Px) (2 * n - 1) ->
  exists dom quo rem, from_array (domain_poly q n) = Some dom /\
    (forall fuel, (2 * n <= fuel)%nat -> divide_sparse q fuel Px dom = Ret (quo, rem)) /\
    wf quo /\ ctree q quo /\ below (tc quo) (n - 1) /\
    (forall x, teval Px x ==[q] poly_at (domain_poly q n) x * teval quo x + teval rem x) /\
    (size rem = 0%nat <-> forall i, (i < n)%nat -> teval Px (Z.of_nat i) ==[q] 0).
Proof.
  intros N Nq WP CP BP. destruct (domain_tree N) as (dom & vb & Ed & Wd & Md & Vb & Bd & Tb & Ev).
  assert (Nb : ~ vb ==[q] 0) by (rewrite Vb; intros H; apply cong_canon_unique in H; lia).
  assert (Mp : (N.to_nat (max_power Px) <= 2 * n)%nat).
  { assert (X : (max_power Px < N.of_nat (2 * n))%N).
    { apply max_node_lt; auto; [|lia]. intros k Hk. assert (Z0 := BP (N.to_nat k) ltac:(lia)). unfold tc in Z0. now rewrite Nnat.N2Nat.id in Z0. }
    lia. }
  destruct (divide_sparse_spec q dom Pq Wd (N.of_nat n) vb Md Nb Px ltac:(lia) WP (ctree_nz q Px CP) (2 * n)%nat Mp)
    as (quo & rem & E & Wq & Wr & Cq & Zr & Mr & C).
  assert (Br : below (tc rem) n) by (eapply below_le; [apply below_max; auto|lia]).
  assert (Evx : forall x, teval Px x ==[q] poly_at (domain_poly q n) x * teval quo x + teval rem x).
  { intros x. destruct (mul_sparse_spec q dom quo Wd Wq) as [pr [_ [Wp [Cp _]]]].
    rewrite (teval_add q pr rem Px x Wp Wr WP).
    - rewrite (teval_mul q dom quo pr x Wd Wq Wp Cp), Ev. reflexivity.
    - intros k. assert (A := C (N.to_nat k)). rewrite <- Cp in A. unfold tc in A. now rewrite Nnat.N2Nat.id in A. }
  exists dom, quo, rem. split; auto. split.
  { intros fuel Hf. eapply divide_sparse_mono; eauto. }
  split; auto. split; auto. split; [|split; auto].
  - destruct (max_node quo) as [d v] eqn:Eq. destruct (max_node_spec quo (lookup quo) (wf_rep quo Wq)) as [[_ [_ Z0]]|[d' [v' [Em [Lk [Hv M]]]]]].
    { intros k _. apply Z0. }
    rewrite Eq in Em. injection Em as <- <-.
    assert (Bq : below (tc quo) (S (N.to_nat d))).
    { eapply below_le; [apply below_max; auto|]. unfold max_power. rewrite Eq. cbn. lia. }
    assert (Td : tc quo (N.to_nat d) = v) by (unfold tc; now rewrite Nnat.N2Nat.id).
    assert (Hd : (n + N.to_nat d < 2 * n - 1)%nat).
    { destruct (Nat.lt_ge_cases (n + N.to_nat d) (2 * n - 1)) as [|H]; auto. exfalso.
      assert (A := C (n + N.to_nat d)%nat). rewrite (BP _ H), (Br (n + N.to_nat d)%nat), fconv_top, Tb, Td in A by (auto; lia).
      rewrite Vb in A. apply Hv. assert (R := Cq d). rewrite Lk in R. symmetry in A. rewrite Z.mul_1_l, Z.add_0_r in A.
      apply cong_canon_unique in A; lia. }
    eapply below_le; [exact Bq|lia].
  - assert (Rt : forall i, (i < n)%nat -> poly_at (domain_poly q n) (Z.of_nat i) ==[q] 0).
    { intros i Hi. apply domain_root_iff; auto. exists i. split; [exact Hi|reflexivity]. }
    split.
    + intros S i Hi. rewrite Evx, Rt by auto. assert (Z0 := size_empty rem S).
      rewrite (teval_fval rem _ n Wr Br). unfold fval. rewrite zsum_map_0; [apply cong_eq; ring|]. intros k _. unfold tc. rewrite Z0. ring.
    + intros H. apply empty_size; auto. intros k. apply Zr.
      assert (P : peq q (dense (tc rem) n) []).
      { apply (interp_unique q n); auto; [rewrite dense_length; lia|cbn; lia|]. intros i Hi. rewrite poly_at_nil, <- (teval_poly rem _ n Wr Br).
        assert (A := Evx (Z.of_nat i)). rewrite (H i Hi), Rt in A by auto. rewrite A. apply cong_eq; ring. }
      assert (A := P (N.to_nat k)). rewrite coef_nil, dense_coef_below in A by auto. unfold tc in A. now rewrite Nnat.N2Nat.id in A.
Qed.
End Fixed.

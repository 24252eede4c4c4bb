(** Proofs about the sparse systems of SnarkModel: the keys and honest proofs. *)
Require Import ZArith Znumtheory NArith Bool Ascii String Lia Setoid Morphisms List.
Require Import Verif.Cong Verif.FqModel Verif.FqSpec Verif.FqProofs Verif.PolyModel Verif.PolyProofs Verif.InterpProofs.
Require Import Verif.AvlModel Verif.AvlSpec Verif.AvlProofs Verif.SparseModel Verif.SparseSpec Verif.SparseProofs Verif.SparseProofs2.
Require Import Verif.FactorModel Verif.R1csModel Verif.R1csSpec Verif.SnarkModel Verif.SnarkSpec.
Require Import Verif.SnarkProofs Verif.SnarkProofs2 Verif.SnarkProofs3 Verif.SparseSnarkSpec Verif.SparseSnarkProofs.
Import ListNotations.
Open Scope Z_scope.

Lemma zsum_exchange {A B} (f : A -> B -> Z) (la : list A) (lb : list B) :
  zsum (map (fun i => zsum (map (f i) lb)) la) = zsum (map (fun j => zsum (map (fun i => f i j) la)) lb).
Proof.
  induction la as [|a la IH]; cbn [map zsum].
  - symmetry. apply zsum_map_0. reflexivity.
  - rewrite IH, <- zsum_map_add. reflexivity.
Qed.

Section Fixed.
Variable q : Z.
Hypothesis Pq : prime q.
Variable G : groups.
Local Notation gx := (gxc G).
Let q1 : 1 < q.
Proof. destruct Pq; lia. Qed.

(** ** Keys, for any way of evaluating polynomials *)
Section Keys.
Context {A : Type} (ev : A -> Z -> option Z) (val : A -> Z) (d : A) (x al be : Z).
Definition evaluates (ps : list A) : Prop := Forall (fun p => exists v, ev p x = Some v /\ 0 <= v /\ v ==[q] val p) ps.

Lemma wire_keys_gen ls rs es os n : forall i,
  (i + n <= List.length ls)%nat -> (i + n <= List.length rs)%nat -> (i + n <= List.length es)%nat -> (i + n <= List.length os)%nat ->
  evaluates ls -> evaluates rs -> evaluates es -> evaluates os ->
  exists ks, wire_keys q ev n i x al be ls rs es os = Some ks /\ List.length ks = n /\
    Forall (fun k => 0 <= fst (fst (fst k)) /\ 0 <= snd (fst (fst k)) /\ 0 <= snd (fst k) /\ 0 <= snd k) ks /\
    forall t, (t < n)%nat ->
      let k := nth t ks (0, 0, 0, 0) in
      fst (fst (fst k)) ==[q] val (nth (i + t) es d) /\
      snd (fst (fst k)) ==[q] val (nth (i + t) es d) + val (nth (i + t) ls d) /\
      snd (fst k) ==[q] val (nth (i + t) rs d) /\
      snd k ==[q] al * val (nth (i + t) rs d) + be * val (nth (i + t) ls d) + be * val (nth (i + t) es d) + val (nth (i + t) os d).
Proof.
  induction n as [|n IH]; intros i A1 A2 A3 A4 F1 F2 F3 F4; cbn [wire_keys].
  - exists []. split; auto. split; auto. split; auto. intros; lia.
  - assert (Ev : forall ps, (i + S n <= List.length ps)%nat -> evaluates ps ->
      exists v, match nth_error ps i with Some p => ev p x | None => None end = Some v /\ 0 <= v /\ v ==[q] val (nth i ps d)).
    { intros ps L F. assert (Hi : (i < List.length ps)%nat) by lia. rewrite (nth_error_nth' ps d Hi).
      unfold evaluates in F. rewrite Forall_forall in F. apply F. now apply nth_In. }
    destruct (Ev ls) as [l [-> [l1 l2]]]; auto. destruct (Ev rs) as [r [-> [r1 r2]]]; auto.
    destruct (Ev es) as [e [-> [e1 e2]]]; auto. destruct (Ev os) as [o [-> [o1 o2]]]; auto.
    cbn [wire_key]. destruct (IH (S i)) as [ks [E [L [F H]]]]; auto; try lia. rewrite E.
    assert (Hmod : forall a, 0 <= a mod q) by (intros; apply Z.mod_pos_bound; lia).
    eexists. split; [reflexivity|]. split; [cbn; lia|]. split.
    + constructor; auto. cbn [fst snd]. repeat split; auto; apply Hmod.
    + intros [|t] Ht; cbn [nth].
      * cbn [fst snd]. rewrite Nat.add_0_r. unfold fcopy. rewrite !fadd_cong, !fmul_cong, cong_mod, l2, r2, e2, o2.
        repeat split; apply cong_eq; ring.
      * replace (i + S t)%nat with (S i + t)%nat by lia. apply H. lia.
Qed.

Lemma setup_keys_gen n m pub ls rs es os ga de :
  (1 <= n)%nat -> List.length ls = m -> List.length rs = m -> List.length es = m -> List.length os = m -> (pub < m)%nat ->
  evaluates ls -> evaluates rs -> evaluates es -> evaluates os -> ~ ga ==[q] 0 -> ~ de ==[q] 0 ->
  exists k, setup_keys q G ev pub n m ls rs es os x al be ga de = Some k /\
  exists vr ve vle vk pd id ig dx,
    (forall w, dot vr w ==[q] dot (map val rs) w) /\ (forall w, dot ve w ==[q] dot (map val es) w) /\
    Forall (Z.le 0) vr /\ Forall (Z.le 0) ve /\ Forall (Z.le 0) vle /\ Forall (Z.le 0) vk /\ Forall (Z.le 0) pd /\
    0 <= id /\ 0 <= ig /\ de * id ==[q] 1 /\ ga * ig ==[q] 1 /\ dx ==[q] poly_at (domain_poly q n) x /\
    List.length vr = m /\ List.length ve = m /\ List.length vle = m /\ List.length vk = m /\ List.length pd = n /\
    (forall w, dot vle w ==[q] dot (map val ls) w + dot (map val es) w) /\
    (forall w, dot vk w ==[q] al * dot (map val rs) w + be * dot (map val ls) w + be * dot (map val es) w + dot (map val os) w) /\
    (forall v, (List.length v <= n)%nat -> dot pd v ==[q] dx * id * poly_at v x) /\
    k = {| domain := domain_poly q n; eGH := pair G (base1 G 1) (base2 G 1); eGHab := pair G (base1 G al) (base2 G be);
           rleo_delta := map (base1 G) (map (fun t => fmul q id t) (skipn pub vk));
           alpha1 := base1 G al; beta1 := base1 G be; delta1 := base1 G de;
           rleo_gamma := map (base1 G) (map (fun t => fmul q ig t) (firstn pub vk));
           powers1 := base1 G 1 :: map (base1 G) (powers q (n - 1) x x);
           powers_domain_delta := map (base1 G) pd; lx_ex := map (base1 G) vle; ex := map (base1 G) ve;
           beta2 := base2 G be; gamma2 := base2 G ga; delta2 := base2 G de;
           powers2 := base2 G 1 :: map (base2 G) (powers q (n - 1) x x); rx := map (base2 G) vr |}.
Proof.
  intros Hn M1 M2 M3 M4 Hp F1 F2 F3 F4 Nga Nde. unfold setup_keys.
  rewrite M1, M2, M3, M4, Nat.eqb_refl. cbn [andb]. destruct (Nat.leb_spec m pub) as [?|_]; [lia|].
  assert (Ld := domain_length q n ltac:(lia)).
  destruct (feval_poly q (domain_poly q n) x) as [dx|] eqn:Ed.
  2:{ apply feval_poly_None in Ed. rewrite Ed in Ld. cbn in Ld. lia. }
  assert (HEd : dx ==[q] poly_at (domain_poly q n) x).
  { destruct (domain_poly q n) as [|c0 [|c1 v]]; cbn in Ld; try lia. now apply feval_poly_cong. }
  destruct (finv_prime q de Pq Nde) as [id [-> [Ri Hi]]]. destruct (finv_prime q ga Pq Nga) as [ig [-> [Rg Hg]]].
  destruct (wire_keys_gen ls rs es os m 0) as [ks [-> [Lk [Fk Hk]]]]; try lia; eauto.
  eexists. split; [reflexivity|].
  set (ve := map (fun k : Z * Z * Z * Z => fst (fst (fst k))) ks).
  set (vle := map (fun k : Z * Z * Z * Z => snd (fst (fst k))) ks).
  set (vr := map (fun k : Z * Z * Z * Z => snd (fst k)) ks).
  set (vk := map (fun k : Z * Z * Z * Z => snd k) ks).
  set (vl := map val ls). set (vo := map val os). set (wr := map val rs). set (we := map val es).
  set (dxd := fmul q id dx).
  set (pd := dxd :: map (fun t => fmul q t dxd) (powers q (n - 1) x x)).
  assert (Np : forall (f : Z * Z * Z * Z -> Z) t, (t < m)%nat -> nth t (map f ks) 0 = f (nth t ks (0, 0, 0, 0))).
  { intros f t Ht. rewrite (nth_indep _ 0 (f (0, 0, 0, 0))) by (rewrite map_length; lia). apply map_nth. }
  assert (Nv : forall ps t, (t < List.length ps)%nat -> nth t (map val ps) 0 = val (nth t ps d)).
  { intros ps t Ht. rewrite (nth_indep _ 0 (val d)) by (rewrite map_length; lia). apply map_nth. }
  exists vr, ve, vle, vk, pd, id, ig, dx.
  assert (Lvl : List.length vl = m) by (unfold vl; rewrite map_length; lia).
  assert (Lvo : List.length vo = m) by (unfold vo; rewrite map_length; lia).
  assert (Lwr : List.length wr = m) by (unfold wr; rewrite map_length; lia).
  assert (Lwe : List.length we = m) by (unfold we; rewrite map_length; lia).
  assert (Lvr : List.length vr = m) by (unfold vr; rewrite map_length; lia).
  assert (Lve : List.length ve = m) by (unfold ve; rewrite map_length; lia).
  assert (Lvle : List.length vle = m) by (unfold vle; rewrite map_length; lia).
  assert (Lvk : List.length vk = m) by (unfold vk; rewrite map_length; lia).
  split.
  { intros w. apply dot_cong_nth; [lia|]. intros j Hj. unfold vr, wr. rewrite Np, Nv by lia. destruct (Hk j) as [_ [_ [B _]]]; [lia|]. exact B. }
  split.
  { intros w. apply dot_cong_nth; [lia|]. intros j Hj. unfold ve, we. rewrite Np, Nv by lia. destruct (Hk j) as [B _]; [lia|]. exact B. }
  assert (Fm : forall f : Z * Z * Z * Z -> Z, (forall k, In k ks -> 0 <= f k) -> Forall (Z.le 0) (map f ks)).
  { intros f H. apply Forall_forall. intros v Hv. apply in_map_iff in Hv. destruct Hv as [k [<- Hkk]]. auto. }
  rewrite Forall_forall in Fk.
  assert (Hdxd : 0 <= dxd) by (apply Z.mod_pos_bound; lia).
  split; [apply Fm; intros; apply Fk; auto|]. split; [apply Fm; intros; apply Fk; auto|].
  split; [apply Fm; intros; apply Fk; auto|]. split; [apply Fm; intros; apply Fk; auto|].
  split.
  { constructor; auto. apply Forall_forall. intros v Hv. apply in_map_iff in Hv. destruct Hv as [t [<- _]]. apply Z.mod_pos_bound; lia. }
  split; [lia|]. split; [lia|]. split; auto. split; auto. split; [exact HEd|].
  split; auto. split; auto. split; auto. split; auto.
  split; [unfold pd; cbn; rewrite map_length, powers_length; lia|].
  split; [|split; [|split]].
  - intros w. assert (D : forall a b c : list Z, List.length a = m -> List.length b = m -> List.length c = m ->
      (forall j, (j < m)%nat -> nth j a 0 ==[q] nth j b 0 + nth j c 0) -> dot a w ==[q] dot b w + dot c w).
    { clear. revert w. induction m as [|m' IH]; intros w [|a0 a] [|b0 b] [|c0 c] A' B C H; cbn in A', B, C; try lia; [reflexivity|].
      destruct w as [|z w]; cbn; [reflexivity|]. rewrite (IH w a b c), (H 0%nat); try lia.
      - cbn. apply cong_eq; ring.
      - intros j Hj. apply (H (S j)). lia. }
    apply D; auto. intros j Hj. unfold vle, vl, we. rewrite !Np, !Nv by lia. destruct (Hk j) as [B1 [B2 _]]; [lia|].
    cbn [Nat.add] in B2. rewrite B2. apply cong_eq; ring.
  - intros w. assert (D : forall a b c d e : list Z, List.length a = m -> List.length b = m -> List.length c = m -> List.length d = m -> List.length e = m ->
      (forall j, (j < m)%nat -> nth j a 0 ==[q] al * nth j b 0 + be * nth j c 0 + be * nth j d 0 + nth j e 0) ->
      dot a w ==[q] al * dot b w + be * dot c w + be * dot d w + dot e w).
    { clear. revert w. induction m as [|m' IH]; intros w [|a0 a] [|b0 b] [|c0 c] [|d0 dd] [|e0 e] A' B C D E H; cbn in A', B, C, D, E; try lia;
        [apply cong_eq; cbn; ring|].
      destruct w as [|z w]; cbn; [apply cong_eq; ring|]. rewrite (IH w a b c dd e), (H 0%nat); try lia.
      - cbn. apply cong_eq; ring.
      - intros j Hj. apply (H (S j)). lia. }
    apply D; auto. intros j Hj. unfold vk, vl, we, wr, vo. rewrite !Np, !Nv by lia. destruct (Hk j) as [_ [_ [_ B4]]]; [lia|].
    cbn [Nat.add] in B4. rewrite B4. reflexivity.
  - intros v Lv. unfold pd. destruct v as [|c0 v]; cbn [dot]; [apply cong_eq; rewrite poly_at_nil; ring|].
    cbn in Lv. rewrite dot_scale_r, dot_powers by lia. rewrite poly_at_cons. unfold dxd. rewrite fmul_cong. apply cong_eq; ring.
  - unfold ve, vr, vle, vk, pd, dxd. cbn [map]. rewrite !map_map. rewrite skipn_map, firstn_map, !map_map. reflexivity.
Qed.
End Keys.

(** ** The sparse setup *)
Definition pol_ok m (c p : tree) : Prop := wf p /\ ctree q p /\ below (tc p) m /\ forall i, (i < m)%nat -> teval p (Z.of_nat i) ==[q] tc c i.
Lemma interpolations_spec m : (1 <= m)%nat -> Z.of_nat m <= q -> forall cols c, scache_ok q c -> Forall wf cols -> Forall (fun t => below (tc t) m) cols ->
  exists ps c', interpolations q c m cols = Some (ps, c') /\ scache_ok q c' /\ Forall2 (pol_ok m) cols ps.
Proof.
  intros Hm Hq. induction cols as [|t cols IH]; intros c Hc F1 F2; cbn [interpolations].
  - exists [], c. auto.
  - inversion F1; inversion F2; subst. destruct (interpolate_spec q c t m Pq Hq Hc) as [p [c1 [-> [Hc1 [Wp [Cp [Bp Vp]]]]]]]; auto.
    destruct (IH c1 Hc1) as [ps [c2 [-> [Hc2 F]]]]; auto. exists (p :: ps), c2. split; auto. split; auto. constructor; auto. unfold pol_ok; auto.
Qed.
Lemma pols_evaluate m x cols ps : 0 <= x < q -> Forall2 (pol_ok m) cols ps -> evaluates (eval_sparse q) (fun p => teval p x) x ps.
Proof.
  intros Hx F. induction F as [|c p cols ps [Wp [Cp [Bp _]]] _ IH]; constructor; auto.
  assert (X : x = 0 \/ ~ x ==[q] 0).
  { destruct (Z.eq_dec x 0) as [|H]; auto. right. intros E. apply cong_canon_unique in E; lia. }
  destruct (eval_sparse_spec q p x m ltac:(lia) Wp Bp X) as [v [E [V R]]]. exists v. split; auto.
  rewrite (teval_fval p x m Wp Bp). split; auto. destruct (Z.eq_dec x 0) as [->|H]; [|apply R; auto].
  unfold eval_sparse in E. rewrite Z.eqb_refl in E. injection E as <-. apply Cp.
Qed.

Variable s : er1cs tree.
Hypothesis W : sparse_sized s.
Local Notation n := (List.length (rows s)).
Local Notation m := (List.length (index_map s)).

Lemma padded_length k l : (List.length l <= k)%nat -> List.length (padded k l) = k.
Proof. intros H. unfold padded. rewrite app_length, repeat_length. lia. Qed.
Lemma padded_nth k l i : nth i (padded k l) 0 = nth i l 0.
Proof.
  unfold padded. destruct (Nat.lt_ge_cases i (List.length l)) as [H|H]; [now rewrite app_nth1|]. rewrite app_nth2 by auto.
  rewrite (nth_overflow l) by auto. apply nth_repeat.
Qed.
Lemma padded_same l : padded (List.length l) l = l.
Proof. unfold padded. rewrite Nat.sub_diag. apply app_nil_r. Qed.

(** The values of the column polynomials, weighted by w. *)
Lemma column_dot f cols ps w x p : side s f -> scols s f cols -> Forall2 (pol_ok m) cols ps -> List.length w = m -> (n <= m)%nat -> Z.of_nat m <= q ->
  interpolates q (padded m (row_values f w s)) p -> dot (map (fun p => teval p x) ps) w ==[q] poly_at p x.
Proof.
  intros Sf [L [_ [_ C]]] F Lw Hnm Hq [Lp Ip].
  assert (LV : List.length (row_values f w s) = n) by apply map_length. rewrite padded_length in Lp, Ip by lia.
  assert (Lps := Forall2_len _ _ _ F). rewrite L in Lps.
  assert (Wps : forall j, (j < m)%nat -> pol_ok m (nth j cols Leaf) (nth j ps Leaf)) by (intros j Hj; apply Forall2_nth; auto; lia).
  rewrite dot_sum by (rewrite map_length; lia). rewrite Lw.
  set (R := dense (fun k => zsum (map (fun j => nth j w 0 * tc (nth j ps Leaf) k) (seq 0 m))) m).
  assert (ER : forall y, poly_at R y = zsum (map (fun j => nth j w 0 * teval (nth j ps Leaf) y) (seq 0 m))).
  { intros y. unfold R. rewrite <- fval_dense. unfold fval.
    transitivity (zsum (map (fun i => zsum (map (fun j => nth j w 0 * tc (nth j ps Leaf) i * y ^ Z.of_nat i) (seq 0 m))) (seq 0 m))).
    - apply zsum_map_ext. intros i _. rewrite Z.mul_comm, <- zsum_map_scale. apply zsum_map_ext. intros j _. ring.
    - rewrite (zsum_exchange (fun i j => nth j w 0 * tc (nth j ps Leaf) i * y ^ Z.of_nat i)). apply zsum_map_ext. intros j Hj. apply in_seq in Hj.
      destruct (Wps j ltac:(lia)) as [Wp [_ [Bp _]]]. rewrite (teval_fval _ y m Wp Bp). unfold fval. rewrite <- zsum_map_scale.
      apply zsum_map_ext. intros i _. ring. }
  transitivity (poly_at R x).
  { rewrite ER. apply cong_eq. apply zsum_map_ext. intros j Hj. apply in_seq in Hj.
    rewrite (nth_indep (map (fun p => teval p x) ps) 0 (teval Leaf x)) by (rewrite map_length; lia). now rewrite (map_nth (fun p => teval p x) ps Leaf j). }
  apply poly_at_peq. apply (interp_unique q m); auto; [unfold R; rewrite dense_length; lia|]. intros i Hi.
  rewrite Ip, ER, padded_nth by lia.
  transitivity (zsum (map (fun j => tc (nth i (map f (rows s)) Leaf) j * nth j w 0) (seq 0 m))).
  - apply zsum_map_cong. intros j Hj. apply in_seq in Hj. destruct (Wps j ltac:(lia)) as [_ [_ [_ V]]]. rewrite V, C by lia. apply cong_eq; ring.
  - apply cong_eq. destruct (side_nth s f Sf i) as [Wi Bi]. rewrite <- (edot_tree _ w m Wi Bi).
    destruct (nth_error (rows s) i) as [r|] eqn:Er.
    + rewrite (nth_leaf f _ i r Er). symmetry. now apply row_values_nth.
    + apply nth_error_None in Er. rewrite !nth_overflow by (rewrite ?LV, ?map_length; auto). reflexivity.
Qed.

(** ** Honest proofs *)
Hypothesis Laws : lawful q G.
Variable T : columns tree.
Hypothesis ET : transpose_sparse_er1cs s = Some T.
Hypothesis N1 : (1 <= n)%nat.
Hypothesis Nm : (n <= m)%nat.
Hypothesis Nq : Z.of_nat m <= q.

Lemma entries_exp pd : Forall (Z.le 0) pd -> forall es, Forall (fun e => (N.to_nat (fst e) < List.length pd)%nat /\ 0 <= snd e) es -> forall a, 0 <= a ->
  (forall ts, entry_terms (smul1 G) (map (base1 G) pd) es = Some ts -> sum_if (apart (base1 G 0)) (acc1 G) (base1 G a) ts) ->
  sparse_msm G (map (base1 G) pd) es (base1 G a) = Some (base1 G (a + zsum (map (fun e => snd e * nth (N.to_nat (fst e)) pd 0) es))).
Proof.
  intros Hpd. induction es as [|[k v] es IH]; intros F a Ha S; cbn [sparse_msm map zsum].
  - now rewrite Z.add_0_r.
  - inversion F as [|? ? [Hk Hv] F']; subst. cbn [fst snd] in *. cbn [entry_terms] in S.
    rewrite (map_nth_error (base1 G) _ _ (nth_error_nth' pd 0 Hk)) in *.
    assert (Hp : 0 <= nth (N.to_nat k) pd 0) by (rewrite Forall_forall in Hpd; apply Hpd; now apply nth_In).
    assert (Et : exists ts, entry_terms (smul1 G) (map (base1 G) pd) es = Some ts).
    { clear - F'. induction F' as [|[k v] es [Hk _] _ IH]; [now exists []|]. cbn [entry_terms fst] in *.
      rewrite (map_nth_error (base1 G) _ _ (nth_error_nth' pd 0 Hk)). destruct IH as [ts ->]. eauto. }
    destruct Et as [ts Et]. rewrite Et in S. specialize (S _ eq_refl). cbn [sum_if] in S.
    rewrite (law_smul1 q G Laws) in * by auto. destruct S as [S1 S2]. rewrite (law_acc1 q G Laws) in * by (auto; nia).
    rewrite (IH F'); [|nia|intros ts' Et'; rewrite Et in Et'; injection Et' as <-; exact S2].
    do 2 f_equal. ring.
Qed.

Lemma rows_vanish w (Px : tree) : (forall i rw, nth_error (rows s) i = Some rw -> teval Px (Z.of_nat i) ==[q]
    edot (ascending (rl rw)) w * edot (ascending (rr rw)) w + gx (edot (ascending (re rw)) w mod q) - edot (ascending (ro rw)) w) ->
  ((forall i, (i < n)%nat -> teval Px (Z.of_nat i) ==[q] 0) <-> Forall (srow_ok q gx w) (rows s)).
Proof using Type.
  intros H. split.
  - intros A. apply Forall_forall. intros r Hr. destruct (In_nth_error _ _ Hr) as [i Hi].
    assert (Hl : (i < n)%nat) by (apply nth_error_Some; congruence). assert (B := A i Hl). rewrite (H i r Hi) in B.
    unfold srow_ok. now apply cong_sub_0.
  - intros F i Hi. destruct (nth_error (rows s) i) as [r|] eqn:Er; [|apply nth_error_None in Er; exfalso; exact (Nat.lt_irrefl _ (Nat.lt_le_trans _ _ _ Hi Er))].
    rewrite (H i r Er). apply -> cong_sub_0. rewrite Forall_forall in F. apply F. eapply nth_error_In; eauto.
Qed.

Theorem sparse_honest c c2 pub w x al be ga de :
  scache_ok q c -> scache_ok q c2 -> (1 <= pub)%nat -> (pub < m)%nat -> List.length w = m -> Forall (Z.le 0) w ->
  Forall (srow_ok q gx w) (rows s) ->
  0 <= x < q -> 0 <= al -> 0 <= be -> 0 <= ga -> 0 <= de -> ~ ga ==[q] 0 -> ~ de ==[q] 0 ->
  exists k c1 Px c3, generate_setup_sparse q G c pub T x al be ga de = Some (k, c1) /\
    combine_sparse_polynomials q G c2 w T = Some (Px, c3) /\
    (sparse_prover_safe q G pub k w Px -> verifier_safe G k (firstn pub w) ->
     exists p b, (forall fuel, (2 * n <= fuel)%nat -> generate_proofs_sparse q G fuel pub k w Px = Ret p) /\
     verify_proof G k p (firstn pub w) = Some b /\
     forall l r g o l' r' e' o', interpolates q (row_values rl w s) l -> interpolates q (row_values rr w s) r ->
       interpolates q (map (fun v => gx (v mod q)) (row_values re w s)) g -> interpolates q (row_values ro w s) o ->
       interpolates q (padded m (row_values rl w s)) l' -> interpolates q (padded m (row_values rr w s)) r' ->
       interpolates q (padded m (row_values re w s)) e' -> interpolates q (padded m (row_values ro w s)) o' ->
       (b = true <-> poly_at l' x * poly_at r' x + gx (poly_at e' x mod q) - poly_at o' x ==[q]
                     poly_at l x * poly_at r x + poly_at g x - poly_at o x)).
Proof.
  intros Hc Hc2 Hp1 Hp Lw Hw SAT Hx Hal Hbe Hga Hde Nga Nde.
  assert (X0 : gx 0 = 0) by apply (law_x0 q G Laws).
  destruct (columns_spec s W) as [T' [E' [T1 [T2 [TL [TR [TE TO]]]]]]]. rewrite ET in E'. injection E' as <-.
  destruct (sides s W) as [S1 [S2 [S3 S4]]].
  assert (Bc : forall f cols, scols s f cols -> Forall (fun t => below (tc t) m) cols).
  { intros f cols [_ [_ [B _]]]. eapply Forall_impl; [|exact B]. intros t Bt. exact (below_le _ n m Bt Nm). }
  destruct (interpolations_spec m ltac:(lia) Nq (cl T) c Hc) as [pl [c1 [E1 [C1 F1]]]]; [apply TL|eapply Bc; eauto|].
  destruct (interpolations_spec m ltac:(lia) Nq (cr T) c1 C1) as [pr [c2' [E2 [C2 F2]]]]; [apply TR|eapply Bc; eauto|].
  destruct (interpolations_spec m ltac:(lia) Nq (ce T) c2' C2) as [pe [c3' [E3 [C3 F3]]]]; [apply TE|eapply Bc; eauto|].
  destruct (interpolations_spec m ltac:(lia) Nq (co T) c3' C3) as [po [c4' [E4 [C4 F4]]]]; [apply TO|eapply Bc; eauto|].
  assert (L1 : List.length pl = m) by (rewrite <- (Forall2_len _ _ _ F1); apply TL).
  assert (L2 : List.length pr = m) by (rewrite <- (Forall2_len _ _ _ F2); apply TR).
  assert (L3 : List.length pe = m) by (rewrite <- (Forall2_len _ _ _ F3); apply TE).
  assert (L4 : List.length po = m) by (rewrite <- (Forall2_len _ _ _ F4); apply TO).
  destruct (setup_keys_gen (eval_sparse q) (fun p => teval p x) Leaf x al be n m pub pl pr pe po ga de N1 L1 L2 L3 L4 Hp)
    as (k & EK & vr & ve & vle & vk & pd & id & ig & dx & Vr & Ve & Pr & Pe & Ple & Pk' & Ppd & Hid & Hig & Eid & Eig & Edx & Lvr & Lve & Lle & Lk & Lpd & Dle & Dk & Dpd & K);
    try (eapply pols_evaluate; eauto); auto.
  destruct (combine_sparse_spec q Pq G s W T c2 w ET X0 N1 ltac:(lia) Hc2 Lw)
    as (Px & c3 & EP & Hc3 & WP & CP & BP & l & r & g & o & Il & Ir & Ig & Io & EvP).
  exists k, c4', Px, c3. split.
  { unfold generate_setup_sparse, er1cs_to_eap_sparse. rewrite (proj1 TL), (proj1 TR), (proj1 TE), (proj1 TO), Nat.leb_refl. cbn [andb].
    rewrite T2, T1, E1. rewrite !firstn_all2 by (rewrite ?(proj1 TR), ?(proj1 TE), ?(proj1 TO); lia). rewrite E2, E3, E4, EK. reflexivity. }
  split; auto. intros PS VS.
  assert (Gate := gate_value q G s w l r g o Px Il Ir Ig Io EvP).
  destruct (divide_domain q Pq s Px N1 ltac:(lia) WP CP BP) as (dom & quo & rem & Ed & EQ & Wq & Cq & Bq & EvQ & Iff).
  assert (SZ : size rem = 0%nat) by (apply Iff; now apply (rows_vanish w Px Gate)).
  assert (Zr : forall y, teval rem y = 0) by (intros y; destruct rem; [reflexivity|cbn in SZ; lia]).
  set (v := dense (tc quo) n).
  assert (Lv : List.length v = n) by (apply dense_length).
  assert (Bqn : below (tc quo) n) by (eapply below_le; eauto; lia).
  assert (Ent : Forall (fun e => (N.to_nat (fst e) < List.length pd)%nat /\ 0 <= snd e) (ascending quo)).
  { apply Forall_forall. intros [key z] Hi. cbn [fst snd]. assert (Lz := lookup_entry quo key z (proj1 Wq) Hi). split; [|rewrite <- Lz; apply Cq].
    rewrite Lpd. destruct (Nat.lt_ge_cases (N.to_nat key) n) as [|H]; auto. exfalso. assert (Z0 := Bqn _ H). unfold tc in Z0. rewrite Nnat.N2Nat.id in Z0.
    destruct Wq as [_ [_ Nz]]. rewrite Forall_forall in Nz. apply (Nz _ Hi). cbn. congruence. }
  assert (Sum : zsum (map (fun e => snd e * nth (N.to_nat (fst e)) pd 0) (ascending quo)) = dot pd v).
  { rewrite (tree_sum quo (fun i => nth i pd 0) n (proj1 Wq) Bqn). rewrite dot_sum by lia. rewrite Lv. apply zsum_map_ext. intros i Hi. apply in_seq in Hi.
    f_equal. assert (D := dense_coef_below (tc quo) n i Bqn). unfold coef in D. now rewrite <- D. }
  destruct PS as [PA [PB [PE PQ]]].
  subst k. cbn [lx_ex alpha1 rx ex domain powers_domain_delta rleo_delta rleo_gamma] in *.
  destruct (PQ (2 * n)%nat dom quo rem Ed (EQ _ (le_n _))) as [PQ1 PQ2]. clear PQ.
  assert (MQ : sparse_msm G (map (base1 G) pd) (ascending quo) (base1 G 0) = Some (base1 G (dot pd v))).
  { rewrite (entries_exp pd Ppd (ascending quo) Ent 0 ltac:(lia)); [now rewrite Sum|]. intros ts Ets. exact (PQ1 ts Ets). }
  assert (Nw : w <> []) by (destruct w; [cbn in *; lia|discriminate]).
  destruct (msm_exp_app (smul1 G) (acc1 G) (base1 G) (apart (base1 G 0)) (law_smul1 q G Laws) (law_acc1 q G Laws) vle w al) as [MA MA']; auto; [lia|].
  assert (MB : msm (smul2 G) (acc2 G) (map (base2 G) vr) w = Some (base2 G (dot vr w))).
  { apply (msm_exp (smul2 G) (acc2 G) (base2 G) (apart (base2 G 0)) (law_smul2 q G Laws) (law_acc2 q G Laws)); auto. lia. }
  assert (ME : msm (smul1 G) (acc1 G) (map (base1 G) ve) w = Some (base1 G (dot ve w))).
  { apply (msm_exp (smul1 G) (acc1 G) (base1 G) (apart (base1 G 0)) (law_smul1 q G Laws) (law_acc1 q G Laws)); auto. lia. }
  set (vd := map (fun t => fmul q id t) (skipn pub vk)) in *. set (vg := map (fun t => fmul q ig t) (firstn pub vk)) in *.
  assert (Hvd : Forall (Z.le 0) vd) by (apply Forall_fmul; auto). assert (Hvg : Forall (Z.le 0) vg) by (apply Forall_fmul; auto).
  assert (Lvd : List.length vd = (m - pub)%nat) by (unfold vd; rewrite map_length, skipn_length; lia).
  assert (Lvg : List.length vg = pub) by (unfold vg; rewrite map_length, firstn_length; lia).
  assert (Hs := Forall_skipn _ pub w Hw). assert (Hf := Forall_firstn _ pub w Hw).
  assert (Ls : List.length (skipn pub w) = (m - pub)%nat) by (rewrite skipn_length; lia).
  assert (Lf : List.length (firstn pub w) = pub) by (rewrite firstn_length; lia).
  assert (Hv : Forall (Z.le 0) v).
  { apply Forall_forall. intros z Hz. unfold v, dense in Hz. apply in_map_iff in Hz. destruct Hz as [i [<- _]]. apply Cq. }
  assert (HpQ : 0 <= dot pd v) by (apply dot_nonneg; auto).
  destruct (msm_exp_app (smul1 G) (acc1 G) (base1 G) (apart (base1 G 0)) (law_smul1 q G Laws) (law_acc1 q G Laws) vd (skipn pub w) (dot pd v)) as [MC MC']; auto;
    try lia; try (destruct (skipn pub w); [cbn in Ls; lia|discriminate]); try (intros ts Ets; apply (PQ2 ts _ Ets MQ)).
  assert (MI : msm (smul1 G) (acc1 G) (map (base1 G) vg) (firstn pub w) = Some (base1 G (dot vg (firstn pub w)))).
  { apply (msm_exp (smul1 G) (acc1 G) (base1 G) (apart (base1 G 0)) (law_smul1 q G Laws) (law_acc1 q G Laws)); auto; [lia|].
    destruct (firstn pub w); [cbn in Lf; lia|discriminate]. }
  set (A := dot vle w + al) in *. set (B := dot vr w) in *. set (F := dot ve w) in *. set (C := dot vd (skipn pub w) + dot pd v) in *.
  set (IC := dot vg (firstn pub w)) in *.
  eexists (Proof G (base1 G A) (base2 G B) (base1 G C) (base1 G F)).
  match goal with |- context [verify_proof G ?k _ _] => set (K := k) end.
  destruct (verify_exp q Pq G Laws K (firstn pub w) A B C F IC al be ga de) as [b [EV Ib]]; auto; try reflexivity;
    try (unfold A; assert (0 <= dot vle w) by (apply dot_nonneg; auto); lia);
    try (apply dot_nonneg; auto);
    try (unfold C; assert (0 <= dot vd (skipn pub w)) by (apply dot_nonneg; auto); lia).
  { unfold K. cbn [rleo_gamma]. rewrite map_length. lia. }
  exists b. split; [|split; auto].
  - intros fuel Hfu. unfold generate_proofs_sparse, K. cbn [domain powers_domain_delta]. rewrite Ed, (EQ fuel Hfu), SZ. cbn [Nat.ltb Nat.leb].
    rewrite MQ. unfold assemble. cbn [lx_ex rx rleo_delta ex alpha1].
    rewrite MA, MB, MC, ME. fold A B F C. now rewrite MA', MC'.
  - intros l0 r0 g0 o0 l' r' e' o' Jl Jr Jg Jo Kl Kr Ke Ko. rewrite Ib.
    assert (LV : forall f, List.length (row_values f w s) = n) by (intros; apply map_length).
    assert (Ul : poly_at l0 x ==[q] poly_at l x) by (apply (interpolates_value q (row_values rl w s)); auto; rewrite LV; lia).
    assert (Ur : poly_at r0 x ==[q] poly_at r x) by (apply (interpolates_value q (row_values rr w s)); auto; rewrite LV; lia).
    assert (Uo : poly_at o0 x ==[q] poly_at o x) by (apply (interpolates_value q (row_values ro w s)); auto; rewrite LV; lia).
    assert (Ug : poly_at g0 x ==[q] poly_at g x) by (eapply interpolates_value; eauto; rewrite map_length, LV; lia).
    rewrite Ul, Ur, Uo, Ug. clear Ul Ur Uo Ug Jl Jr Jg Jo l0 r0 g0 o0.
    assert (VL := column_dot rl (cl T) pl w x l' S1 TL F1 Lw Nm Nq Kl). assert (VR := column_dot rr (cr T) pr w x r' S2 TR F2 Lw Nm Nq Kr).
    assert (VE := column_dot re (ce T) pe w x e' S3 TE F3 Lw Nm Nq Ke). assert (VO := column_dot ro (co T) po w x o' S4 TO F4 Lw Nm Nq Ko).
    assert (BR : B ==[q] poly_at r' x) by (unfold B; rewrite Vr; exact VR).
    assert (FE : F ==[q] poly_at e' x) by (unfold F; rewrite Ve; exact VE).
    assert (XF : gx F = gx (poly_at e' x mod q)).
    { unfold gxc. f_equal. apply (law_base1 q G Laws); [apply dot_nonneg; auto|apply Z.mod_pos_bound; lia|]. rewrite FE. symmetry. apply cong_mod. }
    assert (KS := key_split q vk pub w id ig _ de ga Eid Eig ltac:(symmetry; apply Dk)). fold vd vg IC in KS.
    assert (PQ : dot pd v * de ==[q] poly_at l x * poly_at r x + poly_at g x - poly_at o x).
    { rewrite (Dpd v ltac:(lia)). rewrite <- EvP, EvQ, Zr, Edx. rewrite (teval_poly quo x n Wq Bqn). fold v.
      replace (poly_at (domain_poly q n) x * id * poly_at v x * de) with (de * id * (poly_at (domain_poly q n) x * poly_at v x)) by ring.
      rewrite Eid. apply cong_eq; ring. }
    assert (AA : A ==[q] poly_at l' x + poly_at e' x + al). { unfold A. rewrite Dle, VL, VE. reflexivity. }
    assert (RHS : al * be + IC * ga + C * de + F * B ==[q]
      al * be + (al * poly_at r' x + be * poly_at l' x + be * poly_at e' x + poly_at o' x)
        + (poly_at l x * poly_at r x + poly_at g x - poly_at o x) + poly_at e' x * poly_at r' x).
    { unfold C. replace (al * be + IC * ga + (dot vd (skipn pub w) + dot pd v) * de + F * B)
        with (al * be + (IC * ga + dot vd (skipn pub w) * de) + dot pd v * de + F * B) by ring.
      rewrite KS, PQ, VL, VO, VR, VE, FE, BR. reflexivity. }
    rewrite RHS, AA, XF, BR.
    split; intros H; apply cong_sub_0; apply cong_sub_0 in H; rewrite <- H; apply cong_eq; ring.
Qed.
End Fixed.

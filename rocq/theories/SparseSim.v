(** Running the sparse part of SnarkModel with related groups: setup and prover give related results. *)
Require Import ZArith Znumtheory NArith Bool Ascii String Lia Setoid Morphisms List.
Require Import Verif.Cong Verif.FqModel Verif.FqSpec Verif.FqProofs Verif.PolyModel Verif.PolyProofs Verif.InterpProofs.
Require Import Verif.AvlModel Verif.AvlSpec Verif.AvlProofs Verif.SparseModel Verif.SparseSpec Verif.SparseProofs Verif.SparseProofs2.
Require Import Verif.FactorModel Verif.R1csModel Verif.R1csSpec Verif.SnarkModel Verif.SnarkSpec.
Require Import Verif.SnarkProofs Verif.SnarkProofs2 Verif.SnarkSim Verif.SparseSnarkSpec Verif.SparseSnarkProofs Verif.SparseSnarkProofs2.
Import ListNotations.
Open Scope Z_scope.

(** Both give related results, both panic or both are still running. *)
Definition out_rel {A B} (R : A -> B -> Prop) (a : outcome A) (b : outcome B) : Prop :=
  match a, b with Ret x, Ret y => R x y | Panic, Panic => True | Running, Running => True | _, _ => False end.

Definition nonneg_entries (es : list (N * Z)) : Prop := Forall (fun e => 0 <= snd e) es.
Lemma ctree_entries q t : wf t -> ctree q t -> nonneg_entries (ascending t).
Proof.
  intros W C. apply Forall_forall. intros [k v] H. assert (L := lookup_entry t k v (proj1 W) H). cbn [snd]. rewrite <- L. apply C.
Qed.

Section Sim.
Context (A B : groups) {R1 : G1 A -> G1 B -> Prop} {R2 : G2 A -> G2 B -> Prop} {RT : GT A -> GT B -> Prop} {ready : G2 A -> Prop} {ok1 : G1 A -> G1 A -> Prop} {ok2 : G2 A -> G2 A -> Prop}.
Hypothesis S : simulates A B R1 R2 RT ready ok1 ok2.
Local Notation krel := (key_rel R1 R2 RT ready).

Lemma entry_terms_sim ks ks' : Forall2 R1 ks ks' -> forall es, nonneg_entries es ->
  opt_rel (Forall2 R1) (entry_terms (smul1 A) ks es) (entry_terms (smul1 B) ks' es).
Proof.
  intros F. induction es as [|[k v] es IH]; intros P; cbn; [constructor|]. inversion P as [|? ? P1 P2]; subst. specialize (IH P2). cbn [snd] in P1.
  assert (H : opt_rel R1 (nth_error ks (N.to_nat k)) (nth_error ks' (N.to_nat k))).
  { generalize (N.to_nat k). clear IH. induction F as [|a b ks ks' X F IH]; intros [|i]; cbn; auto. }
  unfold opt_rel in *. destruct (nth_error ks _), (nth_error ks' _); try contradiction; [|exact I].
  destruct (entry_terms (smul1 A) ks es), (entry_terms (smul1 B) ks' es); try contradiction; [|exact I].
  constructor; auto. now apply (s_smul1 _ _ _ _ _ _ _ _ S).
Qed.
(** A sum of entries is the sum of its terms. *)
Lemma sparse_msm_terms (G : groups) keys es : forall s, sparse_msm G keys es s = option_map (fun ts => fold_left (acc1 G) ts s) (entry_terms (smul1 G) keys es).
Proof.
  induction es as [|[k v] es IH]; intros s; cbn; [reflexivity|]. destruct (nth_error keys _) as [p|]; [|reflexivity]. rewrite IH.
  destruct (entry_terms (smul1 G) keys es); reflexivity.
Qed.
Lemma sparse_msm_sim ks ks' es : Forall2 R1 ks ks' -> nonneg_entries es ->
  (forall ts, entry_terms (smul1 B) ks' es = Some ts -> sum_all (apart (base1 B 0)) (acc1 B) (base1 B 0 :: ts)) ->
  opt_rel R1 (sparse_msm A ks es (base1 A 0)) (sparse_msm B ks' es (base1 B 0)).
Proof.
  intros F P V. rewrite !sparse_msm_terms. assert (H := entry_terms_sim ks ks' F es P). unfold opt_rel in H.
  destruct (entry_terms (smul1 A) ks es) as [ts|], (entry_terms (smul1 B) ks' es) as [ts'|]; try contradiction; [|exact I].
  cbn [option_map opt_rel]. apply (fold_sim R1 (acc1 A) (acc1 B) (apart (base1 B 0)) (s_acc1 _ _ _ _ _ _ _ _ S) ts ts' H).
  - apply (s_base1 _ _ _ _ _ _ _ _ S). lia.
  - exact (V ts' eq_refl).
Qed.
Lemma entry_sums_iff ks ks' es : Forall2 R1 ks ks' -> nonneg_entries es ->
  ((forall ts, entry_terms (smul1 A) ks es = Some ts -> sum_all ok1 (acc1 A) (base1 A 0 :: ts)) <->
   (forall ts, entry_terms (smul1 B) ks' es = Some ts -> sum_all (apart (base1 B 0)) (acc1 B) (base1 B 0 :: ts))).
Proof.
  intros F P. assert (H := entry_terms_sim ks ks' F es P). unfold opt_rel in H.
  destruct (entry_terms (smul1 A) ks es) as [ts|], (entry_terms (smul1 B) ks' es) as [ts'|]; try contradiction; [|split; intros _ ? E; discriminate E].
  assert (B0 := s_base1 _ _ _ _ _ _ _ _ S 0 (Z.le_refl 0)).
  assert (Q := sum_all_sim R1 (acc1 A) (acc1 B) (apart (base1 B 0)) (s_acc1 _ _ _ _ _ _ _ _ S) ok1 (s_ok1 _ _ _ _ _ _ _ _ S) (base1 A 0 :: ts) (base1 B 0 :: ts') (Forall2_cons _ _ B0 H)).
  split; intros V u [= <-]; apply Q; now apply V.
Qed.

(** The keys from evaluations of any kind. *)
Lemma setup_keys_sim_gen {P : Type} (ev : P -> Z -> option Z) q pub gates wl ls rs es os x al be ga de : 0 < q ->
  (forall ks, wire_keys q ev wl 0 x al be ls rs es os = Some ks ->
     Forall (fun k => 0 <= fst (fst (fst k)) /\ 0 <= snd (fst (fst k)) /\ 0 <= snd (fst k) /\ 0 <= snd k) ks) ->
  0 <= x -> 0 <= al -> 0 <= be -> 0 <= ga -> 0 <= de -> ready (base2 A be) -> ready (base2 A ga) -> ready (base2 A de) ->
  opt_rel krel (setup_keys q A ev pub gates wl ls rs es os x al be ga de) (setup_keys q B ev pub gates wl ls rs es os x al be ga de).
Proof.
  intros Hq F Hx Hal Hbe Hga Hde Rbe Rga Rde. unfold setup_keys. destruct (_ && _)%bool; [|exact I]. destruct (Nat.leb _ _); [exact I|].
  destruct (feval_poly q (domain_poly q gates) x) as [dx|]; [|exact I]. destruct (finv q de) as [id|]; [|exact I]. destruct (finv q ga) as [ig|]; [|exact I].
  destruct (wire_keys q ev wl 0 x al be ls rs es os) as [ks|] eqn:K; [|exact I]. assert (N := F ks eq_refl).
  assert (M : forall y, 0 <= y mod q) by (intros; apply Z.mod_pos_bound; exact Hq).
  assert (PW : Forall (Z.le 0) (powers q (gates - 1) x x)).
  { assert (H : forall n t, 0 <= t -> Forall (Z.le 0) (powers q n t x)); [|now apply H].
    induction n as [|n IH]; intros t Ht; cbn; constructor; auto. apply IH. apply M. }
  assert (b1 := s_base1 _ _ _ _ _ _ _ _ S). assert (b2 := s_base2 _ _ _ _ _ _ _ _ S). assert (rd := s_one _ _ _ _ _ _ _ _ S). assert (pr := s_pair _ _ _ _ _ _ _ _ S).
  assert (m1 := fun X => @map_base1 A B R1 R2 RT ready ok1 ok2 S X). assert (m2 := fun X => @map_base2 A B R1 R2 RT ready ok1 ok2 S X).
  cbn [opt_rel]. constructor; cbn; auto.
  - apply pr; auto; [apply b1|apply b2]; lia.
  - apply (m1 _ (fun k : Z * Z * Z * Z => fmul q id (snd k))). apply Forall_forall. intros ? _. apply M.
  - apply (m1 _ (fun k : Z * Z * Z * Z => fmul q ig (snd k))). apply Forall_forall. intros ? _. apply M.
  - constructor; [apply b1; lia|]. now apply (m1 _ (fun k => k)).
  - constructor; [apply b1; apply M|]. apply (m1 _ (fun t => fmul q t (fmul q id dx))). apply Forall_forall. intros ? _. apply M.
  - apply (m1 _ (fun k : Z * Z * Z * Z => snd (fst (fst k)))). revert N. apply Forall_impl. tauto.
  - apply (m1 _ (fun k : Z * Z * Z * Z => fst (fst (fst k)))). revert N. apply Forall_impl. tauto.
  - constructor; [apply b2; lia|]. now apply (m2 _ (fun k => k)).
  - apply (m2 _ (fun k : Z * Z * Z * Z => snd (fst k))). revert N. apply Forall_impl. tauto.
Qed.

Section System.
Variable q : Z.
Hypothesis Pq : prime q.
Variable s : er1cs tree.
Hypothesis W : sparse_sized s.
Variable T : columns tree.
Hypothesis ET : transpose_sparse_er1cs s = Some T.
Local Notation n := (List.length (rows s)).
Local Notation m := (List.length (index_map s)).

(** GenerateTrustedSetupSparse *)
Lemma sparse_setup_sim c pub x al be ga de : (1 <= m)%nat -> (n <= m)%nat -> Z.of_nat m <= q -> scache_ok q c ->
  0 <= x < q -> 0 <= al -> 0 <= be -> 0 <= ga -> 0 <= de -> ready (base2 A be) -> ready (base2 A ga) -> ready (base2 A de) ->
  opt_rel (fun k k' => krel (fst k) (fst k') /\ snd k = snd k') (generate_setup_sparse q A c pub T x al be ga de) (generate_setup_sparse q B c pub T x al be ga de).
Proof.
  intros M1 Nm Nq Hc Hx Hal Hbe Hga Hde Rbe Rga Rde. assert (q1 : 1 < q) by (destruct Pq; lia).
  destruct (columns_spec s W) as [T' [ET' [E1 [E2 [C1 [C2 [C3 C4]]]]]]]. rewrite ET in ET'. injection ET' as <-.
  assert (Lcl := proj1 C1). assert (Lcr := proj1 C2). assert (Lce := proj1 C3). assert (Lco := proj1 C4).
  assert (BM : forall f cols, scols s f cols -> Forall wf cols /\ Forall (fun t => below (tc t) m) cols).
  { intros f cols [_ [Fw [Fb _]]]. split; auto. revert Fb. apply Forall_impl. intros t Ht i Hi. apply Ht. lia. }
  destruct (BM _ _ C1) as [Fl Bl]. destruct (BM _ _ C2) as [Fr Br]. destruct (BM _ _ C3) as [Fe Be]. destruct (BM _ _ C4) as [Fo Bo].
  destruct (interpolations_spec q Pq m M1 Nq (cl T) c Hc Fl Bl) as (pl & k1 & EL & Hk1 & OL).
  destruct (interpolations_spec q Pq m M1 Nq (cr T) k1 Hk1 Fr Br) as (pr & k2 & ER & Hk2 & OR).
  destruct (interpolations_spec q Pq m M1 Nq (ce T) k2 Hk2 Fe Be) as (pe & k3 & EE & Hk3 & OE).
  destruct (interpolations_spec q Pq m M1 Nq (co T) k3 Hk3 Fo Bo) as (po & k4 & EO & Hk4 & OO).
  unfold generate_setup_sparse, er1cs_to_eap_sparse. rewrite E1, E2, Lcl, Lcr, Lce, Lco, Nat.leb_refl, !firstn_all2 by lia. cbn [andb]. rewrite EL, ER, EE, EO.
  assert (Vl := pols_evaluate q Pq m x _ _ Hx OL). assert (Vr := pols_evaluate q Pq m x _ _ Hx OR).
  assert (Ve := pols_evaluate q Pq m x _ _ Hx OE). assert (Vo := pols_evaluate q Pq m x _ _ Hx OO).
  assert (Ll : List.length pl = m) by (rewrite <- (Forall2_len _ _ _ OL); auto). assert (Lr : List.length pr = m) by (rewrite <- (Forall2_len _ _ _ OR); auto).
  assert (Le : List.length pe = m) by (rewrite <- (Forall2_len _ _ _ OE); auto). assert (Lo : List.length po = m) by (rewrite <- (Forall2_len _ _ _ OO); auto).
  assert (F : forall ks, wire_keys q (eval_sparse q) m 0 x al be pl pr pe po = Some ks ->
     Forall (fun k => 0 <= fst (fst (fst k)) /\ 0 <= snd (fst (fst k)) /\ 0 <= snd (fst k) /\ 0 <= snd k) ks).
  { intros ks E. destruct (wire_keys_gen q Pq (eval_sparse q) (fun p => teval p x) Leaf x al be pl pr pe po m 0 ltac:(lia) ltac:(lia) ltac:(lia) ltac:(lia) Vl Vr Ve Vo) as (ks' & E' & _ & H & _).
    rewrite E in E'. injection E' as <-. exact H. }
  assert (H := setup_keys_sim_gen (eval_sparse q) q pub n m pl pr pe po x al be ga de ltac:(lia) F ltac:(lia) Hal Hbe Hga Hde Rbe Rga Rde).
  unfold opt_rel in *. destruct (setup_keys q A _ _ _ _ _ _ _ _ _ _ _ _ _), (setup_keys q B _ _ _ _ _ _ _ _ _ _ _ _ _); try contradiction; cbn; auto.
Qed.

(** CombineSparsePolynomials depends on the groups through X of multiples of the generator only. *)
Lemma combine_sparse_sim c w : List.length w = m -> combine_sparse_polynomials q A c w T = combine_sparse_polynomials q B c w T.
Proof.
  intros Lw. assert (q1 : 1 < q) by (destruct Pq; lia).
  destruct (columns_spec s W) as [T' [ET' [E1 [E2 [C1 [C2 [C3 C4]]]]]]]. rewrite ET in ET'. injection ET' as <-.
  destruct (sides s W) as (_ & _ & SE & _).
  destruct (sweighted_spec q Pq s re (ce T) w SE C3 Lw) as (d & E & Wd & Cd & _).
  unfold combine_sparse_polynomials. rewrite E.
  assert (G : forall es, nonneg_entries es -> forall t, gx_points A es t = gx_points B es t).
  { induction es as [|[k v] es IH]; intros P t; cbn; [reflexivity|]. inversion P as [|? ? P1 P2]; subst. cbn [snd] in P1.
    rewrite (gxc_sim A B S v P1). destruct (insert_no_overwrite t k (gxc B v)); [now apply IH|reflexivity]. }
  rewrite (G _ (ctree_entries q d Wd Cd)). reflexivity.
Qed.

(** The quotients that GenerateProof_Sparse computes have canonical coefficients. *)
Lemma quotient_entries Px dom fuel Qx r : (1 <= n)%nat -> Z.of_nat n <= q -> wf Px -> ctree q Px -> below (tc Px) (2 * n - 1) ->
  from_array (domain_poly q n) = Some dom -> divide_sparse q fuel Px dom = Ret (Qx, r) -> nonneg_entries (ascending Qx).
Proof.
  intros N1 Nq WP CP BP ED E. destruct (divide_domain q Pq s Px N1 Nq WP CP BP) as (dom' & quo & rem & ED' & H & Wq & Cq & _).
  rewrite ED in ED'. injection ED' as <-.
  assert (X := H (fuel + 2 * n)%nat ltac:(lia)). rewrite (divide_sparse_mono q Px dom fuel (fuel + 2 * n) _ ltac:(lia) E) in X. injection X as -> _.
  exact (ctree_entries q quo Wq Cq).
Qed.
End System.

Lemma sparse_prover_sums_iff q pub k k' w Px : krel k k' -> Forall (Z.le 0) w ->
  (forall fuel dom Qx r, from_array (domain B k') = Some dom -> divide_sparse q fuel Px dom = Ret (Qx, r) -> nonneg_entries (ascending Qx)) ->
  (sparse_prover_sums q A ok1 ok2 pub k w Px <-> sparse_prover_safe q B pub k' w Px).
Proof.
  intros K P NQ.
  assert (H1 := s_smul1 _ _ _ _ _ _ _ _ S). assert (H2 := s_acc1 _ _ _ _ _ _ _ _ S). assert (H3 := s_ok1 _ _ _ _ _ _ _ _ S).
  assert (M1 := smuls_sum_sim R1 (smul1 A) (smul1 B) (acc1 A) (acc1 B) (apart (base1 B 0)) H1 H2 ok1 H3).
  assert (M2 := smuls_sum_sim R2 (smul2 A) (smul2 B) (acc2 A) (acc2 B) (apart (base2 B 0)) (s_smul2 _ _ _ _ _ _ _ _ S) (s_acc2 _ _ _ _ _ _ _ _ S) ok2 (s_ok2 _ _ _ _ _ _ _ _ S)).
  assert (NE : (forall ts, smuls (smul1 A) (ex A k) w = Some ts -> sum_all ok1 (acc1 A) ts) <-> (forall ts, smuls (smul1 B) (ex B k') w = Some ts -> sum_all (apart (base1 B 0)) (acc1 B) ts)).
  { assert (M := M1 _ _ w [] [] (r_ex _ _ _ _ K) P (Forall2_nil _)).
    split; intros V ts E; rewrite <- (app_nil_r ts); apply M; auto; intros ts0 E0; rewrite app_nil_r; now apply V. }
  assert (N2 : (forall ts, smuls (smul2 A) (rx A k) w = Some ts -> sum_all ok2 (acc2 A) ts) <-> (forall ts, smuls (smul2 B) (rx B k') w = Some ts -> sum_all (apart (base2 B 0)) (acc2 B) ts)).
  { assert (M := M2 _ _ w [] [] (r_rx _ _ _ _ K) P (Forall2_nil _)).
    split; intros V ts E; rewrite <- (app_nil_r ts); apply M; auto; intros ts0 E0; rewrite app_nil_r; now apply V. }
  assert (Pp : Forall (Z.le 0) (skipn pub w)) by now apply Forall_skipn.
  assert (NA := M1 _ _ w [alpha1 A k] [alpha1 B k'] (r_lx_ex _ _ _ _ K) P (Forall2_cons _ _ (r_alpha1 _ _ _ _ K) (Forall2_nil _))).
  unfold sparse_prover_safe, sparse_prover_sums. rewrite (r_domain _ _ _ _ K).
  split; intros (V1 & V2 & V3 & V4); (split; [apply NA; exact V1|]; split; [apply N2; exact V2|]; split; [apply NE; exact V3|]); intros fuel dom Qx r D0 D;
    destruct (V4 fuel dom Qx r D0 D) as [V5 V6]; assert (NN := NQ fuel dom Qx r D0 D).
  - assert (N5 := proj1 (entry_sums_iff _ _ _ (r_pdd _ _ _ _ K) NN) V5). split; [exact N5|].
    assert (M := sparse_msm_sim _ _ _ (r_pdd _ _ _ _ K) NN N5).
    intros ts qd' E EQ. rewrite EQ in M. unfold opt_rel in M. destruct (sparse_msm A (powers_domain_delta A k) (ascending Qx) (base1 A 0)) as [qd|]; [|contradiction].
    apply (M1 _ _ (skipn pub w) [qd] [qd'] (r_rleo_delta _ _ _ _ K) Pp (Forall2_cons _ _ M (Forall2_nil _))); auto.
  - split; [exact (proj2 (entry_sums_iff _ _ _ (r_pdd _ _ _ _ K) NN) V5)|].
    assert (M := sparse_msm_sim _ _ _ (r_pdd _ _ _ _ K) NN V5).
    intros ts qd E EQ. rewrite EQ in M. unfold opt_rel in M. destruct (sparse_msm B (powers_domain_delta B k') (ascending Qx) (base1 B 0)) as [qd'|]; [|contradiction].
    apply (M1 _ _ (skipn pub w) [qd] [qd'] (r_rleo_delta _ _ _ _ K) Pp (Forall2_cons _ _ M (Forall2_nil _))); auto.
Qed.

(** GenerateProof_Sparse *)
Lemma sparse_prove_sim q fuel pub k k' w Px : krel k k' -> Forall (Z.le 0) w ->
  (forall fuel dom Qx r, from_array (domain B k') = Some dom -> divide_sparse q fuel Px dom = Ret (Qx, r) -> nonneg_entries (ascending Qx)) ->
  sparse_prover_safe q B pub k' w Px ->
  out_rel (proof_rel R1 R2) (generate_proofs_sparse q A fuel pub k w Px) (generate_proofs_sparse q B fuel pub k' w Px).
Proof.
  intros K P NQ (V1 & V2 & V3 & V4). unfold generate_proofs_sparse. rewrite (r_domain _ _ _ _ K).
  destruct (from_array (domain B k')) as [dom|] eqn:D0; [|exact I]. destruct (divide_sparse q fuel Px dom) as [[Qx r]| |] eqn:D; [|exact I|exact I].
  destruct (V4 fuel dom Qx r eq_refl D) as [V5 V6]. assert (NN := NQ fuel dom Qx r eq_refl D). destruct (Nat.ltb 0 (size r)); [exact I|].
  assert (M := sparse_msm_sim _ _ _ (r_pdd _ _ _ _ K) NN V5). unfold opt_rel in M.
  destruct (sparse_msm A _ _ _) as [qd|], (sparse_msm B _ _ _) as [qd'|]; try contradiction; [|exact I].
  assert (H1 := s_smul1 _ _ _ _ _ _ _ _ S). assert (H2 := s_acc1 _ _ _ _ _ _ _ _ S).
  unfold assemble.
  assert (Ma := msm_sim_app R1 (smul1 A) (smul1 B) (acc1 A) (acc1 B) (apart (base1 B 0)) H1 H2 _ _ w _ _ (r_lx_ex _ _ _ _ K) P (r_alpha1 _ _ _ _ K) V1).
  assert (Mb := msm_sim R2 (smul2 A) (smul2 B) (acc2 A) (acc2 B) (apart (base2 B 0)) (s_smul2 _ _ _ _ _ _ _ _ S) (s_acc2 _ _ _ _ _ _ _ _ S) _ _ w (r_rx _ _ _ _ K) P V2).
  assert (Pp : Forall (Z.le 0) (skipn pub w)) by now apply Forall_skipn.
  assert (Mc := msm_sim_app R1 (smul1 A) (smul1 B) (acc1 A) (acc1 B) (apart (base1 B 0)) H1 H2 _ _ _ _ _ (r_rleo_delta _ _ _ _ K) Pp M (fun ts E => V6 ts _ E eq_refl)).
  assert (Mf := msm_sim R1 (smul1 A) (smul1 B) (acc1 A) (acc1 B) (apart (base1 B 0)) H1 H2 _ _ w (r_ex _ _ _ _ K) P V3).
  unfold opt_rel in Ma, Mb, Mc, Mf.
  destruct (msm (smul1 A) (acc1 A) (lx_ex A k) w), (msm (smul1 B) (acc1 B) (lx_ex B k') w); try contradiction; [|exact I].
  destruct (msm (smul2 A) (acc2 A) (rx A k) w), (msm (smul2 B) (acc2 B) (rx B k') w); try contradiction; [|exact I].
  destruct (msm (smul1 A) (acc1 A) (rleo_delta A k) _), (msm (smul1 B) (acc1 B) (rleo_delta B k') _); try contradiction; [|exact I].
  destruct (msm (smul1 A) (acc1 A) (ex A k) w), (msm (smul1 B) (acc1 B) (ex B k') w); try contradiction; [|exact I].
  cbn [out_rel]. constructor; cbn; auto.
Qed.
End Sim.

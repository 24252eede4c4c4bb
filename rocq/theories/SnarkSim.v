(** Running SnarkModel with related groups: setup, prover and verifier give related results.  Used with the operations
    of package bn256 on one side, where a group element has many representations, and exponents on the other. *)
Require Import ZArith Znumtheory NArith Bool Ascii String Lia Setoid Morphisms List.
Require Import Verif.Cong Verif.FqModel Verif.FqSpec Verif.FqProofs Verif.PolyModel Verif.PolyProofs Verif.InterpProofs.
Require Import Verif.AvlModel Verif.SparseModel Verif.FactorModel Verif.R1csModel Verif.R1csSpec Verif.SnarkModel Verif.SnarkSpec.
Require Import Verif.SnarkProofs Verif.SnarkProofs2.
Import ListNotations.
Open Scope Z_scope.

(** Both results exist and are related, or neither exists. *)
Definition opt_rel {A B} (R : A -> B -> Prop) (a : option A) (b : option B) : Prop :=
  match a, b with Some x, Some y => R x y | None, None => True | _, _ => False end.

Section Sums.
Context {A B : Type} (R : A -> B -> Prop) (mulA : A -> Z -> A) (mulB : B -> Z -> B) (accA : A -> A -> A) (accB : B -> B -> B) (ok : B -> B -> Prop).
Hypothesis Hm : forall a b k, R a b -> 0 <= k -> R (mulA a k) (mulB b k).
Hypothesis Ha : forall a b a' b', R a b -> R a' b' -> ok b b' -> R (accA a a') (accB b b').

Lemma smuls_sim ks ks' : Forall2 R ks ks' -> forall ws, Forall (Z.le 0) ws -> opt_rel (Forall2 R) (smuls mulA ks ws) (smuls mulB ks' ws).
Proof.
  induction 1 as [|k k' ks ks' H F IH]; intros [|w ws] P; cbn; auto; try constructor. inversion P; subst.
  specialize (IH ws H3). unfold opt_rel in IH. destruct (smuls mulA ks ws), (smuls mulB ks' ws); cbn; try contradiction; auto.
Qed.
Lemma fold_sim ts ts' : Forall2 R ts ts' -> forall s s', R s s' -> sum_if ok accB s' ts' -> R (fold_left accA ts s) (fold_left accB ts' s').
Proof. induction 1 as [|t t' ts ts' H F IH]; intros s s' P S; cbn in *; auto. destruct S as [S1 S2]. apply IH; auto. Qed.
Lemma total_sim ts ts' : Forall2 R ts ts' -> sum_all ok accB ts' -> opt_rel R (total_of accA ts) (total_of accB ts').
Proof. intros [|t t' l l' H F] S; cbn; auto. now apply fold_sim. Qed.
Lemma msm_sim ks ks' ws : Forall2 R ks ks' -> Forall (Z.le 0) ws -> (forall ts, smuls mulB ks' ws = Some ts -> sum_all ok accB ts) ->
  opt_rel R (msm mulA accA ks ws) (msm mulB accB ks' ws).
Proof.
  intros F P S. unfold msm. assert (H := smuls_sim ks ks' F ws P). unfold opt_rel in H.
  destruct (smuls mulA ks ws) as [ts|], (smuls mulB ks' ws) as [ts'|]; try contradiction; cbn; auto. apply total_sim; auto.
Qed.
Lemma msm_sim_app ks ks' ws x x' : Forall2 R ks ks' -> Forall (Z.le 0) ws -> R x x' -> (forall ts, smuls mulB ks' ws = Some ts -> sum_all ok accB (ts ++ [x'])) ->
  opt_rel (fun a b => R (accA a x) (accB b x')) (msm mulA accA ks ws) (msm mulB accB ks' ws).
Proof.
  intros F P X S. unfold msm. assert (H := smuls_sim ks ks' F ws P). unfold opt_rel in H.
  destruct (smuls mulA ks ws) as [ts|], (smuls mulB ks' ws) as [ts'|]; try contradiction; cbn; auto.
  specialize (S ts' eq_refl). destruct ts' as [|t' ts']; [inversion H; subst; cbn; auto|].
  destruct (ok_prefix accB ok (t' :: ts') x' S ltac:(discriminate)) as [S1 S2].
  assert (T := total_sim ts (t' :: ts') H S1). unfold opt_rel in *. destruct (total_of accA ts); cbn in *; auto.
Qed.
(** A condition on the left is one on the right. *)
Context (okA : A -> A -> Prop).
Hypothesis Hk : forall a b a' b', R a b -> R a' b' -> (okA a a' <-> ok b b').
Lemma sum_if_sim ts ts' : Forall2 R ts ts' -> forall s s', R s s' -> (sum_if okA accA s ts <-> sum_if ok accB s' ts').
Proof.
  induction 1 as [|t t' ts ts' H F IH]; intros s s' P; cbn; [tauto|]. rewrite (Hk s s' t t' P H). split; intros [X Y]; (split; [exact X|]).
  - apply (IH (accA s t)); auto.
  - apply (IH (accA s t) (accB s' t')); auto.
Qed.
Lemma sum_all_sim ts ts' : Forall2 R ts ts' -> (sum_all okA accA ts <-> sum_all ok accB ts').
Proof. intros [|t t' l l' H F]; cbn; [tauto|]. now apply (sum_if_sim l l' F t t'). Qed.
Lemma smuls_sum_sim ks ks' ws l l' : Forall2 R ks ks' -> Forall (Z.le 0) ws -> Forall2 R l l' ->
  ((forall ts, smuls mulA ks ws = Some ts -> sum_all okA accA (ts ++ l)) <-> forall ts, smuls mulB ks' ws = Some ts -> sum_all ok accB (ts ++ l')).
Proof.
  intros F P L. assert (H := smuls_sim ks ks' F ws P). unfold opt_rel in H.
  destruct (smuls mulA ks ws) as [ts|], (smuls mulB ks' ws) as [ts'|]; try contradiction; [|split; intros _ ? E; discriminate E].
  assert (Q := sum_all_sim (ts ++ l) (ts' ++ l') (Forall2_app H L)). split; intros S u [= <-]; apply Q; now apply S.
Qed.
End Sums.

(** [ready] is what the second argument of the pairing on the left needs; [ok1] and [ok2] are the conditions on the left for
    a step of a sum to be safe on the right. *)
Record simulates (A B : groups) (R1 : G1 A -> G1 B -> Prop) (R2 : G2 A -> G2 B -> Prop) (RT : GT A -> GT B -> Prop) (ready : G2 A -> Prop)
    (ok1 : G1 A -> G1 A -> Prop) (ok2 : G2 A -> G2 A -> Prop) : Prop := Simulates {
  s_base1 : forall k, 0 <= k -> R1 (base1 A k) (base1 B k);
  s_base2 : forall k, 0 <= k -> R2 (base2 A k) (base2 B k);
  s_one : ready (base2 A 1);
  s_smul1 : forall a b k, R1 a b -> 0 <= k -> R1 (smul1 A a k) (smul1 B b k);
  s_smul2 : forall a b k, R2 a b -> 0 <= k -> R2 (smul2 A a k) (smul2 B b k);
  s_ok1 : forall a b a' b', R1 a b -> R1 a' b' -> (ok1 a a' <-> apart (base1 B 0) b b');
  s_ok2 : forall a b a' b', R2 a b -> R2 a' b' -> (ok2 a a' <-> apart (base2 B 0) b b');
  s_acc1 : forall a b a' b', R1 a b -> R1 a' b' -> apart (base1 B 0) b b' -> R1 (acc1 A a a') (acc1 B b b');
  s_acc2 : forall a b a' b', R2 a b -> R2 a' b' -> apart (base2 B 0) b b' -> R2 (acc2 A a a') (acc2 B b b');
  s_add1 : forall a b a' b', R1 a b -> R1 a' b' -> R1 (add1 A a a') (add1 B b b');
  s_add2 : forall a b a' b', R2 a b -> R2 a' b' -> R2 (add2 A a a') (add2 B b b');
  s_x : forall a b, R1 a b -> xcoord A a = xcoord B b;
  s_x0 : forall a b, R1 a b -> 0 <= xcoord A a;
  s_pair : forall a b g h, R1 a b -> R2 g h -> ready g -> RT (pair A a g) (pair B b h);
  s_smulT : forall a b k, RT a b -> 0 <= k -> RT (smulT A a k) (smulT B b k);
  s_addT : forall a b a' b', RT a b -> RT a' b' -> RT (addT A a a') (addT B b b');
  s_marshal : forall a b a' b', RT a b -> RT a' b' -> (marshalT A a = marshalT A a' <-> marshalT B b = marshalT B b') }.

Section Sim.
Context (A B : groups) {R1 : G1 A -> G1 B -> Prop} {R2 : G2 A -> G2 B -> Prop} {RT : GT A -> GT B -> Prop} {ready : G2 A -> Prop} {ok1 : G1 A -> G1 A -> Prop} {ok2 : G2 A -> G2 A -> Prop}.

(** Keys and proofs with related entries. *)
Record key_rel (k : pk A) (k' : pk B) : Prop := KeyRel {
  r_domain : domain A k = domain B k'; r_eGH : RT (eGH A k) (eGH B k'); r_eGHab : RT (eGHab A k) (eGHab B k');
  r_rleo_delta : Forall2 R1 (rleo_delta A k) (rleo_delta B k'); r_alpha1 : R1 (alpha1 A k) (alpha1 B k');
  r_beta1 : R1 (beta1 A k) (beta1 B k'); r_delta1 : R1 (delta1 A k) (delta1 B k');
  r_rleo_gamma : Forall2 R1 (rleo_gamma A k) (rleo_gamma B k'); r_powers1 : Forall2 R1 (powers1 A k) (powers1 B k');
  r_pdd : Forall2 R1 (powers_domain_delta A k) (powers_domain_delta B k'); r_lx_ex : Forall2 R1 (lx_ex A k) (lx_ex B k');
  r_ex : Forall2 R1 (ex A k) (ex B k'); r_beta2 : R2 (beta2 A k) (beta2 B k'); r_gamma2 : R2 (gamma2 A k) (gamma2 B k');
  r_delta2 : R2 (delta2 A k) (delta2 B k'); r_powers2 : Forall2 R2 (powers2 A k) (powers2 B k'); r_rx : Forall2 R2 (rx A k) (rx B k');
  r_ready : ready (gamma2 A k) /\ ready (delta2 A k) }.
Record proof_rel (p : proof A) (p' : proof B) : Prop := ProofRel {
  r_A : R1 (piA A p) (piA B p'); r_B : R2 (piB A p) (piB B p'); r_C : R1 (piC A p) (piC B p'); r_F : R1 (piF A p) (piF B p') }.

Hypothesis S : simulates A B R1 R2 RT ready ok1 ok2.

Lemma feval_nonneg q p x v : 0 < q -> (2 <= List.length p)%nat -> feval_poly q p x = Some v -> 0 <= v.
Proof.
  intros Hq L. destruct p as [|a [|b p]]; cbn in L; try lia. cbn [feval_poly]. destruct (match p with [] => _ | _ => _ end); [|discriminate].
  intros [= <-]. unfold fadd. apply Z.mod_pos_bound. exact Hq.
Qed.
Lemma wire_keys_nonneg q x al be ls rs es os n : 0 < q -> Forall (fun p => (2 <= List.length p)%nat) es -> forall i ks,
  wire_keys q (feval_poly q) n i x al be ls rs es os = Some ks ->
  Forall (fun k => 0 <= fst (fst (fst k)) /\ 0 <= snd (fst (fst k)) /\ 0 <= snd (fst k) /\ 0 <= snd k) ks.
Proof.
  intros Hq F. induction n as [|n IH]; intros i ks; cbn [wire_keys]; [intros [= <-]; constructor|].
  unfold wire_key at 1. destruct (match nth_error ls i with Some p => _ | None => None end); [|discriminate].
  destruct (match nth_error rs i with Some p => _ | None => None end); [|discriminate].
  destruct (nth_error es i) as [p|] eqn:E; [|discriminate]. destruct (feval_poly q p x) as [v|] eqn:V; [|discriminate].
  destruct (match nth_error os i with Some p => _ | None => None end); [|discriminate].
  destruct (wire_keys q (feval_poly q) n (Datatypes.S i) x al be ls rs es os) as [ks'|] eqn:K; [|discriminate]. intros [= <-]. constructor; [|now apply (IH (Datatypes.S i))].
  cbn [fst snd]. assert (M : forall y, 0 <= y mod q) by (intros; apply Z.mod_pos_bound; exact Hq).
  split; [apply (feval_nonneg q p x); auto; rewrite Forall_forall in F; apply F; now apply nth_error_In in E|]. split; [apply M|]. split; apply M.
Qed.

Lemma map_base1 {X} (f : X -> Z) l : Forall (fun x => 0 <= f x) l -> Forall2 R1 (map (fun x => base1 A (f x)) l) (map (fun x => base1 B (f x)) l).
Proof. induction 1; constructor; auto. now apply (s_base1 A B R1 R2 RT ready ok1 ok2 S). Qed.
Lemma map_base2 {X} (f : X -> Z) l : Forall (fun x => 0 <= f x) l -> Forall2 R2 (map (fun x => base2 A (f x)) l) (map (fun x => base2 B (f x)) l).
Proof. induction 1; constructor; auto. now apply (s_base2 A B R1 R2 RT ready ok1 ok2 S). Qed.

Lemma setup_keys_sim q pub gates wl ls rs es os x al be ga de : 0 < q -> Forall (fun p => (2 <= List.length p)%nat) es ->
  0 <= x -> 0 <= al -> 0 <= be -> 0 <= ga -> 0 <= de -> ready (base2 A be) -> ready (base2 A ga) -> ready (base2 A de) ->
  opt_rel key_rel (setup_keys q A (feval_poly q) pub gates wl ls rs es os x al be ga de) (setup_keys q B (feval_poly q) pub gates wl ls rs es os x al be ga de).
Proof.
  intros Hq F Hx Hal Hbe Hga Hde Rbe Rga Rde. unfold setup_keys. destruct (_ && _)%bool; [|exact I]. destruct (Nat.leb _ _); [exact I|].
  destruct (feval_poly q (domain_poly q gates) x) as [dx|]; [|exact I]. destruct (finv q de) as [id|]; [|exact I]. destruct (finv q ga) as [ig|]; [|exact I].
  destruct (wire_keys q (feval_poly q) wl 0 x al be ls rs es os) as [ks|] eqn:K; [|exact I].
  assert (N := wire_keys_nonneg q x al be ls rs es os wl Hq F 0 ks K).
  assert (M : forall y, 0 <= y mod q) by (intros; apply Z.mod_pos_bound; exact Hq).
  assert (P : Forall (Z.le 0) (powers q (gates - 1) x x)).
  { assert (H : forall n t, 0 <= t -> Forall (Z.le 0) (powers q n t x)); [|now apply H].
    induction n as [|n IH]; intros t Ht; cbn; constructor; auto. apply IH. apply M. }
  assert (b1 := s_base1 _ _ _ _ _ _ _ _ S). assert (b2 := s_base2 _ _ _ _ _ _ _ _ S). assert (rd := s_one _ _ _ _ _ _ _ _ S). assert (pr := s_pair _ _ _ _ _ _ _ _ S).
  cbn [opt_rel]. constructor; cbn; auto.
  - apply pr; auto; [apply b1|apply b2]; lia.
  - apply (map_base1 (fun k : Z * Z * Z * Z => fmul q id (snd k))). apply Forall_forall. intros ? _. apply M.
  - apply (map_base1 (fun k : Z * Z * Z * Z => fmul q ig (snd k))). apply Forall_forall. intros ? _. apply M.
  - constructor; [apply b1; lia|]. now apply (map_base1 (fun k => k)).
  - constructor; [apply b1; apply M|]. apply (map_base1 (fun t => fmul q t (fmul q id dx))). apply Forall_forall. intros ? _. apply M.
  - apply (map_base1 (fun k : Z * Z * Z * Z => snd (fst (fst k)))). revert N. apply Forall_impl. tauto.
  - apply (map_base1 (fun k : Z * Z * Z * Z => fst (fst (fst k)))). revert N. apply Forall_impl. tauto.
  - constructor; [apply b2; lia|]. now apply (map_base2 (fun k => k)).
  - apply (map_base2 (fun k : Z * Z * Z * Z => snd (fst k))). revert N. apply Forall_impl. tauto.
Qed.
(** GenerateTrustedSetup *)
Lemma setup_sim q n m T c pub x al be ga de : prime q -> (2 <= n)%nat -> Z.of_nat n <= q -> good_columns n m T -> cache_ok q c ->
  0 <= x -> 0 <= al -> 0 <= be -> 0 <= ga -> 0 <= de -> ready (base2 A be) -> ready (base2 A ga) -> ready (base2 A de) ->
  opt_rel (fun k k' => key_rel (fst k) (fst k') /\ snd k = snd k') (generate_setup q A c pub T x al be ga de) (generate_setup q B c pub T x al be ga de).
Proof.
  intros Pq Hn2 Hn [T1 [T2 [[L1 F1] [[L2 F2] [[L3 F3] [L4 F4]]]]]] Hc Hx Hal Hbe Hga Hde Rbe Rga Rde.
  unfold generate_setup, er1cs_to_eap. rewrite L1, L2, L3, L4, Nat.leb_refl. cbn [andb].
  rewrite !firstn_all2 by lia.
  destruct (lagranges_spec q n Pq Hn (cl T) c Hc F1) as [pl [c1 [-> [C1 A1]]]].
  destruct (lagranges_spec q n Pq Hn (cr T) c1 C1 F2) as [pr [c2 [-> [C2 A2]]]].
  destruct (lagranges_spec q n Pq Hn (ce T) c2 C2 F3) as [pe [c3 [-> [C3 A3]]]].
  destruct (lagranges_spec q n Pq Hn (co T) c3 C3 F4) as [po [c4 [-> [C4 A4]]]].
  assert (Two : Forall (fun p => (2 <= List.length p)%nat) pe).
  { clear - A3 Hn2. induction A3 as [|d p cols ps [B _] A IH]; constructor; auto. lia. }
  assert (H := setup_keys_sim q pub (ngates T) (wlen T) pl pr pe po x al be ga de ltac:(destruct Pq; lia) Two Hx Hal Hbe Hga Hde Rbe Rga Rde).
  unfold opt_rel in *. destruct (setup_keys q A _ _ _ _ _ _ _ _ _ _ _ _ _), (setup_keys q B _ _ _ _ _ _ _ _ _ _ _ _ _); cbn; auto.
Qed.

Lemma gxc_sim k : 0 <= k -> gxc A k = gxc B k.
Proof. intros K. apply (s_x A B R1 R2 RT ready ok1 ok2 S). now apply (s_base1 A B R1 R2 RT ready ok1 ok2 S). Qed.
(** CombinePolynomials2 depends on the groups through X of multiples of the generator only. *)
Lemma combine_sim q c w T : 0 < q -> combine_polynomials q A c w T = combine_polynomials q B c w T.
Proof.
  intros Hq. unfold combine_polynomials. destruct (weighted q (cl T) w); [|reflexivity]. destruct (weighted q (cr T) w); [|reflexivity].
  destruct (weighted q (ce T) w) as [d|] eqn:E; [|reflexivity]. destruct (weighted q (co T) w); [|reflexivity].
  destruct (lagrange q c l) as [[? ?]|]; [|reflexivity]. destruct (lagrange q _ l0) as [[? ?]|]; [|reflexivity]. destruct (lagrange q _ l1) as [[? ?]|]; [|reflexivity].
  replace (map (gxc B) d) with (map (gxc A) d); [reflexivity|]. apply map_ext_in. intros z Hz. apply gxc_sim.
  unfold weighted in E. destruct (plinear_combine q (ce T) w) as [ps|]; [|discriminate]. injection E as <-.
  assert (R : reduced q (padd_polynomials q ps)) by (apply fold_padd_reduced; [exact Hq|constructor]).
  unfold reduced in R. rewrite Forall_forall in R. apply R in Hz. lia.
Qed.

(** The sums are safe on the left if they are on the right. *)
Lemma verifier_sums_iff k k' sig : key_rel k k' -> Forall (Z.le 0) sig -> (verifier_sums A ok1 k sig <-> verifier_safe B k' sig).
Proof.
  intros K P.
  assert (M := smuls_sum_sim R1 (smul1 A) (smul1 B) (acc1 A) (acc1 B) (apart (base1 B 0)) (s_smul1 _ _ _ _ _ _ _ _ S) (s_acc1 _ _ _ _ _ _ _ _ S) ok1 (s_ok1 _ _ _ _ _ _ _ _ S)
    _ _ sig [] [] (r_rleo_gamma _ _ K) P (Forall2_nil _)).
  unfold verifier_safe, verifier_sums. split; intros V ts E; rewrite <- (app_nil_r ts); apply M; auto; intros ts0 E0; rewrite app_nil_r; now apply V.
Qed.
Lemma prover_sums_iff q pub k k' w Px : 0 < q -> key_rel k k' -> Forall (Z.le 0) w -> reduced q Px ->
  (prover_sums q A ok1 ok2 pub k w Px <-> prover_safe q B pub k' w Px).
Proof.
  intros Hq K P RP.
  assert (H1 := s_smul1 _ _ _ _ _ _ _ _ S). assert (H2 := s_acc1 _ _ _ _ _ _ _ _ S). assert (H3 := s_ok1 _ _ _ _ _ _ _ _ S).
  assert (M1 := smuls_sum_sim R1 (smul1 A) (smul1 B) (acc1 A) (acc1 B) (apart (base1 B 0)) H1 H2 ok1 H3).
  assert (M2 := smuls_sum_sim R2 (smul2 A) (smul2 B) (acc2 A) (acc2 B) (apart (base2 B 0)) (s_smul2 _ _ _ _ _ _ _ _ S) (s_acc2 _ _ _ _ _ _ _ _ S) ok2 (s_ok2 _ _ _ _ _ _ _ _ S)).
  assert (N1 : forall ks ks' ws, Forall2 R1 ks ks' -> Forall (Z.le 0) ws ->
    ((forall ts, smuls (smul1 A) ks ws = Some ts -> sum_all ok1 (acc1 A) ts) <-> (forall ts, smuls (smul1 B) ks' ws = Some ts -> sum_all (apart (base1 B 0)) (acc1 B) ts))).
  { intros ks ks' ws F PW. assert (M := M1 ks ks' ws [] [] F PW (Forall2_nil _)).
    split; intros V ts E; rewrite <- (app_nil_r ts); apply M; auto; intros ts0 E0; rewrite app_nil_r; now apply V. }
  assert (N2 : (forall ts, smuls (smul2 A) (rx A k) w = Some ts -> sum_all ok2 (acc2 A) ts) <-> (forall ts, smuls (smul2 B) (rx B k') w = Some ts -> sum_all (apart (base2 B 0)) (acc2 B) ts)).
  { assert (M := M2 _ _ w [] [] (r_rx _ _ K) P (Forall2_nil _)).
    split; intros V ts E; rewrite <- (app_nil_r ts); apply M; auto; intros ts0 E0; rewrite app_nil_r; now apply V. }
  assert (Pp : Forall (Z.le 0) (skipn pub w)) by now apply Forall_skipn.
  assert (NA := M1 _ _ w [alpha1 A k] [alpha1 B k'] (r_lx_ex _ _ K) P (Forall2_cons _ _ (r_alpha1 _ _ K) (Forall2_nil _))).
  assert (NE := N1 _ _ w (r_ex _ _ K) P).
  assert (NQ : forall Qx r, pdiv q Px (domain B k') = Some (Qx, r) -> Forall (Z.le 0) Qx) by (intros Qx r D; apply (reduced_nonneg q), (pdiv_reduced q Px _ Qx r Hq RP D)).
  unfold prover_safe, prover_sums. rewrite (r_domain _ _ K).
  split; intros (V1 & V2 & V3 & V4); (split; [apply NA; exact V1|]; split; [apply N2; exact V2|]; split; [apply NE; exact V3|]); intros Qx r D; destruct (V4 Qx r D) as [V5 V6].
  - assert (N5 := proj1 (N1 _ _ Qx (r_pdd _ _ K) (NQ Qx r D)) V5). split; [exact N5|].
    assert (M := msm_sim R1 (smul1 A) (smul1 B) (acc1 A) (acc1 B) (apart (base1 B 0)) H1 H2 _ _ Qx (r_pdd _ _ K) (NQ Qx r D) N5).
    intros ts qd' E EQ. rewrite EQ in M. unfold opt_rel in M. destruct (msm (smul1 A) (acc1 A) (powers_domain_delta A k) Qx) as [qd|]; [|contradiction].
    apply (M1 _ _ (skipn pub w) [qd] [qd'] (r_rleo_delta _ _ K) Pp (Forall2_cons _ _ M (Forall2_nil _))); auto.
  - split; [exact (proj2 (N1 _ _ Qx (r_pdd _ _ K) (NQ Qx r D)) V5)|].
    assert (M := msm_sim R1 (smul1 A) (smul1 B) (acc1 A) (acc1 B) (apart (base1 B 0)) H1 H2 _ _ Qx (r_pdd _ _ K) (NQ Qx r D) V5).
    intros ts qd E EQ. rewrite EQ in M. unfold opt_rel in M. destruct (msm (smul1 B) (acc1 B) (powers_domain_delta B k') Qx) as [qd'|]; [|contradiction].
    apply (M1 _ _ (skipn pub w) [qd] [qd'] (r_rleo_delta _ _ K) Pp (Forall2_cons _ _ M (Forall2_nil _))); auto.
Qed.

(** VerifyProof: with related keys and proofs the verdict is the same. *)
Lemma verify_sim k k' p p' sig : key_rel k k' -> proof_rel p p' -> Forall (Z.le 0) sig -> verifier_safe B k' sig ->
  ready (piB A p) -> ready (add2 A (piB A p) (beta2 A k)) -> verify_proof A k p sig = verify_proof B k' p' sig.
Proof.
  intros K [PA PB PC PF] P V Rb Rs. unfold verify_proof. rewrite (Forall2_len _ _ _ (r_rleo_gamma _ _ K)).
  destruct (negb _); [reflexivity|].
  assert (M := msm_sim R1 (smul1 A) (smul1 B) (acc1 A) (acc1 B) (apart (base1 B 0)) (s_smul1 _ _ _ _ _ _ _ _ S) (s_acc1 _ _ _ _ _ _ _ _ S) _ _ sig (r_rleo_gamma _ _ K) P V).
  unfold opt_rel in M. destruct (msm (smul1 A) _ _ _) as [ic|], (msm (smul1 B) _ _ _) as [ic'|]; try contradiction; [|reflexivity].
  assert (X := s_x _ _ _ _ _ _ _ _ S _ _ PF). assert (X0 := s_x0 _ _ _ _ _ _ _ _ S _ _ PF). cbv zeta. rewrite <- X. f_equal.
  destruct (r_ready _ _ K) as [Rg Rd].
  assert (L := s_addT _ _ _ _ _ _ _ _ S _ _ _ _ (s_pair _ _ _ _ _ _ _ _ S _ _ _ _ PA (s_add2 _ _ _ _ _ _ _ _ S _ _ _ _ PB (r_beta2 _ _ K)) Rs)
                 (s_smulT _ _ _ _ _ _ _ _ S _ _ _ (r_eGH _ _ K) X0)).
  assert (L' := s_addT _ _ _ _ _ _ _ _ S _ _ _ _ (s_addT _ _ _ _ _ _ _ _ S _ _ _ _ (r_eGHab _ _ K) (s_pair _ _ _ _ _ _ _ _ S _ _ _ _ M (r_gamma2 _ _ K) Rg))
                 (s_addT _ _ _ _ _ _ _ _ S _ _ _ _ (s_pair _ _ _ _ _ _ _ _ S _ _ _ _ PC (r_delta2 _ _ K) Rd) (s_pair _ _ _ _ _ _ _ _ S _ _ _ _ PF PB Rb))).
  assert (E := s_marshal _ _ _ _ _ _ _ _ S _ _ _ _ L L'). unfold bytes_equal.
  destruct (list_eq_dec Z.eq_dec _ _) as [Y|Y], (list_eq_dec Z.eq_dec _ _) as [Y'|Y']; try reflexivity; exfalso; [apply Y', E, Y|apply Y, E, Y'].
Qed.
(** GenerateProofs *)
Lemma prove_sim q pub k k' w Px : 0 < q -> key_rel k k' -> Forall (Z.le 0) w -> reduced q Px -> prover_safe q B pub k' w Px ->
  opt_rel proof_rel (generate_proofs q A pub k w Px) (generate_proofs q B pub k' w Px).
Proof.
  intros Hq K P RP (V1 & V2 & V3 & V4). unfold generate_proofs. rewrite (r_domain _ _ K). destruct (pdiv q Px (domain B k')) as [[Qx r]|] eqn:D; [|exact I].
  destruct (V4 Qx r eq_refl) as [V5 V6]. destruct (is_zero_array r); [|exact I].
  assert (NQ : Forall (Z.le 0) Qx) by (apply (reduced_nonneg q), (pdiv_reduced q Px _ Qx r Hq RP D)).
  assert (H1 := s_smul1 _ _ _ _ _ _ _ _ S). assert (H2 := s_acc1 _ _ _ _ _ _ _ _ S).
  assert (M := msm_sim R1 (smul1 A) (smul1 B) (acc1 A) (acc1 B) (apart (base1 B 0)) H1 H2 _ _ Qx (r_pdd _ _ K) NQ V5).
  unfold opt_rel in M. destruct (msm (smul1 A) _ _ Qx) as [qd|], (msm (smul1 B) _ _ Qx) as [qd'|]; try contradiction; [|exact I].
  unfold assemble.
  assert (Ma := msm_sim_app R1 (smul1 A) (smul1 B) (acc1 A) (acc1 B) (apart (base1 B 0)) H1 H2 _ _ w _ _ (r_lx_ex _ _ K) P (r_alpha1 _ _ K) V1).
  assert (Mb := msm_sim R2 (smul2 A) (smul2 B) (acc2 A) (acc2 B) (apart (base2 B 0)) (s_smul2 _ _ _ _ _ _ _ _ S) (s_acc2 _ _ _ _ _ _ _ _ S) _ _ w (r_rx _ _ K) P V2).
  assert (Pp : Forall (Z.le 0) (skipn pub w)) by now apply Forall_skipn.
  assert (Mc := msm_sim_app R1 (smul1 A) (smul1 B) (acc1 A) (acc1 B) (apart (base1 B 0)) H1 H2 _ _ _ _ _ (r_rleo_delta _ _ K) Pp M (fun ts E => V6 ts _ E eq_refl)).
  assert (Mf := msm_sim R1 (smul1 A) (smul1 B) (acc1 A) (acc1 B) (apart (base1 B 0)) H1 H2 _ _ w (r_ex _ _ K) P V3).
  unfold opt_rel in Ma, Mb, Mc, Mf.
  destruct (msm (smul1 A) (acc1 A) (lx_ex A k) w), (msm (smul1 B) (acc1 B) (lx_ex B k') w); try contradiction; [|exact I].
  destruct (msm (smul2 A) (acc2 A) (rx A k) w), (msm (smul2 B) (acc2 B) (rx B k') w); try contradiction; [|exact I].
  destruct (msm (smul1 A) (acc1 A) (rleo_delta A k) _), (msm (smul1 B) (acc1 B) (rleo_delta B k') _); try contradiction; [|exact I].
  destruct (msm (smul1 A) (acc1 A) (ex A k) w), (msm (smul1 B) (acc1 B) (ex B k') w); try contradiction; [|exact I].
  cbn [opt_rel]. constructor; cbn; auto.
Qed.
Lemma sum_if_true {X} (acc : X -> X -> X) ts : forall s, sum_if (fun _ _ => True) acc s ts.
Proof. induction ts; cbn; auto. Qed.
Lemma sum_all_true {X} (acc : X -> X -> X) ts : sum_all (fun _ _ => True) acc ts.
Proof. destruct ts; cbn; auto. apply sum_if_true. Qed.
Lemma forge_sim pub k k' w Qx f : key_rel k k' -> Forall (Z.le 0) w -> Forall (Z.le 0) Qx -> 0 <= f ->
  opt_rel proof_rel (forge A pub k w Qx f) (forge B pub k' w Qx f).
Proof.
  intros K P PQ Pf. unfold forge.
  assert (H1 := s_smul1 _ _ _ _ _ _ _ _ S). assert (H2 := s_add1 _ _ _ _ _ _ _ _ S). assert (H3 := s_smul2 _ _ _ _ _ _ _ _ S). assert (H4 := s_add2 _ _ _ _ _ _ _ _ S).
  assert (M1 := fun ks ks' ws F P => msm_sim R1 (smul1 A) (smul1 B) (add1 A) (add1 B) (fun _ _ => True) H1 (fun a b a' b' x y _ => H2 a b a' b' x y) ks ks' ws F P (fun ts _ => sum_all_true _ ts)).
  assert (M2 := fun ks ks' ws F P => msm_sim R2 (smul2 A) (smul2 B) (add2 A) (add2 B) (fun _ _ => True) H3 (fun a b a' b' x y _ => H4 a b a' b' x y) ks ks' ws F P (fun ts _ => sum_all_true _ ts)).
  assert (Pp : Forall (Z.le 0) (skipn pub w)) by now apply Forall_skipn.
  assert (Ma := M1 _ _ _ (r_lx_ex _ _ K) P). assert (Mb := M2 _ _ _ (r_rx _ _ K) P). assert (Mc := M1 _ _ _ (r_rleo_delta _ _ K) Pp). assert (Md := M1 _ _ _ (r_pdd _ _ K) PQ).
  unfold opt_rel in Ma, Mb, Mc, Md.
  destruct (msm (smul1 A) (add1 A) (lx_ex A k) w), (msm (smul1 B) (add1 B) (lx_ex B k') w); try contradiction; [|exact I].
  destruct (msm (smul2 A) (add2 A) (rx A k) w), (msm (smul2 B) (add2 B) (rx B k') w); try contradiction; [|exact I].
  destruct (msm (smul1 A) (add1 A) (rleo_delta A k) _), (msm (smul1 B) (add1 B) (rleo_delta B k') _); try contradiction; [|exact I].
  destruct (msm (smul1 A) (add1 A) (powers_domain_delta A k) Qx), (msm (smul1 B) (add1 B) (powers_domain_delta B k') Qx); try contradiction; [|exact I].
  cbn [opt_rel]. constructor; cbn; auto; [apply H2; auto; apply (r_alpha1 _ _ K)|]. now apply (s_base1 A B R1 R2 RT ready ok1 ok2 S).
Qed.
End Sim.
Arguments key_rel {A B} R1 R2 RT ready _ _. Arguments proof_rel {A B} R1 R2 _ _.

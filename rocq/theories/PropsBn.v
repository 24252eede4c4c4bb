(** C70-C73: setup, proofs and verification with the groups of package bn256. *)
Require Import ZArith NArith Znumtheory Setoid Morphisms Bool String List Lia.
Require Import Verif.Cong Verif.FqModel Verif.FqSpec Verif.FqProofs Verif.PolyModel Verif.PolyProofs Verif.InterpProofs Verif.Pocklington.
Require Import Verif.FactorModel Verif.R1csModel Verif.R1csSpec.
Require Import Verif.CurveModel Verif.CurveSpec Verif.PairModel Verif.PairProofs.
Require Import Verif.SnarkModel Verif.SnarkSpec Verif.SnarkProofs Verif.SnarkProofs2 Verif.SnarkProofs3 Verif.SnarkSim Verif.BnGroups Verif.PropsSnark.
Import ListNotations.
Open Scope Z_scope.

(** The exponents that the groups simulate. *)
Definition Bn : groups := exponents Order gen_x.
Lemma Bn_lawful : lawful Order Bn.
Proof. apply exponents_lawful; [exact Order_1| |exact gen_x_0]. intros a. unfold gen_x, g1_x. destruct (c_is_infinity _); [lia|]. apply Z.mod_pos_bound. reflexivity. Qed.
Lemma bn_sim sc : simulates (bn256 sc) Bn at1 at2 atT t_ready apart1 apart2. Proof. exact (bn256_simulates sc). Qed.
Definition krel sc : pk (bn256 sc) -> pk Bn -> Prop := @key_rel (bn256 sc) Bn at1 at2 atT t_ready.
Lemma Order_0 : 0 < Order. Proof. reflexivity. Qed.

Lemma bn_row_ok sc w s : Forall (row_ok Order (gxc (bn256 sc)) w) (rows s) -> Forall (row_ok Order (gxc Bn) w) (rows s).
Proof.
  apply Forall_impl. intros r H. unfold row_ok in *. rewrite <- (gxc_sim (bn256 sc) Bn (bn_sim sc)); [exact H|]. apply mod_Order.
Qed.
Lemma bn_data sc w s : map (fun r => gxc (bn256 sc) (dot (re r) w mod Order)) (rows s) = map (fun r => gxc Bn (dot (re r) w mod Order)) (rows s).
Proof. apply map_ext. intros r. apply (gxc_sim (bn256 sc) Bn (bn_sim sc)). apply mod_Order. Qed.

Section Run.
Variable sc : cpoint -> tpoint -> Z * Z * Z.
Local Notation G := (bn256 sc).
Variable s : er1cs (list Z).
Variable T : columns (list Z).
Hypothesis W : well_sized s.
Hypothesis ET : transpose_er1cs s = Some T.
Hypothesis N2 : (2 <= List.length (rows s))%nat.
Hypothesis Nq : Z.of_nat (List.length (rows s)) <= Order.
Variables (c : cache) (pub : nat) (x al be ga de : Z).
Hypothesis Hc : cache_ok Order c.
Hypothesis H0 : 0 <= x /\ 0 <= al /\ 0 <= be /\ 0 <= ga /\ 0 <= de.
Hypothesis R0 : t_ready (g2_base be) /\ t_ready (g2_base ga) /\ t_ready (g2_base de).

Lemma bn_setup : opt_rel (fun k k' => krel sc (fst k) (fst k') /\ snd k = snd k')
  (generate_setup Order G c pub T x al be ga de) (generate_setup Order Bn c pub T x al be ga de).
Proof.
  destruct H0 as (? & ? & ? & ? & ?), R0 as (? & ? & ?).
  apply (setup_sim G Bn (bn_sim sc) Order (List.length (rows s)) (List.length (index_map s))); auto; [exact prime_Order|].
  apply (good_columns_of s T); auto. lia.
Qed.
Lemma bn_setup_some k' c1 : generate_setup Order Bn c pub T x al be ga de = Some (k', c1) ->
  exists k, generate_setup Order G c pub T x al be ga de = Some (k, c1) /\ krel sc k k'.
Proof.
  intros E. assert (H := bn_setup). rewrite E in H. unfold opt_rel in H. destruct (generate_setup Order G c pub T x al be ga de) as [[k c2]|]; [|contradiction].
  cbn [fst snd] in H. destruct H as [H ->]. eauto.
Qed.
Lemma bn_setup_inv k c1 : generate_setup Order G c pub T x al be ga de = Some (k, c1) ->
  exists k', generate_setup Order Bn c pub T x al be ga de = Some (k', c1) /\ krel sc k k'.
Proof.
  intros E. assert (H := bn_setup). rewrite E in H. unfold opt_rel in H. destruct (generate_setup Order Bn c pub T x al be ga de) as [[k' c2]|]; [|contradiction].
  cbn [fst snd] in H. destruct H as [H ->]. eauto.
Qed.

Lemma bn_honest c2 w : cache_ok Order c2 -> (1 <= pub)%nat -> (pub < List.length (index_map s))%nat ->
  List.length w = List.length (index_map s) -> Forall (Z.le 0) w -> Forall (row_ok Order (gxc G) w) (rows s) -> ~ ga ==[Order] 0 -> ~ de ==[Order] 0 ->
  exists k c1 Px c3, generate_setup Order G c pub T x al be ga de = Some (k, c1) /\
    combine_polynomials Order G c2 w T = Some (Px, c3) /\
    (prover_sums Order G apart1 apart2 pub k w Px -> verifier_sums G apart1 k (firstn pub w) ->
     exists p, generate_proofs Order G pub k w Px = Some p /\
     (t_ready (piB G p) -> t_ready (add2 G (piB G p) (beta2 G k)) ->
      exists b, verify_proof G k p (firstn pub w) = Some b /\
      forall Ep Gp, interpolates Order (map (fun r => dot (re r) w mod Order) (rows s)) Ep ->
        interpolates Order (map (fun r => gxc G (dot (re r) w mod Order)) (rows s)) Gp ->
        (b = true <-> gxc G (poly_at Ep x mod Order) ==[Order] poly_at Gp x))).
Proof.
  intros Hc2 P1 P2 Lw Hw SAT Nga Nde. assert (H := H0). destruct H as (Hx & Hal & Hbe & Hga & Hde).
  destruct (honest Order prime_Order Bn Bn_lawful s T W ET N2 Nq c c2 pub w x al be ga de Hc Hc2 P1 P2 Lw Hw (bn_row_ok sc w s SAT) Hx Hal Hbe Hga Hde Nga Nde)
    as (k' & c1 & Px & c3 & E1 & E2 & H).
  destruct (bn_setup_some k' c1 E1) as (k & E1' & K). exists k, c1, Px, c3. split; [exact E1'|].
  split; [rewrite (combine_sim G Bn (bn_sim sc)); [exact E2|exact Order_0]|].
  assert (Nw : w <> []) by (destruct w; [cbn in *; lia|discriminate]).
  assert (RP : reduced Order Px).
  { destruct (combine_spec Order prime_Order Bn s T c2 w ltac:(lia) Nq W ET Hc2 Lw Nw) as (Px' & c2' & E' & _ & L & R & _). rewrite E2 in E'. injection E' as <- <-. exact R. }
  intros S1 S2. assert (S1' := proj1 (prover_sums_iff G Bn (bn_sim sc) Order pub k k' w Px Order_0 K Hw RP) S1).
  assert (Hf : Forall (Z.le 0) (firstn pub w)) by now apply Forall_firstn.
  assert (S2' := proj1 (verifier_sums_iff G Bn (bn_sim sc) k k' _ K Hf) S2).
  destruct (H S1' S2') as (p' & b & E3 & E4 & HB).
  assert (PS := prove_sim G Bn (bn_sim sc) Order pub k k' w Px Order_0 K Hw RP S1'). rewrite E3 in PS. unfold opt_rel in PS.
  destruct (generate_proofs Order G pub k w Px) as [p|]; [|contradiction]. exists p. split; [reflexivity|]. intros Rb Rs. exists b.
  split; [rewrite (verify_sim G Bn (bn_sim sc) k k' p p' _ K PS Hf S2' Rb Rs); exact E4|].
  intros Ep Gp I1 I2. rewrite bn_data in I2. rewrite (gxc_sim G Bn (bn_sim sc)) by apply mod_Order. exact (HB Ep Gp I1 I2).
Qed.
End Run.

(** C70.  Honest proofs with the code's groups.  [prover_sums ... apart1 apart2]: no step of a sum adds a point other than infinity
    in place to an equal point (C52); [t_ready]: see C67. *)
Theorem C70_honest : forall sc s T c c2 pub w x al be ga de, (2 <= List.length (rows s))%nat ->
  Z.of_nat (List.length (rows s)) <= Order -> well_sized s -> transpose_er1cs s = Some T ->
  cache_ok Order c -> cache_ok Order c2 -> (1 <= pub)%nat -> (pub < List.length (index_map s))%nat ->
  List.length w = List.length (index_map s) -> Forall (Z.le 0) w -> Forall (row_ok Order (fun k => g1_x (g1_base k)) w) (rows s) ->
  0 <= x -> 0 <= al -> 0 <= be -> 0 <= ga -> 0 <= de -> ~ ga ==[Order] 0 -> ~ de ==[Order] 0 ->
  t_ready (g2_base be) -> t_ready (g2_base ga) -> t_ready (g2_base de) ->
  let G := bn256 sc in
  exists k c1 Px c3, generate_setup Order G c pub T x al be ga de = Some (k, c1) /\
    combine_polynomials Order G c2 w T = Some (Px, c3) /\
    (prover_sums Order G apart1 apart2 pub k w Px -> verifier_sums G apart1 k (firstn pub w) ->
     exists p, generate_proofs Order G pub k w Px = Some p /\
     (t_ready (piB G p) -> t_ready (add2 G (piB G p) (beta2 G k)) ->
      exists b, verify_proof G k p (firstn pub w) = Some b /\
      forall Ep Gp, interpolates Order (map (fun r => dot (re r) w mod Order) (rows s)) Ep ->
        interpolates Order (map (fun r => g1_x (g1_base (dot (re r) w mod Order))) (rows s)) Gp ->
        (b = true <-> g1_x (g1_base (poly_at Ep x mod Order)) ==[Order] poly_at Gp x))).
Proof.
  intros sc s T c c2 pub w x al be ga de N2 Nq W ET Hc Hc2 P1 P2 Lw Hw SAT Hx Hal Hbe Hga Hde Nga Nde R1 R2 R3 G.
  exact (bn_honest sc s T W ET N2 Nq c pub x al be ga de Hc (conj Hx (conj Hal (conj Hbe (conj Hga Hde)))) (conj R1 (conj R2 R3)) c2 w Hc2 P1 P2 Lw Hw SAT Nga Nde).
Qed.
Print Assumptions C70_honest.
(** Without base multiplications an honest proof is accepted. *)
Theorem C70_accepted : forall sc s T c c2 pub w x al be ga de, (2 <= List.length (rows s))%nat ->
  Z.of_nat (List.length (rows s)) <= Order -> well_sized s -> exponent_free s -> transpose_er1cs s = Some T ->
  cache_ok Order c -> cache_ok Order c2 -> (1 <= pub)%nat -> (pub < List.length (index_map s))%nat ->
  List.length w = List.length (index_map s) -> Forall (Z.le 0) w -> Forall (fun r => dot (rl r) w * dot (rr r) w ==[Order] dot (ro r) w) (rows s) ->
  0 <= x -> 0 <= al -> 0 <= be -> 0 <= ga -> 0 <= de -> ~ ga ==[Order] 0 -> ~ de ==[Order] 0 ->
  t_ready (g2_base be) -> t_ready (g2_base ga) -> t_ready (g2_base de) ->
  let G := bn256 sc in
  exists k c1 Px c3, generate_setup Order G c pub T x al be ga de = Some (k, c1) /\
    combine_polynomials Order G c2 w T = Some (Px, c3) /\
    (prover_sums Order G apart1 apart2 pub k w Px -> verifier_sums G apart1 k (firstn pub w) ->
     exists p, generate_proofs Order G pub k w Px = Some p /\
     (t_ready (piB G p) -> t_ready (add2 G (piB G p) (beta2 G k)) -> verify_proof G k p (firstn pub w) = Some true)).
Proof.
  intros sc s T c c2 pub w x al be ga de N2 Nq W Free ET Hc Hc2 P1 P2 Lw Hw SAT Hx Hal Hbe Hga Hde Nga Nde R1 R2 R3 G.
  assert (SAT' : Forall (row_ok Order (gxc G) w) (rows s)).
  { rewrite Forall_forall in *. intros r Hr. unfold row_ok. unfold exponent_free in Free. rewrite Forall_forall in Free.
    rewrite (dot_zero (re r) (Free r Hr) w). change (gxc G (0 mod Order)) with (gen_x 0). rewrite gen_x_0, Z.add_0_r. now apply SAT. }
  destruct (bn_honest sc s T W ET N2 Nq c pub x al be ga de Hc (conj Hx (conj Hal (conj Hbe (conj Hga Hde)))) (conj R1 (conj R2 R3)) c2 w Hc2 P1 P2 Lw Hw SAT' Nga Nde)
    as (k & c1 & Px & c3 & E1 & E2 & H).
  exists k, c1, Px, c3. split; [exact E1|]. split; [exact E2|]. intros S1 S2. destruct (H S1 S2) as (p & E3 & H2). exists p. split; [exact E3|].
  intros Rb Rs. destruct (H2 Rb Rs) as (b & E4 & HB). etransitivity; [exact E4|]. f_equal.
  destruct (free_data Order prime_Order Bn Bn_lawful s w Free) as [D1 D2]. rewrite (bn_data sc w s), D1, D2 in HB.
  assert (I0 : interpolates Order (repeat 0 (List.length (rows s))) [0]).
  { apply interpolates_const; rewrite repeat_length; [lia|]. intros i Hi. rewrite nth_repeat. reflexivity. }
  apply (HB [0] [0] I0 I0). replace (poly_at [0] x) with 0 by (unfold poly_at; cbn; ring).
  apply cong_eq. exact gen_x_0.
Qed.
Print Assumptions C70_accepted.

(** C71.  Forgery with the code's groups.  The forger chooses w and f with (l - f) r + X(g^f) = o in every row and
    needs the key only. *)
Theorem C71_forged : forall sc s T pub w f, (2 <= List.length (rows s))%nat ->
  Z.of_nat (List.length (rows s)) <= Order -> well_sized s -> exponent_free s -> transpose_er1cs s = Some T ->
  (1 <= pub)%nat -> (pub < List.length (index_map s))%nat -> List.length w = List.length (index_map s) -> Forall (Z.le 0) w -> 0 <= f ->
  Forall (fun r => (dot (rl r) w - f) * dot (rr r) w + g1_x (g1_base f) ==[Order] dot (ro r) w) (rows s) ->
  let G := bn256 sc in
  exists Qx, Forall (Z.le 0) Qx /\ forall c k c1 x al be ga de, cache_ok Order c ->
    0 <= x -> 0 <= al -> 0 <= be -> 0 <= ga -> 0 <= de -> ~ ga ==[Order] 0 -> ~ de ==[Order] 0 ->
    t_ready (g2_base be) -> t_ready (g2_base ga) -> t_ready (g2_base de) ->
    generate_setup Order G c pub T x al be ga de = Some (k, c1) -> verifier_sums G apart1 k (firstn pub w) ->
    exists p, forge G pub k w Qx f = Some p /\
    (t_ready (piB G p) -> t_ready (add2 G (piB G p) (beta2 G k)) -> verify_proof G k p (firstn pub w) = Some true).
Proof.
  intros sc s T pub w f N2 Nq W Free ET P1 P2 Lw Hw Hf EQ G.
  assert (EQ' : Forall (fun r => (dot (rl r) w - f) * dot (rr r) w + gxc Bn f ==[Order] dot (ro r) w) (rows s)).
  { revert EQ. apply Forall_impl. intros r. rewrite <- (gxc_sim G Bn (bn_sim sc) f Hf). exact (fun h => h). }
  destruct (forged Order prime_Order Bn Bn_lawful s T W ET N2 Nq pub w f Free P1 P2 Lw Hw Hf EQ') as (Qx & NQ & H).
  exists Qx. split; [exact NQ|]. intros c k c1 x al be ga de Hc Hx Hal Hbe Hga Hde Nga Nde R1 R2 R3 EK VS.
  destruct (bn_setup_inv sc s T W ET N2 Nq c pub x al be ga de Hc (conj Hx (conj Hal (conj Hbe (conj Hga Hde)))) (conj R1 (conj R2 R3)) k c1 EK) as (k' & EK' & K).
  assert (Hfi : Forall (Z.le 0) (firstn pub w)) by now apply Forall_firstn.
  assert (S2' := proj1 (verifier_sums_iff G Bn (bn_sim sc) k k' _ K Hfi) VS).
  destruct (H c k' c1 x al be ga de Hc Hx Hal Hbe Hga Hde Nga Nde EK' S2') as (p' & E1 & E2).
  assert (FS := forge_sim G Bn (bn_sim sc) pub k k' w Qx f K Hw NQ Hf). rewrite E1 in FS. unfold opt_rel in FS.
  destruct (forge G pub k w Qx f) as [p|]; [|contradiction]. exists p. split; [reflexivity|]. intros Rb Rs.
  rewrite (verify_sim G Bn (bn_sim sc) k k' p p' _ K FS Hfi S2' Rb Rs). exact E2.
Qed.
Print Assumptions C71_forged.
(** The false statement of C46, that 7 is a square. *)
Theorem C71_seven : forall sc, let G := bn256 sc in
  exists Qx, forall c k c1 x al be ga de, cache_ok Order c ->
    0 <= x -> 0 <= al -> 0 <= be -> 0 <= ga -> 0 <= de -> ~ ga ==[Order] 0 -> ~ de ==[Order] 0 ->
    t_ready (g2_base be) -> t_ready (g2_base ga) -> t_ready (g2_base de) ->
    generate_setup Order G c 2 square_T x al be ga de = Some (k, c1) -> verifier_sums G apart1 k [1; 7] ->
    exists p, forge G 2 k [1; 7; 3; 7] Qx 1 = Some p /\
    (t_ready (piB G p) -> t_ready (add2 G (piB G p) (beta2 G k)) -> verify_proof G k p [1; 7] = Some true).
Proof.
  intros sc G. destruct square_facts as [W Free].
  destruct (C71_forged sc square_system square_T 2 [1; 7; 3; 7] 1) as (Qx & _ & H); auto; try (cbn; lia); [discriminate|repeat constructor; lia| |exists Qx; exact H].
  assert (X : g1_x (g1_base 1) = 1) by exact gen_x_1. repeat constructor; rewrite X; apply cong_eq; reflexivity.
Qed.
Print Assumptions C71_seven.

(** C72.  What VerifyProof decides.  [vs] holds the values at x of the polynomials through the columns. *)
Definition values_at (cols : list (list Z)) (x : Z) (vs : list Z) : Prop :=
  List.length vs = List.length cols /\
  forall j p, (j < List.length cols)%nat -> interpolates Order (nth j cols []) p -> nth j vs 0 ==[Order] poly_at p x.
Definition unit_vector (j m : nat) : list Z := repeat 0 j ++ 1 :: repeat 0 (m - j - 1).
Lemma dot_zeros a n : dot a (repeat 0 n) = 0.
Proof. revert n. induction a as [|x a IH]; intros [|n]; cbn; auto. rewrite IH. ring. Qed.
Lemma dot_unit a : forall j, (j < List.length a)%nat -> dot a (unit_vector j (List.length a)) = nth j a 0.
Proof.
  induction a as [|x a IH]; intros j L; cbn in L; [lia|]. destruct j as [|j]; unfold unit_vector in *.
  - cbn [repeat app nth List.length dot Nat.sub]. rewrite Nat.sub_0_r, dot_zeros. ring.
  - cbn [repeat app nth List.length dot Nat.sub]. rewrite IH by lia. ring.
Qed.
Lemma nth_map_seq (g : nat -> Z) m j : (j < m)%nat -> nth j (map g (seq 0 m)) 0 = g j.
Proof. intros L. rewrite (nth_indep _ 0 (g 0%nat)) by (rewrite map_length, seq_length; lia). now rewrite map_nth, seq_nth. Qed.
Lemma values_of_columns n cols x vs : (1 <= n)%nat -> Forall (fun c => List.length c = n) cols -> column_values Order cols x vs -> values_at cols x vs.
Proof.
  intros Hn F [L H]. split; [exact L|]. intros j p Hj I.
  assert (Lu : List.length (unit_vector j (List.length cols)) = List.length cols) by (unfold unit_vector; rewrite app_length; cbn; rewrite !repeat_length; lia).
  assert (Nu : unit_vector j (List.length cols) <> []) by (unfold unit_vector; destruct (repeat 0 j); discriminate).
  destruct (weighted_spec Order n cols (unit_vector j (List.length cols)) Order_0 F Lu Nu) as (d & E & Ld & _ & Hd).
  assert (Lc : List.length (nth j cols []) = n) by (rewrite Forall_forall in F; apply F, nth_In, Hj).
  rewrite <- (dot_unit vs j) by lia. rewrite L. apply (H _ d); auto. apply (interpolates_ext Order (nth j cols [])); [lia| |exact I].
  intros i Hi. rewrite Hd. apply cong_eq. rewrite Lu.
  transitivity (dot (map (fun k => nth i (nth k cols []) 0) (seq 0 (List.length cols))) (unit_vector j (List.length cols))).
  - replace (unit_vector j (List.length cols)) with (unit_vector j (List.length (map (fun k => nth i (nth k cols []) 0) (seq 0 (List.length cols))))) by now rewrite map_length, seq_length.
    rewrite dot_unit by now rewrite map_length, seq_length. now rewrite nth_map_seq.
  - rewrite dot_sum by (rewrite map_length, seq_length; lia). rewrite Lu. f_equal. apply map_ext_in. intros k Hk. apply in_seq in Hk. rewrite nth_map_seq by lia. reflexivity.
Qed.
Lemma dot_firstn a w : dot (firstn (List.length w) a) w = dot a w.
Proof. revert w. induction a as [|x a IH]; intros [|y w]; cbn; auto. now rewrite IH. Qed.

Theorem C72_equation : forall sc s T c pub k c1 x al be ga de, (2 <= List.length (rows s))%nat ->
  Z.of_nat (List.length (rows s)) <= Order -> well_sized s -> transpose_er1cs s = Some T -> cache_ok Order c ->
  (1 <= pub)%nat -> (pub < List.length (index_map s))%nat ->
  0 <= x -> 0 <= al -> 0 <= be -> 0 <= ga -> 0 <= de -> ~ ga ==[Order] 0 -> ~ de ==[Order] 0 ->
  t_ready (g2_base be) -> t_ready (g2_base ga) -> t_ready (g2_base de) ->
  let G := bn256 sc in
  generate_setup Order G c pub T x al be ga de = Some (k, c1) ->
  exists vl vr ve vo, values_at (cl T) x vl /\ values_at (cr T) x vr /\ values_at (ce T) x ve /\ values_at (co T) x vo /\
  forall p sig a b d f, List.length sig = pub -> Forall (Z.le 0) sig -> verifier_sums G apart1 k sig ->
    at1 (piA G p) a -> at2 (piB G p) b -> at1 (piC G p) d -> at1 (piF G p) f ->
    t_ready (piB G p) -> t_ready (add2 G (piB G p) (beta2 G k)) ->
    exists v, verify_proof G k p sig = Some v /\
    (v = true <-> a * (b + be) + g1_x (g1_base f) ==[Order]
       al * be + (al * dot vr sig + be * dot vl sig + be * dot ve sig + dot vo sig) + d * de + f * b).
Proof.
  intros sc s T c pub k c1 x al be ga de N2 Nq W ET Hc P1 P2 Hx Hal Hbe Hga Hde Nga Nde R1 R2 R3 G EK.
  destruct (bn_setup_inv sc s T W ET N2 Nq c pub x al be ga de Hc (conj Hx (conj Hal (conj Hbe (conj Hga Hde)))) (conj R1 (conj R2 R3)) k c1 EK) as (k' & EK' & K).
  assert (GC := good_columns_of s T W ltac:(lia) ET).
  destruct (setup_spec Order prime_Order Bn _ _ T c pub x al be ga de N2 Nq GC Hc P2 Hx Nga Nde)
    as (k2 & c2 & EK2 & _ & vl & vr & ve & vo & vle & vk & pd & id & ig & dx & Vl & Vr & Ve & Vo & _ & _ & _ & Pk & _ & Hid & Hig & _ & Eig & _ & _ & Lk & _ & _ & Dk & _ & KE).
  rewrite EK' in EK2. injection EK2 as <- <-.
  destruct GC as [_ [_ [[_ F1] [[_ F2] [[_ F3] [_ F4]]]]]].
  exists vl, vr, ve, vo. split; [apply (values_of_columns (List.length (rows s))); auto; lia|]. split; [apply (values_of_columns (List.length (rows s))); auto; lia|].
  split; [apply (values_of_columns (List.length (rows s))); auto; lia|]. split; [apply (values_of_columns (List.length (rows s))); auto; lia|].
  intros p sig a b d f Ls Hs VS HA HB HC HF Rb Rs.
  assert (VS' := proj1 (verifier_sums_iff G Bn (bn_sim sc) k k' _ K Hs) VS).
  assert (Rd : forall n, 0 <= n < Order -> n = n mod Order) by (intros; symmetry; now apply Z.mod_small).
  set (vg := map (fun t => fmul Order ig t) (firstn pub vk)) in *.
  assert (Lvg : List.length vg = pub) by (unfold vg; rewrite map_length, firstn_length; lia).
  assert (Pvg : Forall (Z.le 0) vg) by (apply Forall_fmul; exact prime_Order).
  assert (MI : msm (smul1 Bn) (acc1 Bn) (rleo_gamma Bn k') sig = Some (base1 Bn (dot vg sig))).
  { rewrite KE. cbn [rleo_gamma]. apply (msm_exp (smul1 Bn) (acc1 Bn) (base1 Bn) (apart (base1 Bn 0)) (law_smul1 Order Bn Bn_lawful) (law_acc1 Order Bn Bn_lawful)); auto.
    - lia.
    - destruct sig; [cbn in Ls; lia|discriminate].
    - rewrite KE in VS'. exact VS'. }
  destruct (verify_exp Order prime_Order Bn Bn_lawful k' sig a b d f (dot vg sig) al be ga de) as (v & EV & Iv); auto;
    try (destruct HA, HB, HC, HF; lia); try (rewrite KE; reflexivity).
  { apply dot_nonneg; auto. }
  { rewrite KE. cbn [rleo_gamma]. rewrite map_length. lia. }
  exists v. split.
  - rewrite (verify_sim G Bn (bn_sim sc) k k' p (Proof Bn (base1 Bn a) (base2 Bn b) (base1 Bn d) (base1 Bn f)) sig K); auto.
    constructor; cbn [piA piB piC piF].
    + change (base1 Bn a) with (a mod Order). rewrite <- Rd by apply HA. exact HA.
    + change (base2 Bn b) with (b mod Order). rewrite <- Rd by apply HB. exact HB.
    + change (base1 Bn d) with (d mod Order). rewrite <- Rd by apply HC. exact HC.
    + change (base1 Bn f) with (f mod Order). rewrite <- Rd by apply HF. exact HF.
  - change (g1_x (g1_base f)) with (gxc G f). rewrite (gxc_sim G Bn (bn_sim sc) f) by apply HF.
    assert (EI : dot vg sig * ga ==[Order] al * dot vr sig + be * dot vl sig + be * dot ve sig + dot vo sig).
    { unfold vg. rewrite (dot_scale Order ig _ sig). rewrite <- Ls, dot_firstn. rewrite <- (Dk sig).
      transitivity (ga * ig * dot vk sig); [apply cong_eq; ring|]. rewrite Eig. apply cong_eq. ring. }
    rewrite Iv. split; intros E.
    + rewrite E. rewrite EI. reflexivity.
    + rewrite E. rewrite EI. reflexivity.
Qed.
Print Assumptions C72_equation.

(** C73.  Proofs are malleable: from an accepted proof and the key anyone gets others with another PiB. *)
Definition shifted sc (k : pk (bn256 sc)) (p : proof (bn256 sc)) (r : Z) : proof (bn256 sc) :=
  let G := bn256 sc in
  Proof G (piA G p) (t_add TowerModel.g2_zero (piB G p) (g2_smul (delta2 G k) r))
    (c_add (piC G p) (g1_mul (c_add (piA G p) (c_negative (piF G p))) r)) (piF G p).
Theorem C73_malleable : forall sc s T c pub k c1 x al be ga de, (2 <= List.length (rows s))%nat ->
  Z.of_nat (List.length (rows s)) <= Order -> well_sized s -> transpose_er1cs s = Some T -> cache_ok Order c ->
  (1 <= pub)%nat -> (pub < List.length (index_map s))%nat ->
  0 <= x -> 0 <= al -> 0 <= be -> 0 <= ga -> 0 <= de -> ~ ga ==[Order] 0 -> ~ de ==[Order] 0 ->
  t_ready (g2_base be) -> t_ready (g2_base ga) -> t_ready (g2_base de) ->
  let G := bn256 sc in
  generate_setup Order G c pub T x al be ga de = Some (k, c1) ->
  forall p sig a b d f r, List.length sig = pub -> Forall (Z.le 0) sig -> verifier_sums G apart1 k sig ->
    at1 (piA G p) a -> at2 (piB G p) b -> at1 (piC G p) d -> at1 (piF G p) f -> 0 <= r ->
    t_ready (piB G p) -> t_ready (add2 G (piB G p) (beta2 G k)) ->
    t_ready (piB G (shifted sc k p r)) -> t_ready (add2 G (piB G (shifted sc k p r)) (beta2 G k)) ->
    at2 (piB G (shifted sc k p r)) ((b + de * r) mod Order) /\
    verify_proof G k (shifted sc k p r) sig = verify_proof G k p sig.
Proof.
  intros sc s T c pub k c1 x al be ga de N2 Nq W ET Hc P1 P2 Hx Hal Hbe Hga Hde Nga Nde R1 R2 R3 G EK p sig a b d f r Ls Hs VS HA HB HC HF Hr Rb Rs Rb' Rs'.
  assert (ED : delta2 G k = g2_base de).
  { unfold generate_setup in EK. destruct (er1cs_to_eap Order c T) as [[[[[l0 r0] e0] o0] c2]|]; [|discriminate].
    unfold setup_keys in EK. destruct (_ && _)%bool; [|discriminate]. destruct (Nat.leb _ _); [discriminate|].
    destruct (feval_poly Order (domain_poly Order (ngates T)) x); [|discriminate]. destruct (finv Order de); [|discriminate]. destruct (finv Order ga); [|discriminate].
    destruct (wire_keys _ _ _ _ _ _ _ _ _ _ _); [|discriminate]. injection EK as <- _. reflexivity. }
  destruct (C72_equation sc s T c pub k c1 x al be ga de N2 Nq W ET Hc P1 P2 Hx Hal Hbe Hga Hde Nga Nde R1 R2 R3 EK) as (vl & vr & ve & vo & _ & _ & _ & _ & H).
  assert (HD := base2_at de Hde). rewrite <- ED in HD.
  assert (HB' := add2_at TowerModel.g2_zero _ _ _ _ HB (smul2_at _ _ r HD Hr)).
  assert (HC' := add1_at _ _ _ _ HC (smul1_at _ _ r (add1_at _ _ _ _ HA (neg1_at _ _ HF)) Hr)).
  assert (EB : (b + (de mod Order * r) mod Order) mod Order ==[Order] b + de * r) by (rewrite !cong_mod; reflexivity).
  assert (EC : (d + ((a + (- f) mod Order) mod Order * r) mod Order) mod Order ==[Order] d + (a - f) * r).
  { rewrite !cong_mod. apply cong_eq. ring. }
  split.
  - replace ((b + de * r) mod Order) with ((b + (de mod Order * r) mod Order) mod Order); [exact HB'|].
    apply (cong_canon_unique Order); [apply mod_Order|apply mod_Order|]. rewrite (cong_mod Order (b + de * r)). exact EB.
  - destruct (H p sig a b d f Ls Hs VS HA HB HC HF Rb Rs) as (v & EV & Iv).
    destruct (H (shifted sc k p r) sig a _ _ f Ls Hs VS HA HB' HC' HF Rb' Rs') as (v' & EV' & Iv'). etransitivity; [exact EV'|]. symmetry. etransitivity; [exact EV|].
    f_equal. rewrite EB, EC in Iv'.
    assert (Q : v = true <-> v' = true).
    { rewrite Iv, Iv'. rewrite cong_sub_0, (cong_sub_0 Order (a * (b + de * r + be) + _)).
      match goal with |- ?X ==[_] 0 <-> ?Y ==[_] 0 => replace Y with X by ring end. reflexivity. }
    destruct v, v'; try reflexivity; [symmetry; apply Q; reflexivity|apply Q; reflexivity].
Qed.
Print Assumptions C73_malleable.

(** ** Examples: a public cube, with rows y*y = z and z*y = v. *)
Definition cube_system : er1cs (list Z) :=
  ER1CS [("1", 0%nat); ("v", 1%nat); ("y", 2%nat); ("z", 3%nat)]%string []
    [ {| rl := [0; 0; 1; 0]; rr := [0; 0; 1; 0]; re := [0; 0; 0; 0]; ro := [0; 0; 0; 1] |};
      {| rl := [0; 0; 0; 1]; rr := [0; 0; 1; 0]; re := [0; 0; 0; 0]; ro := [0; 1; 0; 0] |} ].
Definition cube_T : columns (list Z) := Columns 2 4
  [[0; 0]; [0; 0]; [1; 0]; [0; 1]] [[0; 0]; [0; 0]; [1; 1]; [0; 0]] [[0; 0]; [0; 0]; [0; 0]; [0; 0]] [[0; 0]; [0; 1]; [0; 0]; [1; 0]].
Lemma cube_facts : transpose_er1cs cube_system = Some cube_T /\ well_sized cube_system /\ exponent_free cube_system.
Proof. split; [reflexivity|]. split; repeat constructor. Qed.
(** The points of a key in G2. *)
Lemma setup_points q G c pub T x al be ga de k c1 : generate_setup q G c pub T x al be ga de = Some (k, c1) ->
  beta2 G k = base2 G be /\
  match er1cs_to_eap q c T with
  | Some (l, r, e, o, _) => match wire_keys q (feval_poly q) (wlen T) 0 x al be l r e o with
                            | Some ks => rx G k = map (base2 G) (map (fun v => snd (fst v)) ks)
                            | None => False
                            end
  | None => False
  end.
Proof.
  unfold generate_setup. destruct (er1cs_to_eap q c T) as [[[[[l r] e] o] c2]|]; [|discriminate].
  unfold setup_keys. destruct (_ && _)%bool; [|discriminate]. destruct (Nat.leb _ _); [discriminate|].
  destruct (feval_poly q (domain_poly q (ngates T)) x); [|discriminate]. destruct (finv q de); [|discriminate]. destruct (finv q ga); [|discriminate].
  destruct (wire_keys _ _ _ _ _ _ _ _ _ _ _); [|discriminate]. intros [= <- <-]. split; [reflexivity|]. cbn [rx]. now rewrite map_map.
Qed.
Definition cube_rx : option (list Z) :=
  match er1cs_to_eap Order [] cube_T with
  | Some (l, r, e, o, _) => option_map (map (fun v => snd (fst v))) (wire_keys Order (feval_poly Order) 4 0 5 11 12 l r e o)
  | None => None
  end.
Lemma cube_rx_value : cube_rx = Some [0; 0; 1; 0]. Proof. vm_compute. reflexivity. Qed.
Lemma cube_points sc k c1 : generate_setup Order (bn256 sc) [] 2 cube_T 5 11 12 13 14 = Some (k, c1) ->
  beta2 (bn256 sc) k = g2_base 12 /\ rx (bn256 sc) k = map g2_base [0; 0; 1; 0].
Proof.
  intros E. apply setup_points in E. destruct E as [E1 E2]. split; [exact E1|]. assert (V := cube_rx_value). unfold cube_rx in V.
  destruct (er1cs_to_eap Order [] cube_T) as [[[[[l r] e] o] c2]|]; [|discriminate V]. change (wlen cube_T) with 4%nat in E2.
  destruct (wire_keys Order (feval_poly Order) 4 0 5 11 12 l r e o) as [ks|]; [|discriminate V]. injection V as V. rewrite V in E2. exact E2.
Qed.
Lemma proof_B q G pub k w Px p : generate_proofs q G pub k w Px = Some p -> msm (smul2 G) (acc2 G) (rx G k) w = Some (piB G p).
Proof.
  unfold generate_proofs. destruct (pdiv q Px (domain G k)) as [[Qx r]|]; [|discriminate]. destruct (is_zero_array r); [|discriminate].
  destruct (msm (smul1 G) (acc1 G) (powers_domain_delta G k) Qx); [|discriminate]. unfold assemble. destruct (msm _ _ (lx_ex G k) w); [|discriminate].
  destruct (msm (smul2 G) _ _ w); [|discriminate]. destruct (msm _ _ (rleo_delta G k) _); [|discriminate]. destruct (msm _ _ (ex G k) w); [|discriminate].
  now intros [= <-].
Qed.
Lemma forge_B G pub k w Qx f p : forge G pub k w Qx f = Some p -> msm (smul2 G) (add2 G) (rx G k) w = Some (piB G p).
Proof.
  unfold forge. destruct (msm _ _ (lx_ex G k) w); [|discriminate].
  destruct (msm (smul2 G) _ _ w); [|discriminate]. destruct (msm _ _ (rleo_delta G k) _); [|discriminate]. destruct (msm _ _ (powers_domain_delta G k) Qx); [|discriminate].
  now intros [= <-].
Qed.
(** z is not one. *)
Definition far (a : tpoint) : bool := negb ((fst (tz a) =? 0) && (snd (tz a) =? 1)).
Lemma far_ready a : far a = true -> t_ready a.
Proof. unfold far, t_ready. destruct (tz a) as [u v]. intros H E. injection E as -> ->. discriminate H. Qed.
Definition far_both (b : option tpoint) : bool := match b with Some b => far b && far (t_add TowerModel.g2_zero b (g2_base 12)) | None => false end.
Lemma far_both_ready b : far_both (Some b) = true -> t_ready b /\ t_ready (t_add TowerModel.g2_zero b (g2_base 12)).
Proof. cbn. intros H. apply andb_prop in H. destruct H as [H1 H2]. split; now apply far_ready. Qed.
Lemma cube_far1 : far_both (msm g2_smul t_add_inplace (map g2_base [0; 0; 1; 0]) [1; 27; 3; 9]) = true. Proof. vm_compute. reflexivity. Qed.
Lemma cube_far2 : far_both (msm g2_smul (t_add TowerModel.g2_zero) (map g2_base [0; 0; 1; 0]) [1; 5; 2; 3]) = true. Proof. vm_compute. reflexivity. Qed.
Lemma cube_ready : t_ready (g2_base 12) /\ t_ready (g2_base 13) /\ t_ready (g2_base 14).
Proof. split; [|split]; apply far_ready; vm_compute; reflexivity. Qed.
Definition cube_safe (w : list Z) : bool :=
  match generate_setup Order Bn [] 2 cube_T 5 11 12 13 14, combine_polynomials Order Bn [] w cube_T with
  | Some (k, _), Some (Px, _) => all_safe Order gen_x 2 k w Px
  | _, _ => false
  end.
Lemma cube_safe1 : cube_safe [1; 27; 3; 9] = true. Proof. vm_compute. reflexivity. Qed.
Lemma cube_safe2 : cube_safe [1; 5; 2; 3] = true. Proof. vm_compute. reflexivity. Qed.
Lemma not_zero z : z mod Order <> 0 -> ~ z ==[Order] 0.
Proof. intros N C. apply N. apply cong_mod_iff in C; [exact C|discriminate]. Qed.
Lemma nz13 : ~ 13 ==[Order] 0. Proof. apply not_zero. vm_compute. discriminate. Qed.
Lemma nz14 : ~ 14 ==[Order] 0. Proof. apply not_zero. vm_compute. discriminate. Qed.
Lemma cube_size : Z.of_nat (List.length (rows cube_system)) <= Order. Proof. discriminate. Qed.
Lemma cube_safe_run sc w k c1 Px c3 : cube_safe w = true -> Forall (Z.le 0) w -> List.length w = 4%nat ->
  generate_setup Order (bn256 sc) [] 2 cube_T 5 11 12 13 14 = Some (k, c1) -> combine_polynomials Order (bn256 sc) [] w cube_T = Some (Px, c3) ->
  prover_sums Order (bn256 sc) apart1 apart2 2 k w Px /\ verifier_sums (bn256 sc) apart1 k (firstn 2 w).
Proof.
  intros C Hw Lw E1 E2. destruct cube_facts as (ET & W & Free). unfold cube_safe in C.
  destruct (bn_setup_inv sc cube_system cube_T W ET (le_n 2) cube_size [] 2 5 11 12 13 14 (cache_ok_nil Order) ltac:(lia) cube_ready k c1 E1) as (k' & EK' & K).
  rewrite EK' in C. assert (E2' := E2). rewrite (combine_sim (bn256 sc) Bn (bn_sim sc) Order [] w cube_T Order_0) in E2'. rewrite E2' in C.
  apply all_safe_ok in C. destruct C as [C1 C2].
  assert (RP : reduced Order Px).
  { destruct (combine_spec Order prime_Order Bn cube_system cube_T [] w (le_S _ _ (le_n 1)) cube_size W ET (cache_ok_nil Order) Lw ltac:(destruct w; discriminate)) as (Px' & c2' & E' & _ & L & R & _).
    rewrite E2' in E'. injection E' as <- <-. exact R. }
  split; [apply (proj2 (prover_sums_iff (bn256 sc) Bn (bn_sim sc) Order 2 k k' w Px Order_0 K Hw RP)); exact C1|].
  apply (proj2 (verifier_sums_iff (bn256 sc) Bn (bn_sim sc) k k' (firstn 2 w) K (Forall_firstn _ 2 w Hw))). exact C2.
Qed.
(** y = 3: the honest proof for v = 27 is made and accepted. *)
Example C70_case : forall sc, exists k c1 Px c3 p, generate_setup Order (bn256 sc) [] 2 cube_T 5 11 12 13 14 = Some (k, c1) /\
  combine_polynomials Order (bn256 sc) [] [1; 27; 3; 9] cube_T = Some (Px, c3) /\
  generate_proofs Order (bn256 sc) 2 k [1; 27; 3; 9] Px = Some p /\ verify_proof (bn256 sc) k p [1; 27] = Some true.
Proof.
  intros sc. destruct cube_facts as (ET & W & Free). destruct cube_ready as (R1 & R2 & R3). assert (Hw : Forall (Z.le 0) [1; 27; 3; 9]) by (repeat constructor; lia).
  assert (SAT : Forall (fun r => dot (rl r) [1; 27; 3; 9] * dot (rr r) [1; 27; 3; 9] ==[Order] dot (ro r) [1; 27; 3; 9]) (rows cube_system)).
  { apply Forall_cons; [apply cong_eq; reflexivity|]. apply Forall_cons; [apply cong_eq; reflexivity|]. apply Forall_nil. }
  destruct (C70_accepted sc cube_system cube_T [] [] 2 [1; 27; 3; 9] 5 11 12 13 14 (le_n 2) cube_size W Free ET (cache_ok_nil Order) (cache_ok_nil Order)
    (le_S _ _ (le_n 1)) (le_S _ _ (le_n 3)) eq_refl Hw SAT ltac:(lia) ltac:(lia) ltac:(lia) ltac:(lia) ltac:(lia) nz13 nz14 R1 R2 R3) as (k & c1 & Px & c3 & E1 & E2 & H).
  destruct (cube_safe_run sc _ _ _ _ _ cube_safe1 Hw eq_refl E1 E2) as [S1 S2]. destruct (H S1 S2) as (p & E3 & H2).
  exists k, c1, Px, c3, p. split; [exact E1|]. split; [exact E2|]. split; [exact E3|].
  assert (B := proof_B _ _ _ _ _ _ _ E3). destruct (cube_points sc k c1 E1) as [P1 P2]. rewrite P2 in B. assert (F := cube_far1).
  change (msm g2_smul t_add_inplace (map g2_base [0; 0; 1; 0]) [1; 27; 3; 9] = Some (piB (bn256 sc) p)) in B. rewrite B in F. apply far_both_ready in F.
  destruct F as [F1 F2]. apply H2; [exact F1|]. rewrite P1. exact F2.
Qed.
(** v = 5: a forged proof is accepted; 5 is not a cube. *)
Lemma not_a_cube : forall y, ~ y * y * y ==[Order] 5.
Proof.
  intros y H. assert (E : (zpowmod Order 5 ((Order - 1) / 3) - 1) mod Order <> 0) by (vm_compute; discriminate).
  assert (Ny : ~ y ==[Order] 0). { intros C. apply (not_zero 5); [vm_compute; discriminate|]. rewrite <- H, C. reflexivity. }
  assert (F := fermat Order y prime_Order Ny). assert (D : Order - 1 = 3 * ((Order - 1) / 3)) by (vm_compute; reflexivity).
  assert (D0 : 0 <= (Order - 1) / 3) by (apply Z.div_pos; [assert (O1 := Order_1); lia|reflexivity]).
  assert (Q := zpowmod_cong Order 5 ((Order - 1) / 3) D0).
  assert (C : 5 ^ ((Order - 1) / 3) ==[Order] 1).
  { rewrite <- (cong_pow Order _ _ ((Order - 1) / 3) H). rewrite D in F. rewrite (Z.pow_mul_r y 3 _ ltac:(lia) D0) in F.
    transitivity ((y ^ 3) ^ ((Order - 1) / 3)); [|exact F]. apply cong_eq. f_equal. ring. }
  apply (not_zero _ E). apply -> cong_sub_0. etransitivity; [exact Q|exact C].
Qed.
Example C71_case : forall sc, exists Qx k c1 p, generate_setup Order (bn256 sc) [] 2 cube_T 5 11 12 13 14 = Some (k, c1) /\
  forge (bn256 sc) 2 k [1; 5; 2; 3] Qx 1 = Some p /\ verify_proof (bn256 sc) k p [1; 5] = Some true /\ forall y, ~ y * y * y ==[Order] 5.
Proof.
  intros sc. destruct cube_facts as (ET & W & Free). destruct cube_ready as (R1 & R2 & R3). assert (Hw : Forall (Z.le 0) [1; 5; 2; 3]) by (repeat constructor; lia).
  destruct (C70_case sc) as (k & c1 & _ & _ & _ & E1 & _).
  assert (EQ : Forall (fun r => (dot (rl r) [1; 5; 2; 3] - 1) * dot (rr r) [1; 5; 2; 3] + g1_x (g1_base 1) ==[Order] dot (ro r) [1; 5; 2; 3]) (rows cube_system)).
  { change (g1_x (g1_base 1)) with (gen_x 1). rewrite gen_x_1. apply Forall_cons; [apply cong_eq; reflexivity|]. apply Forall_cons; [apply cong_eq; reflexivity|]. apply Forall_nil. }
  destruct (C71_forged sc cube_system cube_T 2 [1; 5; 2; 3] 1 (le_n 2) cube_size W Free ET (le_S _ _ (le_n 1)) (le_S _ _ (le_n 3)) eq_refl Hw ltac:(lia) EQ) as (Qx & _ & H).
  destruct (combine_spec Order prime_Order (bn256 sc) cube_system cube_T [] [1; 5; 2; 3] (le_S _ _ (le_n 1)) cube_size W ET (cache_ok_nil Order) eq_refl ltac:(discriminate)) as (Px & c3 & E2 & _).
  destruct (cube_safe_run sc _ _ _ _ _ cube_safe2 Hw eq_refl E1 E2) as [_ S2].
  destruct (H [] k c1 5 11 12 13 14 (cache_ok_nil Order) ltac:(lia) ltac:(lia) ltac:(lia) ltac:(lia) ltac:(lia) nz13 nz14 R1 R2 R3 E1 S2) as (p & E3 & H2).
  exists Qx, k, c1, p. split; [exact E1|]. split; [exact E3|]. split; [|exact not_a_cube].
  assert (B := forge_B _ _ _ _ _ _ _ E3). destruct (cube_points sc k c1 E1) as [P1 P2]. rewrite P2 in B. assert (F := cube_far2).
  change (msm g2_smul (t_add TowerModel.g2_zero) (map g2_base [0; 0; 1; 0]) [1; 5; 2; 3] = Some (piB (bn256 sc) p)) in B. rewrite B in F. apply far_both_ready in F.
  destruct F as [F1 F2]. apply H2; [exact F1|]. rewrite P1. exact F2.
Qed.
(** An arbitrary quadruple of points as proof for v = 27: the verdict is computed from exponents, and it is rejected. *)
Example C72_case : forall sc k c1, generate_setup Order (bn256 sc) [] 2 cube_T 5 11 12 13 14 = Some (k, c1) ->
  verify_proof (bn256 sc) k (Proof (bn256 sc) (g1_base 1) (g2_base 2) (g1_base 3) (g1_base 4)) [1; 27] = Some false.
Proof.
  intros sc k c1 E1. destruct cube_facts as (ET & W & Free). destruct cube_ready as (R1 & R2 & R3). assert (Hw : Forall (Z.le 0) [1; 27; 3; 9]) by (repeat constructor; lia).
  destruct (C72_equation sc cube_system cube_T [] 2 k c1 5 11 12 13 14 (le_n 2) cube_size W ET (cache_ok_nil Order)
    (le_S _ _ (le_n 1)) (le_S _ _ (le_n 3)) ltac:(lia) ltac:(lia) ltac:(lia) ltac:(lia) ltac:(lia) nz13 nz14 R1 R2 R3 E1) as (vl & vr & ve & vo & Vl & Vr & Ve & Vo & H).
  destruct (combine_spec Order prime_Order (bn256 sc) cube_system cube_T [] [1; 27; 3; 9] (le_S _ _ (le_n 1)) cube_size W ET (cache_ok_nil Order) eq_refl ltac:(discriminate)) as (Px & c3 & E2 & _).
  destruct (cube_safe_run sc _ _ _ _ _ cube_safe1 Hw eq_refl E1 E2) as [_ S2].
  destruct (cube_points sc k c1 E1) as [P1 _].
  assert (Small : forall n, 0 <= n < Order -> at1 (g1_base n) n /\ at2 (g2_base n) n).
  { intros n Hn. assert (A := base1_at n ltac:(lia)). assert (B := base2_at n ltac:(lia)). rewrite Z.mod_small in A, B by exact Hn. now split. }
  assert (B : forall n, 0 <= n <= 4 -> 0 <= n < Order) by (intros n ?; split; [lia|]; apply (Z.le_lt_trans _ 4); [lia|reflexivity]).
  destruct (H (Proof (bn256 sc) (g1_base 1) (g2_base 2) (g1_base 3) (g1_base 4)) [1; 27] 1 2 3 4) as (v & EV & Iv);
    [reflexivity|repeat constructor; lia|exact S2|apply Small, B; lia|apply Small, B; lia|apply Small, B; lia|apply Small, B; lia| | |].
  - apply far_ready. vm_compute. reflexivity.
  - rewrite P1. apply far_ready. vm_compute. reflexivity.
  - etransitivity; [exact EV|]. f_equal. destruct v; [|reflexivity]. exfalso. assert (E := proj1 Iv eq_refl). clear Iv EV H.
    assert (Zc : interpolates Order [0; 0] [0]) by (apply interpolates_const; [cbn; lia|]; intros [|[|i]] Hi; try reflexivity; cbn in Hi; lia).
    assert (Vc : interpolates Order [0; 1] [0; 1]).
    { split; [cbn; lia|]. intros [|[|i]] Hi; [apply cong_eq; reflexivity|apply cong_eq; reflexivity|cbn in Hi; lia]. }
    assert (Two : forall cols vs, values_at cols 5 vs -> List.length cols = 4%nat -> nth 0 cols [] = [0; 0] ->
      (nth 1 cols [] = [0; 0] -> dot vs [1; 27] ==[Order] 0) /\ (nth 1 cols [] = [0; 1] -> dot vs [1; 27] ==[Order] 135)).
    { intros cols vs [L V] L4 C0. assert (V0 := V 0%nat [0] ltac:(lia)). rewrite C0 in V0. specialize (V0 Zc).
      destruct vs as [|v0 [|v1 vs]]; cbn in L; try lia. cbn [nth] in V0.
      split; intros C1.
      - assert (V1 := V 1%nat [0] ltac:(lia)). rewrite C1 in V1. specialize (V1 Zc). cbn [nth] in V1. cbn [dot].
        transitivity (v0 * 1 + v1 * 27); [apply cong_eq; destruct vs; cbn; ring|]. rewrite V0, V1. apply cong_eq. reflexivity.
      - assert (V1 := V 1%nat [0; 1] ltac:(lia)). rewrite C1 in V1. specialize (V1 Vc). cbn [nth] in V1. cbn [dot].
        transitivity (v0 * 1 + v1 * 27); [apply cong_eq; destruct vs; cbn; ring|]. rewrite V0, V1. apply cong_eq. reflexivity. }
    assert (Dl := proj1 (Two _ _ Vl eq_refl eq_refl) eq_refl). assert (Dr := proj1 (Two _ _ Vr eq_refl eq_refl) eq_refl).
    assert (De := proj1 (Two _ _ Ve eq_refl eq_refl) eq_refl). assert (Do := proj2 (Two _ _ Vo eq_refl eq_refl) eq_refl).
    rewrite Dl, Dr, De, Do in E. apply (not_zero (g1_x (g1_base 4) - 303)); [vm_compute; discriminate|].
    transitivity (1 * (2 + 12) + g1_x (g1_base 4) - 317); [apply cong_eq; ring|]. rewrite E. apply cong_eq. ring.
Qed.
(** The honest proof for v = 27 shifted by one: it differs and is accepted. *)
Definition far_shift (b : option tpoint) : bool := match b with Some b => let b := t_add TowerModel.g2_zero b (g2_smul (g2_base 14) 1) in
  far b && far (t_add TowerModel.g2_zero b (g2_base 12)) | None => false end.
Lemma far_shift_ready b : far_shift (Some b) = true -> t_ready (t_add TowerModel.g2_zero b (g2_smul (g2_base 14) 1)) /\
  t_ready (t_add TowerModel.g2_zero (t_add TowerModel.g2_zero b (g2_smul (g2_base 14) 1)) (g2_base 12)).
Proof. cbv [far_shift]. cbv zeta. intros H. apply andb_prop in H. destruct H as [H1 H2]. split; now apply far_ready. Qed.
Lemma cube_far3 : far_shift (msm g2_smul t_add_inplace (map g2_base [0; 0; 1; 0]) [1; 27; 3; 9]) = true. Proof. vm_compute. reflexivity. Qed.
Lemma setup_delta q G c pub T x al be ga de k c1 : generate_setup q G c pub T x al be ga de = Some (k, c1) -> delta2 G k = base2 G de.
Proof.
  unfold generate_setup. destruct (er1cs_to_eap q c T) as [[[[[l0 r0] e0] o0] c2]|]; [|discriminate].
  unfold setup_keys. destruct (_ && _)%bool; [|discriminate]. destruct (Nat.leb _ _); [discriminate|].
  destruct (feval_poly q (domain_poly q (ngates T)) x); [|discriminate]. destruct (finv q de); [|discriminate]. destruct (finv q ga); [|discriminate].
  destruct (wire_keys _ _ _ _ _ _ _ _ _ _ _); [|discriminate]. now intros [= <- _].
Qed.
Lemma cube_proof_at sc w k c1 Px c3 p : cube_safe w = true -> Forall (Z.le 0) w -> List.length w = 4%nat ->
  generate_setup Order (bn256 sc) [] 2 cube_T 5 11 12 13 14 = Some (k, c1) -> combine_polynomials Order (bn256 sc) [] w cube_T = Some (Px, c3) ->
  generate_proofs Order (bn256 sc) 2 k w Px = Some p ->
  exists a b d f, at1 (piA (bn256 sc) p) a /\ at2 (piB (bn256 sc) p) b /\ at1 (piC (bn256 sc) p) d /\ at1 (piF (bn256 sc) p) f.
Proof.
  intros C Hw Lw E1 E2 E3. destruct cube_facts as (ET & W & Free). unfold cube_safe in C.
  destruct (bn_setup_inv sc cube_system cube_T W ET (le_n 2) cube_size [] 2 5 11 12 13 14 (cache_ok_nil Order) ltac:(lia) cube_ready k c1 E1) as (k' & EK' & K).
  rewrite EK' in C. assert (E2' := E2). rewrite (combine_sim (bn256 sc) Bn (bn_sim sc) Order [] w cube_T Order_0) in E2'. rewrite E2' in C.
  apply all_safe_ok in C. destruct C as [C1 C2].
  assert (RP : reduced Order Px).
  { destruct (combine_spec Order prime_Order Bn cube_system cube_T [] w (le_S _ _ (le_n 1)) cube_size W ET (cache_ok_nil Order) Lw ltac:(destruct w; discriminate)) as (Px' & c2' & E' & _ & L & R & _).
    rewrite E2' in E'. injection E' as <- <-. exact R. }
  assert (PS := prove_sim (bn256 sc) Bn (bn_sim sc) Order 2 k k' w Px Order_0 K Hw RP C1). rewrite E3 in PS. unfold opt_rel in PS.
  destruct (generate_proofs Order Bn 2 k' w Px) as [p'|]; [|contradiction]. destruct PS as [P1 P2 P3 P4].
  exists (piA Bn p'), (piB Bn p'), (piC Bn p'), (piF Bn p'). split; [exact P1|]. split; [exact P2|]. split; [exact P3|exact P4].
Qed.
Example C73_case : forall sc, exists k c1 p a b, generate_setup Order (bn256 sc) [] 2 cube_T 5 11 12 13 14 = Some (k, c1) /\
  verify_proof (bn256 sc) k p [1; 27] = Some true /\ verify_proof (bn256 sc) k (shifted sc k p 1) [1; 27] = Some true /\
  at2 (piB (bn256 sc) p) a /\ at2 (piB (bn256 sc) (shifted sc k p 1)) b /\ a <> b.
Proof.
  intros sc. destruct (C70_case sc) as (k & c1 & Px & c3 & p & E1 & E2 & E3 & E4). assert (Hw : Forall (Z.le 0) [1; 27; 3; 9]) by (repeat constructor; lia).
  destruct (cube_proof_at sc _ _ _ _ _ p cube_safe1 Hw eq_refl E1 E2 E3) as (a & b & d & f & HA & HB & HC & HF).
  destruct (cube_safe_run sc _ _ _ _ _ cube_safe1 Hw eq_refl E1 E2) as [_ S2]. destruct cube_facts as (ET & W & Free). destruct cube_ready as (R1 & R2 & R3).
  assert (B := proof_B _ _ _ _ _ _ _ E3). destruct (cube_points sc k c1 E1) as [P1 P2]. rewrite P2 in B. assert (F := cube_far1). assert (F' := cube_far3).
  change (msm g2_smul t_add_inplace (map g2_base [0; 0; 1; 0]) [1; 27; 3; 9] = Some (piB (bn256 sc) p)) in B. rewrite B in F, F'.
  apply far_both_ready in F. apply far_shift_ready in F'. destruct F as [F1 F2], F' as [F3 F4].
  assert (ED := setup_delta _ _ _ _ _ _ _ _ _ _ _ _ E1).
  assert (EB : piB (bn256 sc) (shifted sc k p 1) = t_add TowerModel.g2_zero (piB (bn256 sc) p) (g2_smul (g2_base 14) 1)).
  { unfold shifted. cbn [piB]. now rewrite ED. }
  destruct (C73_malleable sc cube_system cube_T [] 2 k c1 5 11 12 13 14 (le_n 2) cube_size W ET (cache_ok_nil Order)
    (le_S _ _ (le_n 1)) (le_S _ _ (le_n 3)) ltac:(lia) ltac:(lia) ltac:(lia) ltac:(lia) ltac:(lia) nz13 nz14 R1 R2 R3 E1
    p [1; 27] a b d f 1 eq_refl ltac:(repeat constructor; lia) S2 HA HB HC HF ltac:(lia) F1) as [V1 V2].
  - rewrite P1. exact F2.
  - rewrite EB. exact F3.
  - rewrite EB, P1. exact F4.
  - exists k, c1, p, b, ((b + 14 * 1) mod Order). split; [exact E1|]. split; [exact E4|]. split; [etransitivity; [exact V2|exact E4]|].
    split; [exact HB|]. split; [exact V1|]. intros C. apply nz14. destruct HB as (Bb & _).
    assert (Q := cong_mod Order (b + 14 * 1)). rewrite <- C in Q. transitivity (b + 14 * 1 - b); [apply cong_eq; ring|]. rewrite <- Q. apply cong_eq. ring.
Qed.

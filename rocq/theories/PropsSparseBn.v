(** C92: sparse setup, proofs and verification with the groups of package bn256. *)
Require Import ZArith NArith Znumtheory Setoid Morphisms Bool String List Lia.
Require Import Verif.Cong Verif.FqModel Verif.FqSpec Verif.FqProofs Verif.PolyModel Verif.PolyProofs Verif.InterpProofs Verif.Pocklington.
Require Import Verif.AvlModel Verif.AvlSpec Verif.AvlProofs Verif.SparseModel Verif.SparseSpec Verif.SparseProofs Verif.SparseProofs2.
Require Import Verif.FactorModel Verif.R1csModel Verif.R1csSpec.
Require Import Verif.CurveModel Verif.CurveSpec Verif.PairModel Verif.PairProofs.
Require Import Verif.SnarkModel Verif.SnarkSpec Verif.SnarkProofs Verif.SnarkProofs2 Verif.SnarkProofs3 Verif.SnarkSim Verif.BnGroups Verif.PropsSnark Verif.PropsBn.
Require Import Verif.SparseSnarkSpec Verif.SparseSnarkProofs Verif.SparseSnarkProofs2 Verif.SparseSim Verif.PropsSparseSnark.
Import ListNotations.
Open Scope Z_scope.

Lemma bn_srow_ok sc w s : Forall (srow_ok Order (gxc (bn256 sc)) w) (rows s) -> Forall (srow_ok Order (gxc Bn) w) (rows s).
Proof.
  apply Forall_impl. intros r H. unfold srow_ok in *. rewrite <- (gxc_sim (bn256 sc) Bn (bn_sim sc)); [exact H|]. apply mod_Order.
Qed.
Lemma bn_sdata sc l : map (fun v => gxc (bn256 sc) (v mod Order)) l = map (fun v => gxc Bn (v mod Order)) l.
Proof. apply map_ext. intros v. apply (gxc_sim (bn256 sc) Bn (bn_sim sc)). apply mod_Order. Qed.
Lemma sparse_setup_domain q G c pub T x al be ga de k c1 : generate_setup_sparse q G c pub T x al be ga de = Some (k, c1) -> domain G k = domain_poly q (ngates T).
Proof.
  unfold generate_setup_sparse. destruct (er1cs_to_eap_sparse q c T) as [[[[[l r] e] o] c2]|]; [|discriminate].
  unfold setup_keys. destruct (_ && _)%bool; [|discriminate]. destruct (Nat.leb _ _); [discriminate|].
  destruct (feval_poly q (domain_poly q (ngates T)) x); [|discriminate]. destruct (finv q de); [|discriminate]. destruct (finv q ga); [|discriminate].
  destruct (wire_keys _ _ _ _ _ _ _ _ _ _ _); [|discriminate]. intros [= <- <-]. reflexivity.
Qed.

Section Run.
Variable sc : cpoint -> tpoint -> Z * Z * Z.
Local Notation G := (bn256 sc).
Variable s : er1cs tree.
Variable T : columns tree.
Hypothesis W : sparse_sized s.
Hypothesis ET : transpose_sparse_er1cs s = Some T.
Hypothesis N1 : (1 <= List.length (rows s))%nat.
Hypothesis Nm : (List.length (rows s) <= List.length (index_map s))%nat.
Hypothesis Nq : Z.of_nat (List.length (index_map s)) <= Order.
Variables (c : scache) (pub : nat) (x al be ga de : Z).
Hypothesis Hc : scache_ok Order c.
Hypothesis Hx : 0 <= x < Order.
Hypothesis H0 : 0 <= al /\ 0 <= be /\ 0 <= ga /\ 0 <= de.
Hypothesis R0 : t_ready (g2_base be) /\ t_ready (g2_base ga) /\ t_ready (g2_base de).

Lemma sbn_setup : opt_rel (fun k k' => krel sc (fst k) (fst k') /\ snd k = snd k')
  (generate_setup_sparse Order G c pub T x al be ga de) (generate_setup_sparse Order Bn c pub T x al be ga de).
Proof.
  destruct H0 as (? & ? & ? & ?), R0 as (? & ? & ?).
  apply (sparse_setup_sim G Bn (bn_sim sc) Order prime_Order s W T ET); auto. lia.
Qed.
Lemma sbn_setup_some k' c1 : generate_setup_sparse Order Bn c pub T x al be ga de = Some (k', c1) ->
  exists k, generate_setup_sparse Order G c pub T x al be ga de = Some (k, c1) /\ krel sc k k'.
Proof.
  intros E. assert (H := sbn_setup). rewrite E in H. unfold opt_rel in H. destruct (generate_setup_sparse Order G c pub T x al be ga de) as [[k c2]|]; [|contradiction].
  cbn [fst snd] in H. destruct H as [H ->]. eauto.
Qed.
Lemma sbn_setup_inv k c1 : generate_setup_sparse Order G c pub T x al be ga de = Some (k, c1) ->
  exists k', generate_setup_sparse Order Bn c pub T x al be ga de = Some (k', c1) /\ krel sc k k'.
Proof.
  intros E. assert (H := sbn_setup). rewrite E in H. unfold opt_rel in H. destruct (generate_setup_sparse Order Bn c pub T x al be ga de) as [[k' c2]|]; [|contradiction].
  cbn [fst snd] in H. destruct H as [H ->]. eauto.
Qed.
(** What the prover divides by in both. *)
Lemma sbn_quotients k' c1 c2 w Px c3 : generate_setup_sparse Order Bn c pub T x al be ga de = Some (k', c1) -> scache_ok Order c2 ->
  List.length w = List.length (index_map s) -> combine_sparse_polynomials Order Bn c2 w T = Some (Px, c3) ->
  forall fuel dom Qx r, from_array (domain Bn k') = Some dom -> divide_sparse Order fuel Px dom = Ret (Qx, r) -> nonneg_entries (ascending Qx).
Proof.
  intros EK Hc2 Lw EC fuel dom Qx r ED E. rewrite (sparse_setup_domain _ _ _ _ _ _ _ _ _ _ _ _ EK) in ED.
  destruct (columns_spec s W) as [T' [ET' [E1 _]]]. rewrite ET in ET'. injection ET' as <-. rewrite E1 in ED.
  destruct (combine_sparse_spec Order prime_Order Bn s W T c2 w ET (law_x0 Order Bn Bn_lawful) N1 ltac:(lia) Hc2 Lw) as (Px' & c3' & EC' & _ & WP & CP & BP & _).
  rewrite EC in EC'. injection EC' as <- <-.
  exact (quotient_entries Order prime_Order s Px dom fuel Qx r N1 ltac:(lia) WP CP BP ED E).
Qed.

Lemma sbn_honest c2 w : scache_ok Order c2 -> (1 <= pub)%nat -> (pub < List.length (index_map s))%nat ->
  List.length w = List.length (index_map s) -> Forall (Z.le 0) w -> Forall (srow_ok Order (gxc G) w) (rows s) -> ~ ga ==[Order] 0 -> ~ de ==[Order] 0 ->
  exists k c1 Px c3, generate_setup_sparse Order G c pub T x al be ga de = Some (k, c1) /\
    combine_sparse_polynomials Order G c2 w T = Some (Px, c3) /\
    (sparse_prover_sums Order G apart1 apart2 pub k w Px -> verifier_sums G apart1 k (firstn pub w) ->
     exists p, (forall fuel, (2 * List.length (rows s) <= fuel)%nat -> generate_proofs_sparse Order G fuel pub k w Px = Ret p) /\
     (t_ready (piB G p) -> t_ready (add2 G (piB G p) (beta2 G k)) ->
      exists b, verify_proof G k p (firstn pub w) = Some b /\
      forall l r g o l' r' e' o', interpolates Order (row_values rl w s) l -> interpolates Order (row_values rr w s) r ->
       interpolates Order (map (fun v => gxc G (v mod Order)) (row_values re w s)) g -> interpolates Order (row_values ro w s) o ->
       interpolates Order (padded (List.length (index_map s)) (row_values rl w s)) l' ->
       interpolates Order (padded (List.length (index_map s)) (row_values rr w s)) r' ->
       interpolates Order (padded (List.length (index_map s)) (row_values re w s)) e' ->
       interpolates Order (padded (List.length (index_map s)) (row_values ro w s)) o' ->
       (b = true <-> poly_at l' x * poly_at r' x + gxc G (poly_at e' x mod Order) - poly_at o' x ==[Order]
                     poly_at l x * poly_at r x + poly_at g x - poly_at o x))).
Proof.
  intros Hc2 P1 P2 Lw Hw SAT Nga Nde. assert (H := H0). destruct H as (Hal & Hbe & Hga & Hde).
  destruct (C91_honest Order Bn s T c c2 pub w x al be ga de prime_Order Bn_lawful W ET N1 Nm Nq Hc Hc2 P1 P2 Lw Hw (bn_srow_ok sc w s SAT) Hx Hal Hbe Hga Hde Nga Nde)
    as (k' & c1 & Px & c3 & E1 & E2 & H).
  destruct (sbn_setup_some k' c1 E1) as (k & E1' & K). exists k, c1, Px, c3. split; [exact E1'|].
  split; [rewrite (combine_sparse_sim G Bn (bn_sim sc) Order prime_Order s W T ET c2 w Lw); exact E2|].
  assert (NQ := sbn_quotients k' c1 c2 w Px c3 E1 Hc2 Lw E2).
  intros S1 S2. assert (S1' := proj1 (sparse_prover_sums_iff G Bn (bn_sim sc) Order pub k k' w Px K Hw NQ) S1).
  assert (Hf : Forall (Z.le 0) (firstn pub w)) by now apply Forall_firstn.
  assert (S2' := proj1 (verifier_sums_iff G Bn (bn_sim sc) k k' _ K Hf) S2).
  destruct (H S1' S2') as (p' & b & E3 & E4 & HB).
  assert (PS := fun fuel => sparse_prove_sim G Bn (bn_sim sc) Order fuel pub k k' w Px K Hw NQ S1').
  assert (EP : exists p, generate_proofs_sparse Order G (2 * List.length (rows s)) pub k w Px = Ret p /\ @proof_rel G Bn at1 at2 p p').
  { assert (X := PS (2 * List.length (rows s))%nat). rewrite (E3 _ (le_n _)) in X. unfold out_rel in X.
    destruct (generate_proofs_sparse Order G (2 * List.length (rows s)) pub k w Px) as [p| |]; try contradiction. eauto. }
  destruct EP as (p & EP & Rp). exists p. split.
  { intros fuel Hf'. revert EP. unfold generate_proofs_sparse. destruct (from_array (domain G k)) as [dom|]; [|discriminate].
    destruct (divide_sparse Order (2 * List.length (rows s)) Px dom) as [[Qx r]| |] eqn:ED; try discriminate.
    rewrite (divide_sparse_mono Order Px dom _ fuel _ Hf' ED). exact (fun h => h). }
  intros Rb Rs. exists b.
  split; [rewrite (verify_sim G Bn (bn_sim sc) k k' p p' _ K Rp Hf S2' Rb Rs); exact E4|].
  intros l r g o l' r' e' o' I1 I2 I3 I4 I5 I6 I7 I8. rewrite bn_sdata in I3. rewrite (gxc_sim G Bn (bn_sim sc)) by apply mod_Order.
  exact (HB l r g o l' r' e' o' I1 I2 I3 I4 I5 I6 I7 I8).
Qed.

(** A run with the groups of package bn256 that ends with acceptance is one with exponents. *)
Lemma sbn_run c2 w k c1 Px c3 fuel p : scache_ok Order c2 -> List.length w = List.length (index_map s) -> Forall (Z.le 0) w ->
  generate_setup_sparse Order G c pub T x al be ga de = Some (k, c1) -> combine_sparse_polynomials Order G c2 w T = Some (Px, c3) ->
  sparse_prover_sums Order G apart1 apart2 pub k w Px -> verifier_sums G apart1 k (firstn pub w) ->
  generate_proofs_sparse Order G fuel pub k w Px = Ret p -> t_ready (piB G p) -> t_ready (add2 G (piB G p) (beta2 G k)) ->
  exists k' p', generate_setup_sparse Order Bn c pub T x al be ga de = Some (k', c1) /\
    sparse_prover_safe Order Bn pub k' w Px /\ verifier_safe Bn k' (firstn pub w) /\
    generate_proofs_sparse Order Bn fuel pub k' w Px = Ret p' /\ verify_proof G k p (firstn pub w) = verify_proof Bn k' p' (firstn pub w).
Proof.
  intros Hc2 Lw Hw EK EC S1 S2 EP Rb Rs. destruct (sbn_setup_inv k c1 EK) as (k' & EK' & K).
  rewrite (combine_sparse_sim G Bn (bn_sim sc) Order prime_Order s W T ET c2 w Lw) in EC.
  assert (NQ := sbn_quotients k' c1 c2 w Px c3 EK' Hc2 Lw EC).
  assert (S1' := proj1 (sparse_prover_sums_iff G Bn (bn_sim sc) Order pub k k' w Px K Hw NQ) S1).
  assert (Hf : Forall (Z.le 0) (firstn pub w)) by now apply Forall_firstn.
  assert (S2' := proj1 (verifier_sums_iff G Bn (bn_sim sc) k k' _ K Hf) S2).
  assert (PS := sparse_prove_sim G Bn (bn_sim sc) Order fuel pub k k' w Px K Hw NQ S1'). rewrite EP in PS. unfold out_rel in PS.
  destruct (generate_proofs_sparse Order Bn fuel pub k' w Px) as [p'| |] eqn:EP'; try contradiction.
  exists k', p'. do 3 (split; [assumption|]). split; [exact EP'|]. exact (verify_sim G Bn (bn_sim sc) k k' p p' _ K PS Hf S2' Rb Rs).
Qed.
End Run.

(** C92.  Honest sparse proofs with the code's groups.  [sparse_prover_sums ... apart1 apart2]: no step of a sum adds a point
    other than infinity in place to an equal point (C52); [t_ready]: see C67. *)
Theorem C92_honest : forall sc s T c c2 pub w x al be ga de, sparse_sized s -> transpose_sparse_er1cs s = Some T ->
  (1 <= List.length (rows s))%nat -> (List.length (rows s) <= List.length (index_map s))%nat ->
  Z.of_nat (List.length (index_map s)) <= Order -> scache_ok Order c -> scache_ok Order c2 -> (1 <= pub)%nat -> (pub < List.length (index_map s))%nat ->
  List.length w = List.length (index_map s) -> Forall (Z.le 0) w -> Forall (srow_ok Order (fun k => g1_x (g1_base k)) w) (rows s) ->
  0 <= x < Order -> 0 <= al -> 0 <= be -> 0 <= ga -> 0 <= de -> ~ ga ==[Order] 0 -> ~ de ==[Order] 0 ->
  t_ready (g2_base be) -> t_ready (g2_base ga) -> t_ready (g2_base de) ->
  let G := bn256 sc in
  exists k c1 Px c3, generate_setup_sparse Order G c pub T x al be ga de = Some (k, c1) /\
    combine_sparse_polynomials Order G c2 w T = Some (Px, c3) /\
    (sparse_prover_sums Order G apart1 apart2 pub k w Px -> verifier_sums G apart1 k (firstn pub w) ->
     exists p, (forall fuel, (2 * List.length (rows s) <= fuel)%nat -> generate_proofs_sparse Order G fuel pub k w Px = Ret p) /\
     (t_ready (piB G p) -> t_ready (add2 G (piB G p) (beta2 G k)) ->
      exists b, verify_proof G k p (firstn pub w) = Some b /\
      forall l r g o l' r' e' o', interpolates Order (row_values rl w s) l -> interpolates Order (row_values rr w s) r ->
       interpolates Order (map (fun v => g1_x (g1_base (v mod Order))) (row_values re w s)) g -> interpolates Order (row_values ro w s) o ->
       interpolates Order (padded (List.length (index_map s)) (row_values rl w s)) l' ->
       interpolates Order (padded (List.length (index_map s)) (row_values rr w s)) r' ->
       interpolates Order (padded (List.length (index_map s)) (row_values re w s)) e' ->
       interpolates Order (padded (List.length (index_map s)) (row_values ro w s)) o' ->
       (b = true <-> poly_at l' x * poly_at r' x + g1_x (g1_base (poly_at e' x mod Order)) - poly_at o' x ==[Order]
                     poly_at l x * poly_at r x + poly_at g x - poly_at o x))).
Proof.
  intros sc s T c c2 pub w x al be ga de W ET N1 Nm Nq Hc Hc2 P1 P2 Lw Hw SAT Hx Hal Hbe Hga Hde Nga Nde R1 R2 R3 G.
  exact (sbn_honest sc s T W ET N1 Nm Nq c pub x al be ga de Hc Hx (conj Hal (conj Hbe (conj Hga Hde))) (conj R1 (conj R2 R3)) c2 w Hc2 P1 P2 Lw Hw SAT Nga Nde).
Qed.
Print Assumptions C92_honest.

(** As many gates as variables, no base multiplications: accepted. *)
Theorem C92_accepted : forall sc s T c c2 pub w x al be ga de, sparse_sized s -> sparse_exponent_free s -> transpose_sparse_er1cs s = Some T ->
  List.length (rows s) = List.length (index_map s) ->
  Z.of_nat (List.length (index_map s)) <= Order -> scache_ok Order c -> scache_ok Order c2 -> (1 <= pub)%nat -> (pub < List.length (index_map s))%nat ->
  List.length w = List.length (index_map s) -> Forall (Z.le 0) w -> Forall (srow_ok Order (fun k => g1_x (g1_base k)) w) (rows s) ->
  0 <= x < Order -> 0 <= al -> 0 <= be -> 0 <= ga -> 0 <= de -> ~ ga ==[Order] 0 -> ~ de ==[Order] 0 ->
  t_ready (g2_base be) -> t_ready (g2_base ga) -> t_ready (g2_base de) ->
  let G := bn256 sc in
  exists k c1 Px c3, generate_setup_sparse Order G c pub T x al be ga de = Some (k, c1) /\
    combine_sparse_polynomials Order G c2 w T = Some (Px, c3) /\
    (sparse_prover_sums Order G apart1 apart2 pub k w Px -> verifier_sums G apart1 k (firstn pub w) ->
     exists p, (forall fuel, (2 * List.length (rows s) <= fuel)%nat -> generate_proofs_sparse Order G fuel pub k w Px = Ret p) /\
     (t_ready (piB G p) -> t_ready (add2 G (piB G p) (beta2 G k)) -> verify_proof G k p (firstn pub w) = Some true)).
Proof.
  intros sc s T c c2 pub w x al be ga de W Free ET NM Nq Hc Hc2 P1 P2 Lw Hw SAT Hx Hal Hbe Hga Hde Nga Nde R1 R2 R3 G. subst G.
  destruct (C92_honest sc s T c c2 pub w x al be ga de W ET ltac:(lia) ltac:(lia) Nq Hc Hc2 P1 P2 Lw Hw SAT Hx Hal Hbe Hga Hde Nga Nde R1 R2 R3)
    as (k & c1 & Px & c3 & E1 & E2 & H).
  exists k, c1, Px, c3. split; [exact E1|]. split; [exact E2|]. intros S1 S2. destruct (H S1 S2) as (p & E3 & H2). exists p. split; [exact E3|]. intros Rb Rs.
  destruct (C91_accepted Order Bn s T c c2 pub w x al be ga de prime_Order Bn_lawful W Free ET NM Nq Hc Hc2 P1 P2 Lw Hw (bn_srow_ok sc w s SAT) Hx Hal Hbe Hga Hde Nga Nde)
    as (k' & c1' & Px' & c3' & E1' & E2' & H').
  assert (HH : 0 <= al /\ 0 <= be /\ 0 <= ga /\ 0 <= de) by (split; [|split; [|split]]; assumption).
  destruct (sbn_run sc s T W ET ltac:(lia) ltac:(lia) Nq c pub x al be ga de Hc Hx HH (conj R1 (conj R2 R3))
    c2 w k c1 Px c3 _ p Hc2 Lw Hw E1 E2 S1 S2 (E3 _ (le_n _)) Rb Rs) as (k2 & p2 & F1 & F2 & F3 & F4 & F5).
  rewrite E1' in F1. injection F1 as <- <-. assert (E2b := E2).
  rewrite (combine_sparse_sim (bn256 sc) Bn (bn_sim sc) Order prime_Order s W T ET c2 w Lw), E2' in E2b. injection E2b as -> ->.
  destruct (H' F2 F3) as (p3 & F6 & F7). rewrite (F6 _ (le_n _)) in F4. injection F4 as ->. etransitivity; [exact F5|exact F7].
Qed.
Print Assumptions C92_accepted.

(** Fewer gates than variables: if the combined polynomial does not also vanish at the points between the number of gates and
    the number of variables, an honest proof is accepted for at most 2m-2 values of the secret point. *)
Theorem C92_rejected : forall sc s T pub w c2 Px c3 i xs, sparse_sized s -> sparse_exponent_free s ->
  transpose_sparse_er1cs s = Some T -> (1 <= List.length (rows s))%nat ->
  Z.of_nat (List.length (index_map s)) <= Order -> scache_ok Order c2 -> (1 <= pub)%nat -> (pub < List.length (index_map s))%nat ->
  List.length w = List.length (index_map s) -> Forall (Z.le 0) w -> Forall (srow_ok Order (fun k => g1_x (g1_base k)) w) (rows s) ->
  let G := bn256 sc in
  combine_sparse_polynomials Order G c2 w T = Some (Px, c3) ->
  (List.length (rows s) <= i)%nat -> (i < List.length (index_map s))%nat -> eval_sparse Order Px (Z.of_nat i) <> Some 0 ->
  NoDup xs ->
  (forall x, In x xs -> 0 <= x < Order /\ exists c al be ga de k c1 fuel p, scache_ok Order c /\ 0 <= al /\ 0 <= be /\ 0 <= ga /\ 0 <= de /\
     ~ ga ==[Order] 0 /\ ~ de ==[Order] 0 /\ t_ready (g2_base be) /\ t_ready (g2_base ga) /\ t_ready (g2_base de) /\
     generate_setup_sparse Order G c pub T x al be ga de = Some (k, c1) /\
     sparse_prover_sums Order G apart1 apart2 pub k w Px /\ verifier_sums G apart1 k (firstn pub w) /\
     generate_proofs_sparse Order G fuel pub k w Px = Ret p /\ t_ready (piB G p) /\ t_ready (add2 G (piB G p) (beta2 G k)) /\
     verify_proof G k p (firstn pub w) = Some true) ->
  (List.length xs <= 2 * List.length (index_map s) - 2)%nat.
Proof.
  intros sc s T pub w c2 Px c3 i xs W Free ET N1 Nq Hc2 P1 P2 Lw Hw SAT G EC Hi1 Hi2 NZ ND HX. subst G.
  assert (EC' := EC). rewrite (combine_sparse_sim (bn256 sc) Bn (bn_sim sc) Order prime_Order s W T ET c2 w Lw) in EC'.
  apply (C91_rejected Order Bn s T pub w c2 Px c3 i xs prime_Order Bn_lawful W Free ET N1 Nq Hc2 P1 P2 Lw Hw (bn_srow_ok sc w s SAT) EC' Hi1 Hi2 NZ ND).
  intros x Ix. destruct (HX x Ix) as (Rx & c & al & be & ga & de & k & c1 & fuel & p & Hc & Hal & Hbe & Hga & Hde & Nga & Nde & R1 & R2 & R3 & EK & S1 & S2 & EP & Rb & Rs & EV).
  split; [exact Rx|].
  assert (HH : 0 <= al /\ 0 <= be /\ 0 <= ga /\ 0 <= de) by (split; [|split; [|split]]; assumption).
  destruct (sbn_run sc s T W ET N1 ltac:(lia) Nq c pub x al be ga de Hc Rx HH (conj R1 (conj R2 R3)) c2 w k c1 Px c3 fuel p Hc2 Lw Hw EK EC S1 S2 EP Rb Rs)
    as (k' & p' & F1 & F2 & F3 & F4 & F5).
  exists c, al, be, ga, de, k', c1, fuel, p'. rewrite F5 in EV.
  exact (conj Hc (conj Hal (conj Hbe (conj Hga (conj Hde (conj Nga (conj Nde (conj F1 (conj F2 (conj F3 (conj F4 EV))))))))))).
Qed.
Print Assumptions C92_rejected.

(** ** Examples *)
(** u = y*y, u*y = 27, 1*y = y: three gates, three variables. *)
Definition bn_cubes : er1cs tree :=
  ER1CS [("1", 0%nat); ("y", 1%nat); ("u", 2%nat)]%string []
    [srow [0; 1] [0; 1] [] [0; 0; 1]; srow [0; 0; 1] [0; 1] [] [27]; srow [1] [0; 1] [] [0; 1]].
(** z = y*y, v = z*y: two gates, four variables. *)
Definition bn_short : er1cs tree :=
  ER1CS [("1", 0%nat); ("v", 1%nat); ("y", 2%nat); ("z", 3%nat)]%string []
    [srow [0; 0; 1] [0; 0; 1] [] [0; 0; 0; 1]; srow [0; 0; 0; 1] [0; 0; 1] [] [0; 1]].
Lemma bn_cubes_sized : sparse_sized bn_cubes.
Proof. repeat (apply Forall_cons; [apply srow_sized; cbn; lia|]). apply Forall_nil. Qed.
Lemma bn_short_sized : sparse_sized bn_short.
Proof. repeat (apply Forall_cons; [apply srow_sized; cbn; lia|]). apply Forall_nil. Qed.
Lemma free_rows w s X : sparse_exponent_free s -> X 0 = 0 ->
  Forall (fun r => edot (ascending (rl r)) w * edot (ascending (rr r)) w ==[Order] edot (ascending (ro r)) w) (rows s) -> Forall (srow_ok Order X w) (rows s).
Proof.
  unfold sparse_exponent_free. intros F X0 H. rewrite Forall_forall in *. intros r Hr. unfold srow_ok. rewrite (F r Hr). change (edot (ascending Leaf) w) with 0.
  rewrite Z.mod_0_l, X0, Z.add_0_r by discriminate. exact (H r Hr).
Qed.
(** The points of a sparse key in G2. *)
Definition sparse_rx (q : Z) (c : scache) (T : columns tree) (x al be : Z) : option (list Z) :=
  match er1cs_to_eap_sparse q c T with
  | Some (l, r, e, o, _) => option_map (map (fun v => snd (fst v))) (wire_keys q (eval_sparse q) (wlen T) 0 x al be l r e o)
  | None => None
  end.
Lemma sparse_points q G c pub T x al be ga de k c1 : generate_setup_sparse q G c pub T x al be ga de = Some (k, c1) ->
  beta2 G k = base2 G be /\ option_map (map (base2 G)) (sparse_rx q c T x al be) = Some (rx G k).
Proof.
  unfold generate_setup_sparse, sparse_rx. destruct (er1cs_to_eap_sparse q c T) as [[[[[l r] e] o] c2]|]; [|discriminate].
  unfold setup_keys. destruct (_ && _)%bool; [|discriminate]. destruct (Nat.leb _ _); [discriminate|].
  destruct (feval_poly q (domain_poly q (ngates T)) x); [|discriminate]. destruct (finv q de); [|discriminate]. destruct (finv q ga); [|discriminate].
  destruct (wire_keys _ _ _ _ _ _ _ _ _ _ _); [|discriminate]. intros [= <- <-]. split; [reflexivity|]. cbn [rx option_map]. now rewrite map_map.
Qed.
Lemma sparse_proof_B q G fuel pub k w Px p : generate_proofs_sparse q G fuel pub k w Px = Ret p -> msm (smul2 G) (acc2 G) (rx G k) w = Some (piB G p).
Proof.
  unfold generate_proofs_sparse. destruct (from_array (domain G k)) as [dom|]; [|discriminate]. destruct (divide_sparse q fuel Px dom) as [[Qx r]| |]; try discriminate.
  destruct (Nat.ltb 0 (size r)); [discriminate|].
  destruct (sparse_msm G (powers_domain_delta G k) (ascending Qx) (base1 G 0)); [|discriminate]. unfold assemble. destruct (msm _ _ (lx_ex G k) w); [|discriminate].
  destruct (msm (smul2 G) _ _ w); [|discriminate]. destruct (msm _ _ (rleo_delta G k) _); [|discriminate]. destruct (msm _ _ (ex G k) w); [|discriminate].
  now intros [= <-].
Qed.
Definition tr (s : er1cs tree) : columns tree := match transpose_sparse_er1cs s with Some T => T | None => Columns 0 0 [] [] [] [] end.
Lemma tr_ok s : sparse_sized s -> transpose_sparse_er1cs s = Some (tr s).
Proof. intros W. unfold tr. destruct (columns_spec s W) as [T [-> _]]. reflexivity. Qed.
Definition bn_sparse_safe (s : er1cs tree) (pub : nat) (w : list Z) : bool :=
  match generate_setup_sparse Order Bn [] pub (tr s) 5 11 12 13 14, combine_sparse_polynomials Order Bn [] w (tr s) with
  | Some (k, _), Some (Px, _) => all_safe_sparse Order gen_x pub k w Px
  | _, _ => false
  end.
Lemma bn_cubes_safe : bn_sparse_safe bn_cubes 1 [1; 3; 9] = true. Proof. vm_compute. reflexivity. Qed.
Lemma bn_short_safe : bn_sparse_safe bn_short 2 [1; 27; 3; 9] = true. Proof. vm_compute. reflexivity. Qed.
Lemma bn_cubes_rx : sparse_rx Order [] (tr bn_cubes) 5 11 12 = Some [0; 1; 0]. Proof. vm_compute. reflexivity. Qed.
Lemma bn_short_rx : sparse_rx Order [] (tr bn_short) 5 11 12 = Some [0; 0; 11; 0]. Proof. vm_compute. reflexivity. Qed.
Lemma bn_cubes_far : far_both (msm g2_smul t_add_inplace (map g2_base [0; 1; 0]) [1; 3; 9]) = true. Proof. vm_compute. reflexivity. Qed.
Lemma bn_short_far : far_both (msm g2_smul t_add_inplace (map g2_base [0; 0; 11; 0]) [1; 27; 3; 9]) = true. Proof. vm_compute. reflexivity. Qed.
Lemma sparse_safe_run sc s pub w k c1 Px c3 : sparse_sized s -> (1 <= List.length (rows s))%nat -> (List.length (rows s) <= List.length (index_map s))%nat ->
  Z.of_nat (List.length (index_map s)) <= Order -> bn_sparse_safe s pub w = true -> Forall (Z.le 0) w -> List.length w = List.length (index_map s) ->
  generate_setup_sparse Order (bn256 sc) [] pub (tr s) 5 11 12 13 14 = Some (k, c1) -> combine_sparse_polynomials Order (bn256 sc) [] w (tr s) = Some (Px, c3) ->
  sparse_prover_sums Order (bn256 sc) apart1 apart2 pub k w Px /\ verifier_sums (bn256 sc) apart1 k (firstn pub w).
Proof.
  intros W N1 Nm Nq C Hw Lw E1 E2. assert (ET := tr_ok s W). unfold bn_sparse_safe in C.
  assert (x5 : 0 <= 5 < Order) by (split; [discriminate|reflexivity]). assert (Hc := scache_ok_nil Order).
  destruct (sbn_setup_inv sc s (tr s) W ET N1 Nm Nq [] pub 5 11 12 13 14 Hc x5 ltac:(lia) cube_ready k c1 E1) as (k' & EK' & K).
  rewrite EK' in C. rewrite (combine_sparse_sim (bn256 sc) Bn (bn_sim sc) Order prime_Order s W (tr s) ET [] w Lw) in E2. rewrite E2 in C.
  apply all_safe_sparse_ok in C. destruct C as [C1 C2].
  assert (NQ := sbn_quotients s (tr s) W ET N1 Nm Nq [] pub 5 11 12 13 14 k' c1 [] w Px c3 EK' Hc Lw E2).
  split; [apply (proj2 (sparse_prover_sums_iff (bn256 sc) Bn (bn_sim sc) Order pub k k' w Px K Hw NQ)); exact C1|].
  apply (proj2 (verifier_sums_iff (bn256 sc) Bn (bn_sim sc) k k' (firstn pub w) K (Forall_firstn _ pub w Hw))). exact C2.
Qed.
Lemma small_Order n : n <= 4 -> n <= Order. Proof. intros H. apply (Z.le_trans _ 4); [exact H|discriminate]. Qed.
(** y = 3: accepted. *)
Example C92_case : forall sc, exists k c1 Px c3 p, generate_setup_sparse Order (bn256 sc) [] 1 (tr bn_cubes) 5 11 12 13 14 = Some (k, c1) /\
  combine_sparse_polynomials Order (bn256 sc) [] [1; 3; 9] (tr bn_cubes) = Some (Px, c3) /\
  generate_proofs_sparse Order (bn256 sc) 6 1 k [1; 3; 9] Px = Ret p /\ verify_proof (bn256 sc) k p [1] = Some true.
Proof.
  intros sc. destruct cube_ready as (R1 & R2 & R3). assert (Hw : Forall (Z.le 0) [1; 3; 9]) by (repeat constructor; lia).
  assert (W := bn_cubes_sized). assert (ET := tr_ok bn_cubes W). assert (Free : sparse_exponent_free bn_cubes) by (repeat constructor).
  assert (SAT : Forall (srow_ok Order (fun k => g1_x (g1_base k)) [1; 3; 9]) (rows bn_cubes)).
  { apply (free_rows _ _ _ Free gen_x_0). repeat (apply Forall_cons; [apply cong_eq; vm_compute; reflexivity|]). apply Forall_nil. }
  assert (x5 : 0 <= 5 < Order) by (split; [discriminate|reflexivity]). assert (Nq : Z.of_nat (List.length (index_map bn_cubes)) <= Order) by (apply small_Order; cbn; lia).
  destruct (C92_accepted sc bn_cubes (tr bn_cubes) [] [] 1 [1; 3; 9] 5 11 12 13 14 W Free ET eq_refl Nq (scache_ok_nil Order) (scache_ok_nil Order)
    (le_n 1) (le_S _ _ (le_n 2)) eq_refl Hw SAT x5 ltac:(lia) ltac:(lia) ltac:(lia) ltac:(lia) nz13 nz14 R1 R2 R3) as (k & c1 & Px & c3 & E1 & E2 & H).
  destruct (sparse_safe_run sc _ _ _ _ _ _ _ W (le_S _ _ (le_S _ _ (le_n 1))) (le_n 3) Nq bn_cubes_safe Hw eq_refl E1 E2) as [S1 S2]. destruct (H S1 S2) as (p & E3 & H2).
  assert (E3' := E3 6%nat (le_n 6)). exists k, c1, Px, c3, p. split; [exact E1|]. split; [exact E2|]. split; [exact E3'|].
  assert (B := sparse_proof_B _ _ _ _ _ _ _ _ E3'). destruct (sparse_points _ _ _ _ _ _ _ _ _ _ _ _ E1) as [P1 P2].
  rewrite bn_cubes_rx in P2. cbn [option_map] in P2. injection P2 as P2. rewrite <- P2 in B. assert (F := bn_cubes_far).
  change (msm g2_smul t_add_inplace (map g2_base [0; 1; 0]) [1; 3; 9] = Some (piB (bn256 sc) p)) in B. rewrite B in F. apply far_both_ready in F.
  destruct F as [F1 F2]. apply H2; [exact F1|]. rewrite P1. exact F2.
Qed.
(** The polynomial through (a, b, 0, 0); the factor is the inverse of six. *)
Definition through (a b : Z) : list Z := map (fun z => 18240202393199396018538671454381062573790303667013361953081836822146507079681 * z) [6 * a; 18 * b - 11 * a; 6 * a - 15 * b; 3 * b - a].
Lemma short_l : row_values rl [1; 27; 3; 9] bn_short = [3; 9]. Proof. vm_compute. reflexivity. Qed.
Lemma short_r : row_values rr [1; 27; 3; 9] bn_short = [3; 3]. Proof. vm_compute. reflexivity. Qed.
Lemma short_e : row_values re [1; 27; 3; 9] bn_short = [0; 0]. Proof. vm_compute. reflexivity. Qed.
Lemma short_o : row_values ro [1; 27; 3; 9] bn_short = [9; 27]. Proof. vm_compute. reflexivity. Qed.
(** y = 3, v = 27 in the system with fewer gates: the honest proof is rejected. *)
Example C92_short_case : forall sc, exists k c1 Px c3 p, generate_setup_sparse Order (bn256 sc) [] 2 (tr bn_short) 5 11 12 13 14 = Some (k, c1) /\
  combine_sparse_polynomials Order (bn256 sc) [] [1; 27; 3; 9] (tr bn_short) = Some (Px, c3) /\
  generate_proofs_sparse Order (bn256 sc) 4 2 k [1; 27; 3; 9] Px = Ret p /\ verify_proof (bn256 sc) k p [1; 27] = Some false.
Proof.
  intros sc. destruct cube_ready as (R1 & R2 & R3). assert (Hw : Forall (Z.le 0) [1; 27; 3; 9]) by (repeat constructor; lia).
  assert (W := bn_short_sized). assert (ET := tr_ok bn_short W). assert (Free : sparse_exponent_free bn_short) by (repeat constructor).
  assert (SAT : Forall (srow_ok Order (fun k => g1_x (g1_base k)) [1; 27; 3; 9]) (rows bn_short)).
  { apply (free_rows _ _ _ Free gen_x_0). repeat (apply Forall_cons; [apply cong_eq; vm_compute; reflexivity|]). apply Forall_nil. }
  assert (x5 : 0 <= 5 < Order) by (split; [discriminate|reflexivity]). assert (Nq : Z.of_nat (List.length (index_map bn_short)) <= Order) by (apply small_Order; cbn; lia).
  destruct (C92_honest sc bn_short (tr bn_short) [] [] 2 [1; 27; 3; 9] 5 11 12 13 14 W ET (le_S _ _ (le_n 1)) (le_S _ _ (le_S _ _ (le_n 2))) Nq (scache_ok_nil Order) (scache_ok_nil Order)
    (le_S _ _ (le_n 1)) (le_S _ _ (le_n 3)) eq_refl Hw SAT x5 ltac:(lia) ltac:(lia) ltac:(lia) ltac:(lia) nz13 nz14 R1 R2 R3) as (k & c1 & Px & c3 & E1 & E2 & H).
  destruct (sparse_safe_run sc _ _ _ _ _ _ _ W (le_S _ _ (le_n 1)) (le_S _ _ (le_S _ _ (le_n 2))) Nq bn_short_safe Hw eq_refl E1 E2) as [S1 S2]. destruct (H S1 S2) as (p & E3 & H2).
  assert (E3' := E3 4%nat (le_n 4)). exists k, c1, Px, c3, p. split; [exact E1|]. split; [exact E2|]. split; [exact E3'|].
  assert (B := sparse_proof_B _ _ _ _ _ _ _ _ E3'). destruct (sparse_points _ _ _ _ _ _ _ _ _ _ _ _ E1) as [P1 P2].
  rewrite bn_short_rx in P2. cbn [option_map] in P2. injection P2 as P2. rewrite <- P2 in B. assert (F := bn_short_far).
  change (msm g2_smul t_add_inplace (map g2_base [0; 0; 11; 0]) [1; 27; 3; 9] = Some (piB (bn256 sc) p)) in B. rewrite B in F. apply far_both_ready in F.
  destruct F as [F1 F2]. destruct (H2 F1) as (b & E4 & HB); [rewrite P1; exact F2|]. etransitivity; [exact E4|]. f_equal. destruct b; [|reflexivity]. exfalso.
  assert (D : forall d p, (List.length p <= List.length d)%nat -> forallb (fun i => (poly_at p (Z.of_nat i) - nth i d 0) mod Order =? 0) (seq 0 (List.length d)) = true -> interpolates Order d p).
  { intros d p0 L A. split; [exact L|]. intros i Hi. rewrite forallb_forall in A. assert (X := A i ltac:(apply in_seq; lia)). apply Z.eqb_eq in X.
    rewrite cong_sub_0. apply cong_mod_iff; [discriminate|]. rewrite X. reflexivity. }
  rewrite short_l, short_r, short_e, short_o in HB.
  change (padded (List.length (index_map bn_short)) [3; 9]) with [3; 9; 0; 0] in HB. change (padded (List.length (index_map bn_short)) [3; 3]) with [3; 3; 0; 0] in HB.
  change (padded (List.length (index_map bn_short)) [0; 0]) with [0; 0; 0; 0] in HB. change (padded (List.length (index_map bn_short)) [9; 27]) with [9; 27; 0; 0] in HB.
  assert (Dg : map (fun v => g1_x (g1_base (v mod Order))) [0; 0] = [0; 0]) by (change ([gen_x 0; gen_x 0] = [0; 0]); now rewrite gen_x_0).
  rewrite Dg in HB.
  assert (L4 : forall a b, (List.length (through a b) <= 4)%nat) by (intros; apply le_n).
  assert (V := proj1 (HB [3; 6] [3] [0] [9; 18] (through 3 9) (through 3 3) [0] (through 9 27)
    (D [3; 9] [3; 6] (le_n 2) ltac:(vm_compute; reflexivity)) (D [3; 3] [3] (le_S _ _ (le_n 1)) ltac:(vm_compute; reflexivity))
    (D [0; 0] [0] (le_S _ _ (le_n 1)) ltac:(vm_compute; reflexivity)) (D [9; 27] [9; 18] (le_n 2) ltac:(vm_compute; reflexivity))
    (D [3; 9; 0; 0] (through 3 9) (L4 _ _) ltac:(vm_compute; reflexivity)) (D [3; 3; 0; 0] (through 3 3) (L4 _ _) ltac:(vm_compute; reflexivity))
    (D [0; 0; 0; 0] [0] ltac:(cbn; lia) ltac:(vm_compute; reflexivity)) (D [9; 27; 0; 0] (through 9 27) (L4 _ _) ltac:(vm_compute; reflexivity))) eq_refl).
  change (poly_at [0] 5 mod Order) with 0 in V. change (g1_x (g1_base 0)) with (gen_x 0) in V. rewrite gen_x_0 in V.
  apply cong_mod_iff in V; [|discriminate]. revert V. vm_compute. discriminate.
Qed.

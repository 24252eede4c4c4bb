(** C94: the randomization row. *)
Require Import ZArith Znumtheory NArith Lia Bool Permutation Ascii String List.
Require Import Verif.Cong Verif.FqModel Verif.FqSpec Verif.FqProofs Verif.Pocklington Verif.AvlModel Verif.AvlSpec Verif.AvlProofs Verif.PolyModel Verif.PolyProofs Verif.InterpProofs.
Require Import Verif.SparseModel Verif.SparseSpec Verif.SparseProofs Verif.SparseProofs2.
Require Import Verif.CurveModel Verif.CurveSpec Verif.PairModel Verif.PairProofs Verif.SnarkModel Verif.SnarkSpec Verif.SnarkProofs2 Verif.SnarkProofs3 Verif.BnGroups Verif.PropsSnark Verif.PropsBn.
Require Import Verif.SparseSnarkSpec Verif.SparseSnarkProofs2 Verif.PropsSparseSnark.
Require Import Verif.FactorModel Verif.FactorSpec Verif.FactorProofs Verif.ExprModel Verif.ExprSpec Verif.ExprProofs Verif.ExprProofs2.
Require Import Verif.R1csModel Verif.R1csSpec Verif.R1csProofs Verif.EndProofs.
Require Import Verif.WitnessModel Verif.WitnessSpec Verif.SolveProofs Verif.SolveRange.
Require Import Verif.ParserModel Verif.CircuitModel Verif.LangSpec Verif.LangHeap Verif.LangSym Verif.LangRun Verif.LangBuild Verif.LangField Verif.LangGood.
Require Import Verif.PropsFactor Verif.PropsExpr Verif.PropsR1cs Verif.PropsEnd Verif.PropsSolve Verif.PropsLang Verif.GoodSystem Verif.PropsProgram Verif.SystemShape Verif.PropsChain Verif.PropsSparseChain.
Require Import Verif.RandProofs.
Import ListNotations.
Local Open Scope string_scope.
Local Open Scope list_scope.
Local Open Scope Z_scope.

(** ** Solutions *)
Lemma dot_wide v W t u : List.length v = List.length W -> dot (wide v) (W ++ [t; u]) = dot v W.
Proof. unfold wide. revert W. induction v as [|a v IH]; intros [|b W] H; try discriminate; cbn [dot app]; [ring|]. injection H as H. now rewrite IH. Qed.
Lemma dot_last n W a b t u : List.length W = n -> dot (zeros n ++ [a; b]) (W ++ [t; u]) = a * t + b * u.
Proof. intros <-. induction W as [|x W IH]; cbn [List.length zeros repeat app dot]; [ring|]. unfold zeros in IH. rewrite IH. ring. Qed.
Definition row_sized (n : nat) (r : row (list Z)) : Prop := List.length (rl r) = n /\ List.length (rr r) = n /\ List.length (re r) = n /\ List.length (ro r) = n.
Lemma row_ok_wide q gx n W t u r : List.length W = n -> row_sized n r -> row_ok q gx (W ++ [t; u]) (wide_row r) <-> row_ok q gx W r.
Proof. intros L (A & B & C & D). unfold row_ok, wide_row. cbn [rl rr re ro]. rewrite !dot_wide by congruence. tauto. Qed.
Lemma row_ok_last q gx n W t u : List.length W = n -> row_ok q gx (W ++ [t; u]) (last_row n) <-> t * t + gx (t mod q) ==[q] u.
Proof.
  intros L. unfold row_ok, last_row. cbn [rl rr re ro]. rewrite !dot_last by auto.
  replace (1 * t + 0 * u) with t by ring. replace (0 * t + 1 * u) with u by ring. tauto.
Qed.
Lemma edot_wide es W t u : (forall k x, In (k, x) es -> (N.to_nat k < List.length W)%nat \/ x = 0) -> edot es (W ++ [t; u]) = edot es W.
Proof.
  induction es as [|[k x] es IH]; intros H; cbn [edot]; auto. rewrite IH by (intros k' x' H'; apply (H k' x'); now right). f_equal.
  destruct (H k x (or_introl eq_refl)) as [L| ->]; [|ring]. now rewrite app_nth1.
Qed.
Lemma entry_below t n k x : wf t -> below (tc t) n -> In (k, x) (ascending t) -> (N.to_nat k < n)%nat \/ x = 0.
Proof.
  intros W B I. destruct (Nat.ltb_spec (N.to_nat k) n) as [L|L]; auto. right. rewrite <- (B _ L). unfold tc. rewrite N2Nat.id.
  destruct W as [Wb _]. rewrite (lookup_assoc t k Wb). assert (ND := bst_NoDup t Wb). clear -I ND.
  induction (ascending t) as [|[k' x'] l IH]; [easy|]. cbn [assoc map fst] in *. inversion ND as [|? ? N1 N2]; subst. destruct I as [[= -> ->]|I]; [now rewrite N.eqb_refl|].
  destruct (N.eqb_spec k' k) as [->|]; [|now apply IH]. exfalso. apply N1. change k with (fst (k, x)). now apply in_map.
Qed.
Lemma edot_one i w : edot (ascending (leaf_at i)) w = nth i w 0.
Proof. unfold leaf_at. cbn [ascending app edot]. rewrite Nat2N.id. ring. Qed.
Lemma srow_ok_last q gx n W t u : List.length W = n -> srow_ok q gx (W ++ [t; u]) (last_srow n) <-> t * t + gx (t mod q) ==[q] u.
Proof.
  intros L. unfold srow_ok, last_srow. cbn [rl rr re ro]. rewrite !edot_one. rewrite !app_nth2 by lia. subst n.
  rewrite Nat.sub_diag. replace (S (List.length W) - List.length W)%nat with 1%nat by lia. cbn [nth]. tauto.
Qed.
Definition srow_sized (n : nat) (r : row tree) : Prop := Forall (fun t => wf t /\ below (tc t) n) [rl r; rr r; re r; ro r].
Lemma srow_values n W t u r f : In (f r) [rl r; rr r; re r; ro r] -> List.length W = n -> srow_sized n r -> edot (ascending (f r)) (W ++ [t; u]) = edot (ascending (f r)) W.
Proof.
  intros I L S. unfold srow_sized in S. rewrite Forall_forall in S. destruct (S _ I) as [A B]. apply edot_wide. intros k x H. rewrite L. eapply entry_below; eauto.
Qed.
Lemma srow_ok_wide q gx n W t u r : List.length W = n -> srow_sized n r -> srow_ok q gx (W ++ [t; u]) r <-> srow_ok q gx W r.
Proof.
  intros L S. unfold srow_ok. rewrite (srow_values n W t u r rl), (srow_values n W t u r rr), (srow_values n W t u r re), (srow_values n W t u r ro) by (cbn; auto). tauto.
Qed.

Definition rand_pair (n : nat) : imap := [(rand_in, n); (rand_out, S n)].
(** The randomized system is the other one, with two more wires and one more row for them. *)
Theorem C94_dense : forall pubs ins gs d, names_ok pubs ins gs true -> Forall (gate_shape (wire_names pubs ins gs false)) gs ->
  gates_to_r1cs pubs ins gs false = Some d ->
  exists d', gates_to_r1cs pubs ins gs true = Some d' /\ index_map d' = index_map d ++ rand_pair (List.length (index_map d)) /\ split_map d' = split_map d /\
    List.length (rows d') = S (List.length (rows d)) /\
    forall q gx W t u, List.length W = List.length (index_map d) ->
      (Forall (row_ok q gx (W ++ [t; u])) (rows d') <-> Forall (row_ok q gx W) (rows d) /\ t * t + gx (t mod q) ==[q] u).
Proof.
  intros pubs ins gs d Hn Hs E. destruct (dense_both pubs ins gs Hn Hs d E) as [_ E']. eexists. split; [exact E'|]. cbn [index_map split_map rows].
  split; [reflexivity|]. split; [reflexivity|]. split; [rewrite app_length, map_length; cbn; lia|]. intros q gx W t u L.
  assert (Z := system_sized _ _ _ _ _ E). unfold well_sized in Z. rewrite Forall_app, Forall_map. rewrite (Forall_cons_iff (row_ok q gx (W ++ [t; u])) (last_row _) []), row_ok_last by auto.
  rewrite !Forall_forall in *. split.
  - intros [A [B _]]. split; auto. intros r Hr. apply (row_ok_wide q gx (List.length (index_map d)) W t u r L); [apply Z; auto|]. now apply A.
  - intros [A B]. split; [|split; [exact B|intros ? []]]. intros r Hr. apply (row_ok_wide q gx (List.length (index_map d)) W t u r L); [apply Z; auto|]. now apply A.
Qed.
Print Assumptions C94_dense.
(** Number literals are not spelled like the two names. *)
Definition numbers_fine (gs : list gate) : Prop := forall g f, In g gs -> In f (gleft g ++ gright g ++ gexp g ++ gout g) -> is_number f = true ->
  ident (ftok f) <> rand_in /\ ident (ftok f) <> rand_out.
Lemma fine_differ gs : numbers_fine gs -> Forall numbers_differ gs.
Proof. intros H. apply Forall_forall. intros g Hg f. now apply H. Qed.
Theorem C94_sparse : forall q pubs ins gs s, 1 < q -> names_ok pubs ins gs true -> Forall (gate_shape (wire_names pubs ins gs false)) gs -> numbers_fine gs ->
  gates_to_sparse_r1cs q pubs ins gs false = Some s ->
  exists s', gates_to_sparse_r1cs q pubs ins gs true = Some s' /\ index_map s' = index_map s ++ rand_pair (List.length (index_map s)) /\ split_map s' = split_map s /\
    List.length (rows s') = S (List.length (rows s)) /\
    forall gx W t u, List.length W = List.length (index_map s) ->
      (Forall (srow_ok q gx (W ++ [t; u])) (rows s') <-> Forall (srow_ok q gx W) (rows s) /\ t * t + gx (t mod q) ==[q] u).
Proof.
  intros q pubs ins gs s Q Hn Hs Hf E. destruct (sparse_both pubs ins gs Hn Hs q s Q (fine_differ gs Hf) E) as [_ E']. eexists. split; [exact E'|]. cbn [index_map split_map rows].
  split; [reflexivity|]. split; [reflexivity|]. split; [rewrite app_length; cbn; lia|]. intros gx W t u L.
  assert (Z := sparse_system_sized _ _ _ _ _ _ (names_false pubs ins gs Hn) E). unfold sparse_sized in Z.
  rewrite Forall_app, (Forall_cons_iff (srow_ok q gx (W ++ [t; u])) (last_srow _) []), srow_ok_last by auto.
  rewrite !Forall_forall in *. split.
  - intros [A [B _]]. split; auto. intros r Hr. apply (srow_ok_wide q gx (List.length (index_map s)) W t u r L); [apply Z; auto|]. now apply A.
  - intros [A B]. split; [|split; [exact B|intros ? []]]. intros r Hr. apply (srow_ok_wide q gx (List.length (index_map s)) W t u r L); [apply Z; auto|]. now apply A.
Qed.
Print Assumptions C94_sparse.

(** ** Solver *)
(** The two names are neither given as inputs nor split. *)
Definition rand_unused (inp : list input_arg) (sp : smap) : Prop :=
  (forall x v, In (x, v) inp -> x <> rand_in /\ x <> rand_out) /\ (forall k zs, In (k, zs) sp -> k <> rand_in /\ k <> rand_out).
(** What the solver returns, followed by the value drawn and the output that goes with it. *)
Theorem C94_solver : forall q gx pubs ins gs d d' rnd inp, prime q -> names_ok pubs ins gs true -> Forall (gate_shape (wire_names pubs ins gs false)) gs ->
  gates_to_r1cs pubs ins gs false = Some d -> gates_to_r1cs pubs ins gs true = Some d' -> rand_unused inp (split_map d) ->
  match calculate_witness q gx (index_map d) (split_map d) (rows d) rnd inp with
  | Ok W => exists v, 0 <= v < q /\ rnd * rnd + gx (rnd mod q) ==[q] v /\ calculate_witness q gx (index_map d') (split_map d') (rows d') rnd inp = Ok (W ++ [rnd; v])
  | Err => calculate_witness q gx (index_map d') (split_map d') (rows d') rnd inp = Err
  | Panics => True
  end.
Proof.
  intros q gx pubs ins gs d d' rnd inp Pq Hn Hs E E' [AI AS]. destruct (dense_both pubs ins gs Hn Hs d E) as [_ X]. rewrite E' in X. injection X as ->. cbn [index_map split_map rows].
  unfold gates_to_r1cs in E. destruct (build_index pubs ins gs false) as [[m sp]|] eqn:EB; [|discriminate]. destruct (with_rand _ _ _) as [rs|]; [|discriminate]. injection E as <-. cbn [index_map split_map rows] in *.
  exact (witness_grow pubs ins gs Hn q gx rnd inp Pq AI m sp EB AS rs).
Qed.
Print Assumptions C94_solver.
Theorem C94_sparse_solver : forall q gx pubs ins gs s s' rnd inp, prime q -> names_ok pubs ins gs true -> Forall (gate_shape (wire_names pubs ins gs false)) gs -> numbers_fine gs ->
  gates_to_sparse_r1cs q pubs ins gs false = Some s -> gates_to_sparse_r1cs q pubs ins gs true = Some s' -> rand_unused inp (split_map s) ->
  match calculate_sparse_witness q gx (index_map s) (split_map s) (rows s) rnd inp with
  | Ok W => exists v, 0 <= v < q /\ rnd * rnd + gx (rnd mod q) ==[q] v /\ calculate_sparse_witness q gx (index_map s') (split_map s') (rows s') rnd inp = Ok (W ++ [rnd; v])
  | Err => calculate_sparse_witness q gx (index_map s') (split_map s') (rows s') rnd inp = Err
  | Panics => True
  end.
Proof.
  intros q gx pubs ins gs d d' rnd inp Pq Hn Hs Hf E E' [AI AS]. destruct (sparse_both pubs ins gs Hn Hs q d ltac:(destruct Pq; lia) (fine_differ gs Hf) E) as [_ X]. rewrite E' in X. injection X as ->. cbn [index_map split_map rows].
  unfold gates_to_sparse_r1cs in E. destruct (build_index pubs ins gs false) as [[m sp]|] eqn:EB; [|discriminate]. destruct (with_rand _ _ _) as [rs|]; [|discriminate]. injection E as <-. cbn [index_map split_map rows] in *.
  exact (switness_grow pubs ins gs Hn q gx rnd inp Pq AI m sp EB AS rs).
Qed.
Print Assumptions C94_sparse_solver.

(** ** Verdict *)
Lemma interpolates_scale q d p c : interpolates q d p -> interpolates q (map (Z.mul c) d) (map (Z.mul c) p).
Proof.
  intros [A B]. split; [now rewrite !map_length|]. intros i Hi. rewrite map_length in Hi.
  assert (P : forall x, poly_at (map (Z.mul c) p) x = c * poly_at p x).
  { clear. intros x. induction p as [|a p IH]; cbn [map]; [rewrite !poly_at_nil; ring|]. rewrite !poly_at_cons, IH. ring. }
  rewrite P, (B i Hi). apply cong_eq. rewrite <- (map_nth (Z.mul c)). now rewrite Z.mul_0_r.
Qed.
Lemma poly_scale c p x : poly_at (map (Z.mul c) p) x = c * poly_at p x.
Proof. induction p as [|a p IH]; cbn [map]; [rewrite !poly_at_nil; ring|]. rewrite !poly_at_cons, IH. ring. Qed.
Lemma scale_last c n : map (Z.mul c) (repeat 0 n ++ [1]) = repeat 0 n ++ [c].
Proof. rewrite map_app, map_repeat, Z.mul_0_r. cbn [map]. now rewrite Z.mul_1_r. Qed.
(** The polynomial through 0, ..., 0, 1: it selects the last gate. *)
Definition selects_last (q : Z) (n : nat) (L : list Z) : Prop := interpolates q (repeat 0 n ++ [1]) L.
Lemma exp_values {A} (h : Z -> A) (q : Z) d W t u : well_sized d -> exponent_free d -> List.length W = List.length (index_map d) ->
  map (fun r => h (dot (re r) (W ++ [t; u]) mod q)) (map wide_row (rows d) ++ [last_row (List.length (index_map d))]) =
  repeat (h (0 mod q)) (List.length (rows d)) ++ [h (t mod q)].
Proof.
  intros S F L. rewrite map_app. f_equal.
  - unfold well_sized, exponent_free in *. induction (rows d) as [|r rs IH]; cbn [map List.length repeat]; auto. inversion S; inversion F; subst. f_equal; [|now apply IH].
    unfold wide_row. cbn [re]. rewrite dot_wide by (rewrite L; tauto). now rewrite dot_zero.
  - cbn [map]. unfold last_row at 1. cbn [re]. rewrite dot_last by auto. do 3 f_equal. ring.
Qed.
Lemma nth_repeat_lt n i (z : Z) : (i < n)%nat -> nth i (repeat z n) 0 = z.
Proof. revert i. induction n as [|n IH]; intros [|i] H; cbn; [lia|lia|auto|apply IH; lia]. Qed.
Lemma verdict_data q (gx : Z -> Z) d W t u L x (b : bool) : prime q -> gx 0 ==[q] 0 -> well_sized d -> exponent_free d -> List.length W = List.length (index_map d) ->
  Z.of_nat (S (List.length (rows d))) <= q -> selects_last q (List.length (rows d)) L ->
  let rs := map wide_row (rows d) ++ [last_row (List.length (index_map d))] in
  (forall Ep Gp, interpolates q (map (fun r => dot (re r) (W ++ [t; u]) mod q) rs) Ep ->
     interpolates q (map (fun r => gx (dot (re r) (W ++ [t; u]) mod q)) rs) Gp -> (b = true <-> gx (poly_at Ep x mod q) ==[q] poly_at Gp x)) ->
  (b = true <-> gx ((t * poly_at L x) mod q) ==[q] gx (t mod q) * poly_at L x).
Proof.
  intros Pq G0 S F LW Nq HL rs H. subst rs. rewrite (exp_values (fun v => v) q d W t u S F LW), (exp_values gx q d W t u S F LW) in H. rewrite Z.mod_0_l in H by (destruct Pq; lia).
  assert (I1 := interpolates_scale q _ _ t HL). assert (I2 := interpolates_scale q _ _ (gx (t mod q)) HL). rewrite scale_last in I1, I2.
  rewrite (H (map (Z.mul t) L) (map (Z.mul (gx (t mod q))) L)); [now rewrite !poly_scale| |].
  - eapply interpolates_ext; [| |exact I1]; [now rewrite !app_length|]. intros i Hi. rewrite app_length, repeat_length in Hi. cbn [List.length] in Hi.
    destruct (Nat.ltb_spec i (List.length (rows d))) as [C|C]; [rewrite !app_nth1 by (rewrite repeat_length; exact C); reflexivity|].
    rewrite !app_nth2, !repeat_length by (rewrite repeat_length; lia). replace (i - List.length (rows d))%nat with O by lia. cbn [nth]. now rewrite cong_mod.
  - eapply interpolates_ext; [| |exact I2]; [now rewrite !app_length, !repeat_length|]. intros i Hi. rewrite app_length, repeat_length in Hi. cbn [List.length] in Hi.
    destruct (Nat.ltb_spec i (List.length (rows d))) as [C|C]; [rewrite !app_nth1 by (rewrite repeat_length; exact C); rewrite (nth_repeat_lt (List.length (rows d)) i 0 C), (nth_repeat_lt (List.length (rows d)) i (gx 0) C); now symmetry|].
    rewrite !app_nth2, !repeat_length by (rewrite repeat_length; lia). replace (i - List.length (rows d))%nat with O by lia. reflexivity.
Qed.
(** Without base multiplications in the program: accepted exactly if X(g^(tL)) = X(g^t) L, where L is the value at the secret point of the
    polynomial that selects the last gate. *)
Theorem C94_verdict : forall q G pubs ins gs d d' T c c2 pub W t u x al be ga de L, prime q -> lawful q G ->
  names_ok pubs ins gs true -> Forall (gate_shape (wire_names pubs ins gs false)) gs ->
  gates_to_r1cs pubs ins gs false = Some d -> gates_to_r1cs pubs ins gs true = Some d' -> exponent_free d ->
  (1 <= List.length (rows d))%nat -> Z.of_nat (S (List.length (rows d))) <= q -> transpose_er1cs d' = Some T -> cache_ok q c -> cache_ok q c2 ->
  (1 <= pub)%nat -> (pub < List.length (index_map d'))%nat -> List.length W = List.length (index_map d) -> Forall (Z.le 0) (W ++ [t; u]) ->
  Forall (row_ok q (gxc G) (W ++ [t; u])) (rows d') -> 0 <= x -> 0 <= al -> 0 <= be -> 0 <= ga -> 0 <= de -> ~ ga ==[q] 0 -> ~ de ==[q] 0 ->
  selects_last q (List.length (rows d)) L ->
  exists k c1 Px c3, generate_setup q G c pub T x al be ga de = Some (k, c1) /\
    combine_polynomials q G c2 (W ++ [t; u]) T = Some (Px, c3) /\
    (prover_safe q G pub k (W ++ [t; u]) Px -> verifier_safe G k (firstn pub (W ++ [t; u])) ->
     exists p b, generate_proofs q G pub k (W ++ [t; u]) Px = Some p /\ verify_proof G k p (firstn pub (W ++ [t; u])) = Some b /\
     (b = true <-> gxc G ((t * poly_at L x) mod q) ==[q] gxc G (t mod q) * poly_at L x)).
Proof.
  intros q G pubs ins gs d d' T c c2 pub W t u x al be ga de L Pq LG Hn Hs E E' F N1 Nq ET Hc Hc2 P1 P2 LW Pos SAT Hx Hal Hbe Hga Hde Nga Nde HL.
  destruct (dense_both pubs ins gs Hn Hs d E) as [_ X]. rewrite E' in X. injection X as X.
  assert (RW : rows d' = map wide_row (rows d) ++ [last_row (List.length (index_map d))]) by now rewrite X.
  assert (NR : List.length (rows d') = S (List.length (rows d))) by (rewrite RW, app_length, map_length; cbn [List.length]; lia).
  assert (NI : List.length (W ++ [t; u]) = List.length (index_map d')) by (rewrite X; cbn [index_map]; rewrite names_length, app_length, LW; cbn [List.length]; lia). clear X.
  assert (S := system_sized _ _ _ _ _ E). assert (S' := system_sized _ _ _ _ _ E').
  destruct (C45_honest q G d' T c c2 pub (W ++ [t; u]) x al be ga de Pq LG ltac:(rewrite NR; lia) ltac:(rewrite NR; exact Nq)
    S' ET Hc Hc2 P1 P2 NI Pos SAT Hx Hal Hbe Hga Hde Nga Nde) as (k & c1 & Px & c3 & A & B & C).
  exists k, c1, Px, c3. split; [exact A|]. split; [exact B|]. intros S1 S2. destruct (C S1 S2) as (p & b & D1 & D2 & D3). exists p, b. split; [exact D1|]. split; [exact D2|].
  rewrite RW in D3. exact (verdict_data q (gxc G) d W t u L x b Pq ltac:(apply cong_eq, (law_x0 q G LG)) S F LW Nq HL D3).
Qed.
Print Assumptions C94_verdict.
(** The same with the groups of package bn256. *)
Theorem C94_bn256 : forall sc pubs ins gs d d' T c c2 pub W t u x al be ga de L,
  names_ok pubs ins gs true -> Forall (gate_shape (wire_names pubs ins gs false)) gs ->
  gates_to_r1cs pubs ins gs false = Some d -> gates_to_r1cs pubs ins gs true = Some d' -> exponent_free d ->
  (1 <= List.length (rows d))%nat -> Z.of_nat (S (List.length (rows d))) <= Order -> transpose_er1cs d' = Some T -> cache_ok Order c -> cache_ok Order c2 ->
  (1 <= pub)%nat -> (pub < List.length (index_map d'))%nat -> List.length W = List.length (index_map d) -> Forall (Z.le 0) (W ++ [t; u]) ->
  Forall (row_ok Order (fun k => g1_x (g1_base k)) (W ++ [t; u])) (rows d') -> 0 <= x -> 0 <= al -> 0 <= be -> 0 <= ga -> 0 <= de -> ~ ga ==[Order] 0 -> ~ de ==[Order] 0 ->
  t_ready (g2_base be) -> t_ready (g2_base ga) -> t_ready (g2_base de) -> selects_last Order (List.length (rows d)) L ->
  let G := bn256 sc in
  exists k c1 Px c3, generate_setup Order G c pub T x al be ga de = Some (k, c1) /\
    combine_polynomials Order G c2 (W ++ [t; u]) T = Some (Px, c3) /\
    (prover_sums Order G apart1 apart2 pub k (W ++ [t; u]) Px -> verifier_sums G apart1 k (firstn pub (W ++ [t; u])) ->
     exists p, generate_proofs Order G pub k (W ++ [t; u]) Px = Some p /\
     (t_ready (piB G p) -> t_ready (add2 G (piB G p) (beta2 G k)) ->
      exists b, verify_proof G k p (firstn pub (W ++ [t; u])) = Some b /\
      (b = true <-> g1_x (g1_base ((t * poly_at L x) mod Order)) ==[Order] g1_x (g1_base (t mod Order)) * poly_at L x))).
Proof.
  intros sc pubs ins gs d d' T c c2 pub W t u x al be ga de L Hn Hs E E' F N1 Nq ET Hc Hc2 P1 P2 LW Pos SAT Hx Hal Hbe Hga Hde Nga Nde R1 R2 R3 HL G. subst G.
  destruct (dense_both pubs ins gs Hn Hs d E) as [_ X]. rewrite E' in X. injection X as X.
  assert (RW : rows d' = map wide_row (rows d) ++ [last_row (List.length (index_map d))]) by now rewrite X.
  assert (NR : List.length (rows d') = S (List.length (rows d))) by (rewrite RW, app_length, map_length; cbn [List.length]; lia).
  assert (NI : List.length (W ++ [t; u]) = List.length (index_map d')) by (rewrite X; cbn [index_map]; rewrite names_length, app_length, LW; cbn [List.length]; lia). clear X.
  assert (S := system_sized _ _ _ _ _ E). assert (S' := system_sized _ _ _ _ _ E').
  destruct (C70_honest sc d' T c c2 pub (W ++ [t; u]) x al be ga de ltac:(rewrite NR; lia) ltac:(rewrite NR; exact Nq)
    S' ET Hc Hc2 P1 P2 NI Pos SAT Hx Hal Hbe Hga Hde Nga Nde R1 R2 R3) as (k & c1 & Px & c3 & A & B & C).
  exists k, c1, Px, c3. split; [exact A|]. split; [exact B|]. intros S1 S2. destruct (C S1 S2) as (p & D1 & D2). exists p. split; [exact D1|]. intros T1 T2.
  destruct (D2 T1 T2) as (b & D3 & D4). exists b. split; [exact D3|]. rewrite RW in D4.
  exact (verdict_data Order (fun k => g1_x (g1_base k)) d W t u L x b prime_Order ltac:(change (gen_x 0 ==[Order] 0); rewrite gen_x_0; reflexivity) S F LW Nq HL D4).
Qed.
Print Assumptions C94_bn256.

(** y*y = z, with z public. *)
Definition rand_gates : list gate :=
  [ Gate GMul "m" [Fac (arg "y") 1] [Fac (arg "y") 1] [] (wire "m" 1) false no_token;
    Gate GEqual "e" [Fac (arg "m") 1] [Fac (arg "z") 1] [] [] true no_token ].
Definition rand_pubs : list string := ["1"; "z"].
Definition rand_ins : list string := ["z"; "y"].
Lemma rand_ok : names_ok rand_pubs rand_ins rand_gates true /\ Forall (gate_shape (wire_names rand_pubs rand_ins rand_gates false)) rand_gates /\ numbers_fine rand_gates.
Proof.
  split; [|split].
  - split; [repeat constructor; cbn; intros H; nope H|]. split; [reflexivity|]. intros _. split; cbn; intros H; nope H.
  - repeat constructor.
  - intros g f Hg Hf. cbn in Hg. decompose [or] Hg; subst; cbn in Hf; decompose [or] Hf; subst; try contradiction; discriminate.
Qed.
(** Accepted without the row, rejected with it; G101 is a lawful group with X(g^k) = k^2. *)
Theorem C94_randomized_refuted : exists pubs ins gs d d' W t u, names_ok pubs ins gs true /\ Forall (gate_shape (wire_names pubs ins gs false)) gs /\
  gates_to_r1cs pubs ins gs false = Some d /\ gates_to_r1cs pubs ins gs true = Some d' /\ exponent_free d /\ lawful 101 G101 /\
  Forall (row_ok 101 (gxc G101) W) (rows d) /\ Forall (row_ok 101 (gxc G101) (W ++ [t; u])) (rows d') /\
  (exists k Px p, prover_safe 101 G101 2 k W Px /\ verifier_safe G101 k (firstn 2 W) /\ outcome_of 101 G101 d 2 W 5 11 12 13 14 = Some (k, Px, p, true)) /\
  (exists k Px p, prover_safe 101 G101 2 k (W ++ [t; u]) Px /\ verifier_safe G101 k (firstn 2 (W ++ [t; u])) /\
     outcome_of 101 G101 d' 2 (W ++ [t; u]) 5 11 12 13 14 = Some (k, Px, p, false)).
Proof.
  exists rand_pubs, rand_ins, rand_gates. do 2 eexists. exists [1; 9; 3; 9], 3, 18. destruct rand_ok as (A & B & _). split; [exact A|]. split; [exact B|].
  split; [vm_compute; reflexivity|]. split; [vm_compute; reflexivity|]. split; [repeat constructor|]. split; [exact G101_lawful|].
  split; [repeat (apply Forall_cons; [apply cong_mod_iff; [lia|vm_compute; reflexivity]|]); apply Forall_nil|].
  split; [repeat (apply Forall_cons; [apply cong_mod_iff; [lia|vm_compute; reflexivity]|]); apply Forall_nil|]. split.
  - match goal with |- context [outcome_of 101 G101 ?s _ _ _ _ _ _ _] => destruct (accepted_safely_ok s [1; 9; 3; 9] true ltac:(vm_compute; reflexivity)) as (k & Px & p & E & S1 & S2) end.
    exists k, Px, p. auto.
  - match goal with |- context [outcome_of 101 G101 ?s _ _ _ _ _ _ _] => destruct (accepted_safely_ok s [1; 9; 3; 9; 3; 18] false ltac:(vm_compute; reflexivity)) as (k & Px & p & E & S1 & S2) end.
    exists k, Px, p. auto.
Qed.
Print Assumptions C94_randomized_refuted.
(** The condition on the curve: with two rows, the secret point 2 and the randomizer 1 it fails; with the randomizer 0 it always holds. *)
Theorem C94_bn256_condition : (exists L, selects_last Order 1 L /\ ~ g1_x (g1_base ((1 * poly_at L 2) mod Order)) ==[Order] g1_x (g1_base (1 mod Order)) * poly_at L 2) /\
  forall L x, g1_x (g1_base ((0 * poly_at L x) mod Order)) ==[Order] g1_x (g1_base (0 mod Order)) * poly_at L x.
Proof.
  split.
  - exists [0; 1]. split.
    + split; [cbn; lia|]. intros i Hi. cbn in Hi. assert (C : i = O \/ i = 1%nat) by lia. destruct C as [-> | ->]; apply cong_eq; reflexivity.
    + intros H. apply cong_mod_iff in H; [|easy]. vm_compute in H. discriminate.
  - intros L x. rewrite Z.mul_0_l. change (0 mod Order) with 0. change (g1_x (g1_base 0)) with (gen_x 0). rewrite gen_x_0. apply cong_eq. reflexivity.
Qed.
Print Assumptions C94_bn256_condition.

(** ** Sparse verdict *)
(** As many rows as wires (C91 says what happens otherwise). *)
Theorem C94_sparse_verdict : forall q G pubs ins gs s s' T c c2 pub W t u x al be ga de L, prime q -> lawful q G ->
  names_ok pubs ins gs true -> Forall (gate_shape (wire_names pubs ins gs false)) gs -> numbers_fine gs ->
  gates_to_sparse_r1cs q pubs ins gs false = Some s -> gates_to_sparse_r1cs q pubs ins gs true = Some s' -> sparse_exponent_free s ->
  List.length (rows s') = List.length (index_map s') -> Z.of_nat (List.length (index_map s')) <= q -> transpose_sparse_er1cs s' = Some T -> scache_ok q c -> scache_ok q c2 ->
  (1 <= pub)%nat -> (pub < List.length (index_map s'))%nat -> List.length W = List.length (index_map s) -> Forall (Z.le 0) (W ++ [t; u]) ->
  Forall (srow_ok q (gxc G) (W ++ [t; u])) (rows s') -> 0 <= x < q -> 0 <= al -> 0 <= be -> 0 <= ga -> 0 <= de -> ~ ga ==[q] 0 -> ~ de ==[q] 0 ->
  selects_last q (List.length (rows s)) L ->
  exists k c1 Px c3, generate_setup_sparse q G c pub T x al be ga de = Some (k, c1) /\
    combine_sparse_polynomials q G c2 (W ++ [t; u]) T = Some (Px, c3) /\
    (sparse_prover_safe q G pub k (W ++ [t; u]) Px -> verifier_safe G k (firstn pub (W ++ [t; u])) ->
     exists p b, (forall fuel, (2 * List.length (rows s') <= fuel)%nat -> generate_proofs_sparse q G fuel pub k (W ++ [t; u]) Px = SparseModel.Ret p) /\
     verify_proof G k p (firstn pub (W ++ [t; u])) = Some b /\
     (b = true <-> gxc G ((t * poly_at L x) mod q) ==[q] gxc G (t mod q) * poly_at L x)).
Proof.
  intros q G pubs ins gs s s' T c c2 pub W t u x al be ga de L Pq LG Hn Hs Hf E E' F NM Nq ET Hc Hc2 P1 P2 LW Pos SAT Hx Hal Hbe Hga Hde Nga Nde HL.
  destruct (sparse_both pubs ins gs Hn Hs q s ltac:(destruct Pq; lia) (fine_differ gs Hf) E) as [_ X]. rewrite E' in X. injection X as X.
  assert (RW : rows s' = rows s ++ [last_srow (List.length (index_map s))]) by now rewrite X.
  assert (NR : List.length (rows s') = S (List.length (rows s))) by (rewrite RW, app_length; cbn [List.length]; lia).
  assert (NI : List.length (W ++ [t; u]) = List.length (index_map s')) by (rewrite X; cbn [index_map]; rewrite names_length, app_length, LW; cbn [List.length]; lia). clear X.
  assert (S := sparse_system_sized _ _ _ _ _ _ (names_false pubs ins gs Hn) E). assert (S' := sparse_system_sized _ _ _ _ _ _ Hn E').
  destruct (C91_honest q G s' T c c2 pub (W ++ [t; u]) x al be ga de Pq LG S' ET ltac:(lia) ltac:(lia) Nq Hc Hc2 P1 P2 NI Pos SAT Hx Hal Hbe Hga Hde Nga Nde)
    as (k & c1 & Px & c3 & A & B & C).
  exists k, c1, Px, c3. split; [exact A|]. split; [exact B|]. intros S1 S2. destruct (C S1 S2) as (p & b & D1 & D2 & D3). exists p, b. split; [exact D1|]. split; [exact D2|].
  rewrite <- NM in D3. set (w := W ++ [t; u]) in *.
  assert (LV : forall f, List.length (row_values f w s') = List.length (rows s')) by (intros; apply map_length).
  assert (PS : forall f, padded (List.length (rows s')) (row_values f w s') = row_values f w s') by (intros f; rewrite <- (LV f) at 1; apply padded_same).
  rewrite !PS in D3.
  assert (EV : row_values re w s' = repeat 0 (List.length (rows s)) ++ [t]).
  { unfold row_values. rewrite RW, map_app. f_equal.
    - unfold sparse_exponent_free in F. clear -F. induction (rows s) as [|r rs IH]; cbn [map List.length repeat]; auto. inversion F; subst. rewrite IH by auto. f_equal. now rewrite H1.
    - cbn [map]. unfold last_srow. cbn [re]. rewrite edot_one. unfold w. now rewrite app_nth2, LW, Nat.sub_diag by lia. }
  rewrite EV in D3. rewrite map_app, map_repeat, Z.mod_0_l in D3 by (destruct Pq; lia). cbn [map] in D3. assert (X0 : gxc G 0 = 0) by apply (law_x0 q G LG). rewrite X0 in D3.
  destruct (interpolant q (row_values rl w s') Pq ltac:(rewrite LV; lia)) as [l Hl].
  destruct (interpolant q (row_values rr w s') Pq ltac:(rewrite LV; lia)) as [r Hr].
  destruct (interpolant q (row_values ro w s') Pq ltac:(rewrite LV; lia)) as [o Ho].
  assert (I1 := interpolates_scale q _ _ t HL). assert (I2 := interpolates_scale q _ _ (gxc G (t mod q)) HL). rewrite scale_last in I1, I2.
  rewrite (D3 l r _ o l r _ o Hl Hr I2 Ho Hl Hr I1 Ho). rewrite !poly_scale.
  set (a := gxc G ((t * poly_at L x) mod q)). set (e := gxc G (t mod q) * poly_at L x). set (m := poly_at l x * poly_at r x). set (v := poly_at o x).
  split; intros H.
  - replace a with ((m + a - v) + (v - m)) by ring. rewrite H. apply cong_eq. ring.
  - now rewrite H.
Qed.
Print Assumptions C94_sparse_verdict.

(** ** Programs *)
Section P.
Variable sort : factors -> factors.
Hypothesis sort_perm : forall l, Permutation (sort l) l.
Variable hash : string -> Z.
Variable q : Z.
Hypothesis Hq : prime q.
Variables (fs : defs) (ins : list string) (p : program) (r : ret) (st : state).
Hypothesis HC : compiles sort hash q fs ins p r st.
Hypothesis HP : publics_ok p.
Lemma prog_rand_out : ~ In rand_out (wire_names (ppublic p) ins (gates (scoll st)) false).
Proof using sort_perm Hq HC HP.
  destruct (prog_run _ _ _ _ _ _ _ _ HC) as (body & _ & Np & _ & Hh & _). unfold wire_names. rewrite !in_app_iff. cbn [In]. intros [X|[X|[X|[]]]].
  - destruct HP as [_ P2]. rewrite Forall_forall in P2. destruct (P2 _ X) as [C|[C _]]; discriminate.
  - apply fresh_sub in X. rewrite Forall_forall in Np. destruct (Np _ X) as [C _]. discriminate.
  - apply (hashed_length (scoll st) rand_out Hh); [discriminate|]. destruct (prog_nice sort sort_perm hash q Hq (fun _ => 0) fs ins p r st HC HP) as [(_ & _ & HM & _) _]. apply in_rev. rewrite <- HM. now apply out_names_incl.
Qed.
Lemma rand_names : names_ok (ppublic p) ins (gates (scoll st)) true.
Proof using sort_perm Hq HC HP.
  split; [exact (proj1 HP)|]. split; [exact (prog_one _ _ _ _ _ _ _ _ HC)|]. intros _.
  assert (A := prog_rand sort sort_perm hash q Hq (fun _ => 0) fs ins p r st HC HP). assert (B := prog_rand_out). unfold wire_names in A, B. rewrite !in_app_iff in *.
  assert (Fr : forall x, In x ins -> In x (ppublic p) \/ In x (fresh (ppublic p) ins)) by (intros x; apply fresh_in).
  split; intros [C|[C|C]]; [apply A|apply A|apply A|apply B|apply B|apply B]; auto; apply Fr in C; tauto.
Qed.
End P.
(** A compiled program: the randomized system exists, and its solutions are the solutions of the other one. *)
Theorem C94_program : forall sort hash q gx fs ins p r st, (forall l, Permutation (sort l) l) -> prime q -> gx 0 ==[q] 0 ->
  compiles sort hash q fs ins p r st -> publics_ok p ->
  exists d d', gates_to_r1cs (ppublic p) ins (gates (scoll st)) false = Some d /\ gates_to_r1cs (ppublic p) ins (gates (scoll st)) true = Some d' /\
    List.length (index_map d') = S (S (List.length (index_map d))) /\
    forall W t u, List.length W = List.length (index_map d) ->
    (Forall (row_ok q gx (W ++ [t; u])) (rows d') <-> Forall (row_ok q gx W) (rows d) /\ t * t + gx (t mod q) ==[q] u) /\
    (nth 0 W 0 = 1 -> Forall (row_ok q gx (W ++ [t; u])) (rows d') -> forall v asked, program_means q gx fs (read (index_map d) W) v asked ->
     Forall (fun e => fst e ==[q] snd e) asked /\
     match v with
     | Some z => lin (read (index_map d) W) (strip (rvals r)) ==[q] num_of z /\
                 (is_single_number (strip (rvals r)) = true \/ exists i, (i < List.length W)%nat /\ nth i W 0 ==[q] num_of z)
     | None => strip (rvals r) = []
     end).
Proof.
  intros sort hash q gx fs ins p r st Hs Hq G0 HC HP. destruct (C81_generated sort hash q fs ins p r st Hs Hq HC HP) as [(d & ED & _) _].
  destruct (prog_nice sort Hs hash q Hq (fun _ => 0) fs ins p r st HC HP) as (HG & _).
  destruct (C94_dense (ppublic p) ins (gates (scoll st)) d (rand_names sort Hs hash q Hq fs ins p r st HC HP) (sys_shape _ _ _ _ _ HG) ED) as (d' & ED' & I & _ & _ & H).
  exists d, d'. split; [exact ED|]. split; [exact ED'|]. split; [rewrite I, app_length; cbn; lia|]. intros W t u L. split; [exact (H q gx W t u L)|].
  intros W0 SAT. apply (H q gx W t u L) in SAT. exact (C81_sound sort hash q gx fs ins p r st d Hs Hq G0 HC HP ED W L W0 (proj1 SAT)).
Qed.
Print Assumptions C94_program.

(** The case of C27: a gate of every kind. *)
Example C94_case : exists d d' s s', gates_to_r1cs demo_pubs demo_ins demo_gates false = Some d /\ gates_to_r1cs demo_pubs demo_ins demo_gates true = Some d' /\
  gates_to_sparse_r1cs 101 demo_pubs demo_ins demo_gates false = Some s /\ gates_to_sparse_r1cs 101 demo_pubs demo_ins demo_gates true = Some s' /\
  names_ok demo_pubs demo_ins demo_gates true /\ Forall (gate_shape (wire_names demo_pubs demo_ins demo_gates false)) demo_gates /\ numbers_fine demo_gates /\
  rand_unused [("x", 3); ("y", 4)] (split_map d) /\
  calculate_witness 101 demo_gx (index_map d) (split_map d) (rows d) 5 [("x", 3); ("y", 4)] = Ok [1; 4; 3; 42; 1; 1; 7; 77] /\
  calculate_witness 101 demo_gx (index_map d') (split_map d') (rows d') 5 [("x", 3); ("y", 4)] = Ok [1; 4; 3; 42; 1; 1; 7; 77; 5; 34] /\
  calculate_sparse_witness 101 demo_gx (index_map s') (split_map s') (rows s') 5 [("x", 3); ("y", 4)] = Ok [1; 4; 3; 42; 1; 1; 7; 77; 5; 34].
Proof.
  do 4 eexists. split; [vm_compute; reflexivity|]. split; [vm_compute; reflexivity|]. split; [vm_compute; reflexivity|]. split; [vm_compute; reflexivity|].
  split; [exact (demo_names_ok true)|]. split; [exact (demo_shape false)|].
  split. { intros g f Hg Hf N. assert (X : ident (ftok f) = "3"). { cbn in Hg. decompose [or] Hg; subst; cbn in Hf; decompose [or] Hf; subst; try contradiction; try discriminate; reflexivity. } rewrite X. split; discriminate. }
  split. { split; intros k zs H; cbn in H; repeat (destruct H as [H|H]); try contradiction; injection H as <- <-; split; discriminate. }
  split; [vm_compute; reflexivity|]. split; vm_compute; reflexivity.
Qed.

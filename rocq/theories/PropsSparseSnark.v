(** C90-C91: the sparse combined polynomial, sparse proofs and their verification. *)
Require Import ZArith Znumtheory NArith Bool Ascii String Lia List.
Require Import Verif.Cong Verif.FqModel Verif.FqSpec Verif.FqProofs Verif.PolyModel Verif.PolyProofs Verif.InterpProofs Verif.Pocklington.
Require Import Verif.AvlModel Verif.AvlSpec Verif.AvlProofs Verif.SparseModel Verif.SparseSpec Verif.SparseProofs Verif.SparseProofs2.
Require Import Verif.FactorModel Verif.ExprModel Verif.R1csModel Verif.R1csSpec Verif.SnarkModel Verif.SnarkSpec.
Require Import Verif.SnarkProofs Verif.SnarkProofs2 Verif.SnarkProofs3 Verif.SparseSnarkSpec Verif.SparseSnarkProofs Verif.SparseSnarkProofs2 Verif.PropsSnark.
Import ListNotations.
Open Scope Z_scope.

(** C90.  Value at gate i, and the remainder. *)
Theorem C90_combined : forall q G s c w, prime q -> (1 <= List.length (rows s))%nat -> Z.of_nat (List.length (rows s)) <= q ->
  sparse_sized s -> xcoord G (base1 G 0) = 0 -> scache_ok q c -> List.length w = List.length (index_map s) ->
  exists T Px c', transpose_sparse_er1cs s = Some T /\ combine_sparse_polynomials q G c w T = Some (Px, c') /\
    wf Px /\ ctree q Px /\ below (tc Px) (2 * List.length (rows s) - 1) /\
    forall i r, nth_error (rows s) i = Some r -> exists v, eval_sparse q Px (Z.of_nat i) = Some v /\
      v ==[q] edot (ascending (rl r)) w * edot (ascending (rr r)) w + gxc G (edot (ascending (re r)) w mod q) - edot (ascending (ro r)) w.
Proof.
  intros q G s c w Pq N Nq W X0 Hc Lw. destruct (columns_spec s W) as [T [ET _]].
  destruct (combine_sparse_spec q Pq G s W T c w ET X0 N Nq Hc Lw) as (Px & c' & E & _ & WP & CP & BP & l & r & g & o & Il & Ir & Ig & Io & Ev).
  exists T, Px, c'. do 5 (split; [assumption|]). intros i rw Hi.
  assert (Hl : (i < List.length (rows s))%nat) by (apply nth_error_Some; congruence).
  assert (X : Z.of_nat i = 0 \/ ~ Z.of_nat i ==[q] 0).
  { destruct i as [|i]; [left; reflexivity|right]. intros H. apply cong_canon_unique in H; lia. }
  destruct (eval_sparse_spec q Px (Z.of_nat i) _ ltac:(destruct Pq; lia) WP BP X) as [v [E1 [E2 _]]].
  exists v. split; auto. rewrite E2, <- (teval_fval Px _ _ WP BP). apply (gate_value q G s w l r g o Px); auto.
Qed.
Print Assumptions C90_combined.
(** It has the coefficients of the dense one. *)
Definition same_row (q : Z) (a : row (list Z)) (b : row tree) : Prop :=
  (forall i, nth i (rl a) 0 ==[q] tc (rl b) i) /\ (forall i, nth i (rr a) 0 ==[q] tc (rr b) i) /\
  (forall i, nth i (re a) 0 ==[q] tc (re b) i) /\ (forall i, nth i (ro a) 0 ==[q] tc (ro b) i).
Lemma same_value q (v : list Z) t w : wf t -> below (tc t) (List.length w) -> List.length v = List.length w ->
  (forall i, nth i v 0 ==[q] tc t i) -> dot v w ==[q] edot (ascending t) w.
Proof.
  intros Wt B L H. rewrite (edot_tree t w _ Wt B), dot_sum by auto. apply zsum_map_cong. intros i _. rewrite H. apply cong_eq; ring.
Qed.
Theorem C90_dense : forall q G d s Td Ts cd cs w Pd Ps cd' cs', prime q -> (1 <= List.length (rows s))%nat ->
  Z.of_nat (2 * List.length (rows s) - 1) <= q -> well_sized d -> sparse_sized s -> List.length (index_map d) = List.length (index_map s) ->
  Forall2 (same_row q) (rows d) (rows s) -> xcoord G (base1 G 0) = 0 ->
  cache_ok q cd -> scache_ok q cs -> List.length w = List.length (index_map s) -> w <> [] ->
  transpose_er1cs d = Some Td -> transpose_sparse_er1cs s = Some Ts ->
  combine_polynomials q G cd w Td = Some (Pd, cd') -> combine_sparse_polynomials q G cs w Ts = Some (Ps, cs') ->
  forall i, lookup Ps (N.of_nat i) = nth i Pd 0.
Proof.
  intros q G d s Td Ts cd cs w Pd Ps cd' cs' Pq N Nq Wd Ws LI SR X0 Hcd Hcs Lw Nw ETd ETs Ed Es.
  assert (Lr := Forall2_len _ _ _ SR).
  destruct (combine_spec q Pq G d Td cd w ltac:(lia) ltac:(lia) Wd ETd Hcd ltac:(lia) Nw)
    as (Pd' & ? & E1 & _ & LP & RP & (dl & dr & de & d_o & l & r & g & o & Wl & Wr & We & Wo & Il & Ir & Ig & Io & Ll & Lrr & Lo & Lde & Vde & EvP) & _).
  rewrite Ed in E1. injection E1 as <- <-.
  destruct (combine_sparse_spec q Pq G s Ws Ts cs w ETs X0 N ltac:(lia) Hcs Lw) as (Ps' & ? & E2 & _ & WP & CP & BP & l' & r' & g' & o' & Jl & Jr & Jg & Jo & EvS).
  rewrite Es in E2. injection E2 as <- <-.
  assert (LV : forall f, List.length (row_values f w s) = List.length (rows s)) by (intros; apply map_length).
  destruct (transpose_er1cs_spec d Wd ltac:(lia)) as (T' & ET' & _ & _ & TL & TR & TE & TO). rewrite ETd in ET'. injection ET' as <-.
  assert (Wd' := Wd). unfold well_sized in Wd'. rewrite Forall_forall in Wd'.
  assert (Ws' := Ws). unfold sparse_sized in Ws'. rewrite Forall_forall in Ws'.
  assert (Data : forall (fd : row (list Z) -> list Z) (fs : row tree -> tree) cols D,
    (forall r, In r (rows d) -> List.length (fd r) = List.length (index_map d)) ->
    (forall a b, In b (rows s) -> same_row q a b -> wf (fs b) /\ below (tc (fs b)) (List.length (index_map s)) /\ forall i, nth i (fd a) 0 ==[q] tc (fs b) i) ->
    transposed (map fd (rows d)) = Some cols -> weighted q cols w = Some D ->
    List.length D = List.length (rows d) /\ forall i, (i < List.length (rows d))%nat -> nth i D 0 ==[q] nth i (row_values fs w s) 0 /\ 0 <= nth i D 0 < q).
  { intros fd fs cols D Hf Hs Tc Wc.
    destruct (weighted_rows q (List.length (rows d)) (List.length (index_map d)) (map fd (rows d)) cols w ltac:(destruct Pq; lia) ltac:(lia) (rows_rectangular d fd Hf) Tc ltac:(lia) Nw) as (D' & E & LD & RD & VD).
    rewrite Wc in E. injection E as <-. split; auto. intros i Hi.
    split; [|unfold reduced in RD; rewrite Forall_forall in RD; apply RD; apply nth_In; lia]. rewrite VD by auto.
    destruct (nth_error (rows d) i) as [a|] eqn:Ea; [|apply nth_error_None in Ea; lia].
    destruct (nth_error (rows s) i) as [b|] eqn:Eb; [|apply nth_error_None in Eb; lia].
    rewrite (nth_error_nth _ _ [] (map_nth_error fd i _ Ea)), (row_values_nth s fs w i b Eb).
    assert (SAB : same_row q a b).
    { assert (A := Forall2_nth _ _ _ a b SR i Hi). now rewrite (nth_error_nth _ _ _ Ea), (nth_error_nth _ _ _ Eb) in A. }
    destruct (Hs a b (nth_error_In _ _ Eb) SAB) as (Wt & Bt & St). apply same_value; auto; [now rewrite Lw|]. rewrite Hf; [lia|]. eapply nth_error_In; eauto. }
  assert (Sd : forall b, In b (rows s) -> forall t, In t [rl b; rr b; re b; ro b] -> wf t /\ below (tc t) (List.length (index_map s))).
  { intros b Hb t Ht. assert (A := Ws' b Hb). rewrite Forall_forall in A. auto. }
  destruct (Data rl rl (cl Td) dl) as [Dl1 Dl2]; auto; [intros; apply Wd'; auto| |].
  { intros a b Hb [H _]. destruct (Sd b Hb (rl b)) as [? ?]; [cbn; auto|]. auto. }
  destruct (Data rr rr (cr Td) dr) as [Dr1 Dr2]; auto; [intros; apply Wd'; auto| |].
  { intros a b Hb [_ [H _]]. destruct (Sd b Hb (rr b)) as [? ?]; [cbn; auto|]. auto. }
  destruct (Data re re (ce Td) de) as [De1 De2]; auto; [intros; apply Wd'; auto| |].
  { intros a b Hb [_ [_ [H _]]]. destruct (Sd b Hb (re b)) as [? ?]; [cbn; auto|]. auto. }
  destruct (Data ro ro (co Td) d_o) as [Do1 Do2]; auto; [intros; apply Wd'; auto| |].
  { intros a b Hb [_ [_ [_ H]]]. destruct (Sd b Hb (ro b)) as [? ?]; [cbn; auto 6|]. auto. }
  assert (Ev : forall x, poly_at Pd x ==[q] teval Ps x).
  { intros x. rewrite EvP, EvS.
    rewrite (interpolates_value q (row_values rl w s) l l' x Pq ltac:(rewrite LV; lia)); auto.
    2:{ apply (interpolates_ext q dl); auto; [rewrite LV; lia|]. intros i Hi. apply Dl2. lia. }
    rewrite (interpolates_value q (row_values rr w s) r r' x Pq ltac:(rewrite LV; lia)); auto.
    2:{ apply (interpolates_ext q dr); auto; [rewrite LV; lia|]. intros i Hi. apply Dr2. lia. }
    rewrite (interpolates_value q (row_values ro w s) o o' x Pq ltac:(rewrite LV; lia)); auto.
    2:{ apply (interpolates_ext q d_o); auto; [rewrite LV; lia|]. intros i Hi. apply Do2. lia. }
    rewrite (interpolates_value q (map (fun v => gxc G (v mod q)) (row_values re w s)) g g' x Pq ltac:(rewrite map_length, LV; lia)); auto.
    apply (interpolates_ext q (map (gxc G) de)); auto; [rewrite !map_length, LV; lia|]. intros i Hi. rewrite map_length in Hi. apply cong_eq.
    rewrite (nth_indep (map (gxc G) de) 0 (gxc G 0)) by (rewrite map_length; lia). rewrite map_nth.
    rewrite (nth_indep (map _ (row_values re w s)) 0 (gxc G (0 mod q))) by (rewrite map_length, LV; lia). rewrite (map_nth (fun v => gxc G (v mod q))).
    f_equal. destruct (De2 i ltac:(lia)) as [V R]. rewrite <- (Z.mod_small _ _ R). apply cong_mod_iff; [destruct Pq; lia|exact V]. }
  intros i.
  assert (P : peq q (dense (tc Ps) (2 * List.length (rows s) - 1)) Pd).
  { apply (interp_unique q (2 * List.length (rows s) - 1)); auto; [rewrite dense_length; lia|lia|]. intros j _.
    rewrite <- (teval_poly Ps _ _ WP BP). symmetry. apply Ev. }
  assert (A := P i). rewrite dense_coef_below in A by auto. unfold tc in A. apply (cong_canon_unique q); auto.
  unfold coef. destruct (Nat.lt_ge_cases i (List.length Pd)) as [H|H]; [|rewrite nth_overflow by auto; destruct Pq; lia].
  unfold reduced in RP. rewrite Forall_forall in RP. apply RP. now apply nth_In.
Qed.
Print Assumptions C90_dense.

(** Domain polynomial of the key. *)
Lemma sparse_setup_domain q G c pub T x al be ga de k c1 : generate_setup_sparse q G c pub T x al be ga de = Some (k, c1) -> domain G k = domain_poly q (ngates T).
Proof.
  unfold generate_setup_sparse. destruct (er1cs_to_eap_sparse q c T) as [[[[[l r] e] o] c2]|]; [|discriminate].
  unfold setup_keys. destruct (_ && _)%bool; [|discriminate]. destruct (Nat.leb _ _); [discriminate|].
  destruct (feval_poly q (domain_poly q (ngates T)) x); [|discriminate]. destruct (finv q de); [|discriminate]. destruct (finv q ga); [|discriminate].
  destruct (wire_keys _ _ _ _ _ _ _ _ _ _ _); [|discriminate]. intros [= <- <-]. reflexivity.
Qed.
(** No proof for an assignment that violates a gate: no number of rounds of the division ends in a
    proof, and with enough rounds GenerateProof_Sparse has panicked. *)
Theorem C90_no_proof : forall q G s T c0 c1 pub x al be ga de k c c' w Px, prime q -> (1 <= List.length (rows s))%nat ->
  Z.of_nat (List.length (rows s)) <= q -> sparse_sized s -> xcoord G (base1 G 0) = 0 -> scache_ok q c ->
  List.length w = List.length (index_map s) -> transpose_sparse_er1cs s = Some T ->
  generate_setup_sparse q G c0 pub T x al be ga de = Some (k, c1) -> combine_sparse_polynomials q G c w T = Some (Px, c') ->
  ~ Forall (srow_ok q (gxc G) w) (rows s) ->
  (forall fuel p, generate_proofs_sparse q G fuel pub k w Px <> Ret p) /\
  (forall fuel, (2 * List.length (rows s) <= fuel)%nat -> generate_proofs_sparse q G fuel pub k w Px = Panic).
Proof.
  intros q G s T c0 c1 pub x al be ga de k c c' w Px Pq N Nq W X0 Hc Lw ET ES EC NR.
  destruct (combine_sparse_spec q Pq G s W T c w ET X0 N Nq Hc Lw) as (Px' & ? & E & _ & WP & CP & BP & l & r & g & o & Il & Ir & Ig & Io & Ev).
  rewrite EC in E. injection E as <- <-.
  destruct (divide_domain q Pq s Px N Nq WP CP BP) as (dom & quo & rem & Ed & EQ & _ & _ & _ & _ & Iff).
  destruct (columns_spec s W) as (T' & ET' & TN & _). rewrite ET in ET'. injection ET' as <-.
  assert (NZ : size rem <> 0%nat).
  { intros H. apply NR. apply (rows_vanish q G s w Px); [apply (gate_value q G s w l r g o Px); auto|]. now apply Iff. }
  unfold generate_proofs_sparse. rewrite (sparse_setup_domain _ _ _ _ _ _ _ _ _ _ _ _ ES), TN, Ed. split.
  - intros fuel p. destruct (divide_sparse q fuel Px dom) as [[Qx r0]| |] eqn:ED; try discriminate.
    assert (M := divide_sparse_mono q Px dom fuel (fuel + 2 * List.length (rows s)) _ ltac:(lia) ED). rewrite EQ in M by lia. injection M as <- <-.
    destruct (Nat.ltb_spec 0 (size rem)) as [|H]; [discriminate|lia].
  - intros fuel Hf. rewrite (EQ fuel Hf). destruct (Nat.ltb_spec 0 (size rem)) as [|H]; [reflexivity|lia].
Qed.
Print Assumptions C90_no_proof.

(** C91.  Honest sparse proofs, with the setup's polynomials taken over the number of variables
    and the prover's over the number of gates. *)
Theorem C91_honest : forall q G s T c c2 pub w x al be ga de, prime q -> lawful q G -> sparse_sized s ->
  transpose_sparse_er1cs s = Some T -> (1 <= List.length (rows s))%nat -> (List.length (rows s) <= List.length (index_map s))%nat ->
  Z.of_nat (List.length (index_map s)) <= q -> scache_ok q c -> scache_ok q c2 -> (1 <= pub)%nat -> (pub < List.length (index_map s))%nat ->
  List.length w = List.length (index_map s) -> Forall (Z.le 0) w -> Forall (srow_ok q (gxc G) w) (rows s) ->
  0 <= x < q -> 0 <= al -> 0 <= be -> 0 <= ga -> 0 <= de -> ~ ga ==[q] 0 -> ~ de ==[q] 0 ->
  exists k c1 Px c3, generate_setup_sparse q G c pub T x al be ga de = Some (k, c1) /\
    combine_sparse_polynomials q G c2 w T = Some (Px, c3) /\
    (sparse_prover_safe q G pub k w Px -> verifier_safe G k (firstn pub w) ->
     exists p b, (forall fuel, (2 * List.length (rows s) <= fuel)%nat -> generate_proofs_sparse q G fuel pub k w Px = Ret p) /\
     verify_proof G k p (firstn pub w) = Some b /\
     forall l r g o l' r' e' o', interpolates q (row_values rl w s) l -> interpolates q (row_values rr w s) r ->
       interpolates q (map (fun v => gxc G (v mod q)) (row_values re w s)) g -> interpolates q (row_values ro w s) o ->
       interpolates q (padded (List.length (index_map s)) (row_values rl w s)) l' ->
       interpolates q (padded (List.length (index_map s)) (row_values rr w s)) r' ->
       interpolates q (padded (List.length (index_map s)) (row_values re w s)) e' ->
       interpolates q (padded (List.length (index_map s)) (row_values ro w s)) o' ->
       (b = true <-> poly_at l' x * poly_at r' x + gxc G (poly_at e' x mod q) - poly_at o' x ==[q]
                     poly_at l x * poly_at r x + poly_at g x - poly_at o x)).
Proof.
  intros q G s T c c2 pub w x al be ga de Pq LG W ET N1 Nm Nq Hc Hc2 P1 P2 Lw Hw SAT Hx Hal Hbe Hga Hde Nga Nde.
  exact (sparse_honest q Pq G s W LG T ET N1 Nm Nq c c2 pub w x al be ga de Hc Hc2 P1 P2 Lw Hw SAT Hx Hal Hbe Hga Hde Nga Nde).
Qed.
Print Assumptions C91_honest.

Lemma free_row_values w s : sparse_exponent_free s -> row_values re w s = repeat 0 (List.length (rows s)).
Proof.
  unfold sparse_exponent_free, row_values. induction 1 as [|r rs Hr _ IH]; [reflexivity|]. cbn [map List.length repeat]. rewrite IH, Hr. reflexivity.
Qed.
Lemma zero_interpolates q n : (1 <= n)%nat -> interpolates q (repeat 0 n) [0].
Proof. intros H. apply interpolates_const; rewrite repeat_length; [lia|]. intros i Hi. rewrite nth_repeat. reflexivity. Qed.
Lemma padded_zeros m n : (n <= m)%nat -> padded m (repeat 0 n) = repeat 0 m.
Proof. intros H. unfold padded. rewrite repeat_length, <- repeat_app. f_equal. lia. Qed.
Lemma map_repeat {A B} (f : A -> B) a n : map f (repeat a n) = repeat (f a) n.
Proof. induction n as [|n IH]; [reflexivity|]. cbn [repeat map]. now rewrite IH. Qed.
(** Some polynomial interpolates any data. *)
Lemma interpolant q d : prime q -> Z.of_nat (List.length d) <= q -> exists p, interpolates q d p.
Proof.
  intros Pq H. destruct (lagrange_spec q [] d Pq H (cache_ok_nil q)) as (p & c & _ & L & _ & V). exists p. split; [lia|]. auto.
Qed.

(** As many gates as variables, no base multiplications: accepted. *)
Theorem C91_accepted : forall q G s T c c2 pub w x al be ga de, prime q -> lawful q G -> sparse_sized s -> sparse_exponent_free s ->
  transpose_sparse_er1cs s = Some T -> List.length (rows s) = List.length (index_map s) ->
  Z.of_nat (List.length (index_map s)) <= q -> scache_ok q c -> scache_ok q c2 -> (1 <= pub)%nat -> (pub < List.length (index_map s))%nat ->
  List.length w = List.length (index_map s) -> Forall (Z.le 0) w -> Forall (srow_ok q (gxc G) w) (rows s) ->
  0 <= x < q -> 0 <= al -> 0 <= be -> 0 <= ga -> 0 <= de -> ~ ga ==[q] 0 -> ~ de ==[q] 0 ->
  exists k c1 Px c3, generate_setup_sparse q G c pub T x al be ga de = Some (k, c1) /\
    combine_sparse_polynomials q G c2 w T = Some (Px, c3) /\
    (sparse_prover_safe q G pub k w Px -> verifier_safe G k (firstn pub w) ->
     exists p, (forall fuel, (2 * List.length (rows s) <= fuel)%nat -> generate_proofs_sparse q G fuel pub k w Px = Ret p) /\
     verify_proof G k p (firstn pub w) = Some true).
Proof.
  intros q G s T c c2 pub w x al be ga de Pq LG W Free ET NM Nq Hc Hc2 P1 P2 Lw Hw SAT Hx Hal Hbe Hga Hde Nga Nde.
  destruct (C91_honest q G s T c c2 pub w x al be ga de Pq LG W ET ltac:(lia) ltac:(lia) Nq Hc Hc2 P1 P2 Lw Hw SAT Hx Hal Hbe Hga Hde Nga Nde)
    as (k & c1 & Px & c3 & E1 & E2 & H).
  exists k, c1, Px, c3. split; auto. split; auto. intros S1 S2. destruct (H S1 S2) as (p & b & E3 & E4 & HB).
  exists p. split; auto. rewrite E4. f_equal. rewrite <- NM in HB.
  assert (LV : forall f, List.length (row_values f w s) = List.length (rows s)) by (intros; apply map_length).
  assert (PS : forall f, padded (List.length (rows s)) (row_values f w s) = row_values f w s) by (intros f; rewrite <- (LV f) at 1; apply padded_same).
  rewrite !PS, (free_row_values w s Free) in HB. rewrite map_repeat, Z.mod_0_l in HB by (destruct Pq; lia).
  assert (X0 : gxc G 0 = 0) by apply (law_x0 q G LG). rewrite X0 in HB.
  destruct (interpolant q (row_values rl w s) Pq ltac:(rewrite LV; lia)) as [l Hl].
  destruct (interpolant q (row_values rr w s) Pq ltac:(rewrite LV; lia)) as [r Hr].
  destruct (interpolant q (row_values ro w s) Pq ltac:(rewrite LV; lia)) as [o Ho].
  assert (I0 := zero_interpolates q (List.length (rows s)) ltac:(lia)).
  apply (HB l r [0] o l r [0] o Hl Hr I0 Ho Hl Hr I0 Ho). replace (poly_at [0] x) with 0 by (unfold poly_at; cbn; ring).
  rewrite Z.mod_0_l by (destruct Pq; lia). rewrite X0. reflexivity.
Qed.
Print Assumptions C91_accepted.

(** Fewer gates than variables: if the combined polynomial does not also vanish at the points
    between the number of gates and the number of variables, an honest proof is accepted for at
    most 2m-2 values of the secret point. *)
Theorem C91_rejected : forall q G s T pub w c2 Px c3 i xs, prime q -> lawful q G -> sparse_sized s -> sparse_exponent_free s ->
  transpose_sparse_er1cs s = Some T -> (1 <= List.length (rows s))%nat ->
  Z.of_nat (List.length (index_map s)) <= q -> scache_ok q c2 -> (1 <= pub)%nat -> (pub < List.length (index_map s))%nat ->
  List.length w = List.length (index_map s) -> Forall (Z.le 0) w -> Forall (srow_ok q (gxc G) w) (rows s) ->
  combine_sparse_polynomials q G c2 w T = Some (Px, c3) ->
  (List.length (rows s) <= i)%nat -> (i < List.length (index_map s))%nat -> eval_sparse q Px (Z.of_nat i) <> Some 0 ->
  NoDup xs ->
  (forall x, In x xs -> 0 <= x < q /\ exists c al be ga de k c1 fuel p, scache_ok q c /\ 0 <= al /\ 0 <= be /\ 0 <= ga /\ 0 <= de /\
     ~ ga ==[q] 0 /\ ~ de ==[q] 0 /\ generate_setup_sparse q G c pub T x al be ga de = Some (k, c1) /\
     sparse_prover_safe q G pub k w Px /\ verifier_safe G k (firstn pub w) /\
     generate_proofs_sparse q G fuel pub k w Px = Ret p /\ verify_proof G k p (firstn pub w) = Some true) ->
  (List.length xs <= 2 * List.length (index_map s) - 2)%nat.
Proof.
  intros q G s T pub w c2 Px c3 i xs Pq LG W Free ET N1 Nq Hc2 P1 P2 Lw Hw SAT EC Hi1 Hi2 NZ ND HX.
  assert (X0 : gxc G 0 = 0) by apply (law_x0 q G LG). assert (q1 : 1 < q) by (destruct Pq; lia).
  set (n := List.length (rows s)) in *. set (m := List.length (index_map s)) in *.
  destruct (combine_sparse_spec q Pq G s W T c2 w ET X0 N1 ltac:(fold n; lia) Hc2 Lw) as (Px' & ? & E & _ & WP & CP & BP & l & r & g & o & Il & Ir & Ig & Io & Ev).
  rewrite EC in E. injection E as <- <-. fold n in BP.
  assert (LV : forall f, List.length (row_values f w s) = n) by (intros; apply map_length).
  assert (PL : forall f, List.length (padded m (row_values f w s)) = m) by (intros f; apply padded_length; rewrite LV; lia).
  destruct (interpolant q (padded m (row_values rl w s)) Pq ltac:(rewrite PL; lia)) as [l' Hl].
  destruct (interpolant q (padded m (row_values rr w s)) Pq ltac:(rewrite PL; lia)) as [r' Hr].
  destruct (interpolant q (padded m (row_values ro w s)) Pq ltac:(rewrite PL; lia)) as [o' Ho].
  assert (I0 := zero_interpolates q m ltac:(lia)).
  set (D := psub q (psub q (pmul q l' r') o') (dense (tc Px) (2 * n - 1))).
  assert (EvD : forall y, poly_at D y ==[q] poly_at l' y * poly_at r' y - poly_at o' y - teval Px y).
  { intros y. unfold D. rewrite !psub_eval, pmul_eval, <- (teval_poly Px y _ WP BP). reflexivity. }
  assert (LD : (List.length D <= 2 * m - 1)%nat).
  { unfold D. rewrite !psub_length, pmul_length, dense_length. destruct Hl as [A _], Hr as [B _], Ho as [C _]. rewrite PL in A, B, C. lia. }
  destruct (Nat.le_gt_cases (List.length xs) (2 * m - 2)) as [|H]; auto. exfalso.
  assert (Root : forall x, In x xs -> poly_at D x ==[q] 0).
  { intros x Hx. destruct (HX x Hx) as (Rx & c & al & be & ga & de & k & c1 & fuel & p & Hc & Hal & Hbe & Hga & Hde & Nga & Nde & EK & S1 & S2 & EP & EV).
    destruct (C91_honest q G s T c c2 pub w x al be ga de Pq LG W ET N1 ltac:(fold n m; lia) Nq Hc Hc2 P1 P2 Lw Hw SAT Rx Hal Hbe Hga Hde Nga Nde)
      as (k' & c1' & Px' & c3' & E1 & E2 & HH).
    rewrite EK in E1. injection E1 as <- <-. rewrite EC in E2. injection E2 as <- <-.
    destruct (HH S1 S2) as (p' & b & E3 & E4 & HB). fold n m in HB.
    assert (p' = p).
    { assert (A := E3 (fuel + 2 * n)%nat ltac:(lia)). unfold generate_proofs_sparse in A, EP. destruct (from_array (domain G k)) as [dom|]; [|discriminate].
      destruct (divide_sparse q fuel Px dom) as [[Qx rr0]| |] eqn:EDv; try discriminate.
      rewrite (divide_sparse_mono q Px dom fuel (fuel + 2 * n) _ ltac:(lia) EDv) in A. rewrite EP in A. now injection A. }
    subst p'. rewrite EV in E4. injection E4 as <-.
    rewrite (free_row_values w s Free) in HB, Ig. fold n in HB, Ig. rewrite padded_zeros in HB by lia.
    assert (V := proj1 (HB l r g o l' r' [0] o' Il Ir Ig Io Hl Hr I0 Ho) eq_refl).
    replace (poly_at [0] x) with 0 in V by (unfold poly_at; cbn; ring). rewrite Z.mod_0_l, X0 in V by lia.
    rewrite EvD. apply -> cong_sub_0. rewrite Ev, <- V. apply cong_eq; ring. }
  assert (Zero : forall j, coef D j ==[q] 0).
  { apply (too_many_roots q Pq xs D); auto; [|lia]. intros a b Ha Hb Eab.
    destruct (HX _ (nth_In xs 0 Ha)) as [Ra _]. destruct (HX _ (nth_In xs 0 Hb)) as [Rb _].
    apply cong_canon_unique in Eab; auto. now apply (NoDup_nth xs 0). }
  assert (Di : poly_at D (Z.of_nat i) ==[q] 0).
  { rewrite <- (poly_at_nil (Z.of_nat i)). apply poly_at_peq. intros j. rewrite coef_nil. apply Zero. }
  rewrite EvD in Di. destruct Hl as [_ Hl], Hr as [_ Hr], Ho as [_ Ho]. rewrite Hl, Hr, Ho in Di by (rewrite PL; auto).
  rewrite !padded_nth, !nth_overflow in Di by (rewrite LV; auto).
  assert (X : Z.of_nat i = 0 \/ ~ Z.of_nat i ==[q] 0).
  { destruct i as [|i']; [left; reflexivity|right]. intros Hz. apply cong_canon_unique in Hz; lia. }
  destruct (eval_sparse_spec q Px (Z.of_nat i) _ q1 WP BP X) as [v [E1 [E2 R]]]. apply NZ. rewrite E1. f_equal.
  apply (cong_canon_unique q); [apply R; lia|lia|]. rewrite E2, <- (teval_fval Px _ _ WP BP).
  assert (A : 0 - (0 * 0 - 0 - teval Px (Z.of_nat i)) ==[q] 0 - 0) by (rewrite Di; reflexivity).
  replace (0 - (0 * 0 - 0 - teval Px (Z.of_nat i))) with (teval Px (Z.of_nat i)) in A by ring. exact A.
Qed.
Print Assumptions C91_rejected.

(** Examples over 101 elements.  [st v]: the tree of the entries of v. *)
Definition st (v : list Z) : tree := match from_array v with Some t => t | None => Leaf end.
Lemma st_sized v n : (List.length v <= n)%nat -> wf (st v) /\ below (tc (st v)) n.
Proof.
  intros H. unfold st. destruct (from_array_spec v) as [t [E [W L]]]. rewrite E. split; auto. intros i Hi. unfold tc. rewrite L, Nnat.Nat2N.id. apply nth_overflow. lia.
Qed.
Definition srow (l r e o : list Z) : row tree := {| rl := st l; rr := st r; re := st e; ro := st o |}.
Lemma srow_sized n l r e o : (List.length l <= n /\ List.length r <= n /\ List.length e <= n /\ List.length o <= n)%nat ->
  Forall (fun t => wf t /\ below (tc t) n) [rl (srow l r e o); rr (srow l r e o); re (srow l r e o); ro (srow l r e o)].
Proof. intros (A & B & C & D). repeat (apply Forall_cons; [apply st_sized; assumption|]). apply Forall_nil. Qed.
(** u = y*y, u*y = 27, y*1 = y: three gates, three variables. *)
Definition cubes : er1cs tree :=
  ER1CS [("1", 0%nat); ("y", 1%nat); ("u", 2%nat)]%string []
    [srow [0; 1] [0; 1] [] [0; 0; 1]; srow [0; 0; 1] [0; 1] [] [27]; srow [0; 1] [1] [] [0; 1]].
(** y*y = z, z*z = u with four variables: fewer gates than variables. *)
Definition short : er1cs tree :=
  ER1CS [("1", 0%nat); ("z", 1%nat); ("y", 2%nat); ("u", 3%nat)]%string []
    [srow [0; 0; 1] [0; 0; 1] [] [0; 1]; srow [0; 1] [0; 1] [] [0; 0; 0; 1]].
(** The same with dense rows. *)
Definition short_dense : er1cs (list Z) :=
  ER1CS [("1", 0%nat); ("z", 1%nat); ("y", 2%nat); ("u", 3%nat)]%string []
    [ {| rl := [0; 0; 1; 0]; rr := [0; 0; 1; 0]; re := [0; 0; 0; 0]; ro := [0; 1; 0; 0] |};
      {| rl := [0; 1; 0; 0]; rr := [0; 1; 0; 0]; re := [0; 0; 0; 0]; ro := [0; 0; 0; 1] |} ].
Lemma cubes_sized : sparse_sized cubes.
Proof. repeat (apply Forall_cons; [apply srow_sized; cbn; lia|]). apply Forall_nil. Qed.
Lemma short_sized : sparse_sized short.
Proof. repeat (apply Forall_cons; [apply srow_sized; cbn; lia|]). apply Forall_nil. Qed.
Ltac rows_101 := repeat (apply Forall_cons; [apply cong_mod_iff; [lia|vm_compute; reflexivity]|]); apply Forall_nil.

(** C90: w = (1, 9, 3, 81) for the honest run, u = 80 for the other. *)
Definition combined_entries (s : er1cs tree) (w : list Z) : option (list (N * Z)) :=
  match transpose_sparse_er1cs s with
  | Some T => match combine_sparse_polynomials 101 G101 [] w T with Some (Px, _) => Some (ascending Px) | None => None end
  | None => None
  end.
Definition combined_list (s : er1cs (list Z)) (w : list Z) : option (list Z) :=
  match transpose_er1cs s with
  | Some T => match combine_polynomials 101 G101 [] w T with Some (Px, _) => Some Px | None => None end
  | None => None
  end.
Example C90_case : sparse_sized short /\ Forall (srow_ok 101 (gxc G101) [1; 9; 3; 81]) (rows short) /\
  combined_entries short [1; 9; 3; 81] = Some [(1%N, 65); (2%N, 36)] /\ combined_list short_dense [1; 9; 3; 81] = Some [0; 65; 36] /\
  ~ Forall (srow_ok 101 (gxc G101) [1; 9; 3; 80]) (rows short) /\
  combined_entries short [1; 9; 3; 80] = Some [(1%N, 66); (2%N, 36)] /\
  sparse_outcome 101 G101 short 2 [1; 9; 3; 80] 5 11 12 13 14 = Some Panic.
Proof.
  split; [exact short_sized|]. split; [rows_101|]. split; [vm_compute; reflexivity|]. split; [vm_compute; reflexivity|].
  split; [|split; vm_compute; reflexivity].
  intros F. inversion F as [|? ? _ F1]; subst. inversion F1 as [|? ? R2 _]; subst. unfold srow_ok in R2.
  apply cong_mod_iff in R2; [|lia]. vm_compute in R2. discriminate R2.
Qed.

(** C91: the sums are safe, decided on exponents. *)
Definition all_safe_sparse (q : Z) (X : Z -> Z) (pub : nat) (k : pk (exponents q X)) (w : list Z) (Px : tree) : bool :=
  let G := exponents q X in
  let chk := fun (l : option (list Z)) => match l with Some ts => sum_allb q ts | None => true end in
  chk (option_map (fun ts => ts ++ [alpha1 G k]) (smuls (smul1 G) (lx_ex G k) w)) && chk (smuls (smul2 G) (rx G k) w) &&
  chk (smuls (smul1 G) (ex G k) w) &&
  match from_array (domain G k) with
  | Some dom =>
      match divide_sparse q 100 Px dom with
      | Ret (Qx, _) => chk (option_map (cons (base1 G 0)) (entry_terms (smul1 G) (powers_domain_delta G k) (ascending Qx))) &&
                       match sparse_msm G (powers_domain_delta G k) (ascending Qx) (base1 G 0) with
                       | Some qd => chk (option_map (fun ts => ts ++ [qd]) (smuls (smul1 G) (rleo_delta G k) (skipn pub w)))
                       | None => true
                       end
      | _ => false
      end
  | None => false
  end && chk (smuls (smul1 G) (rleo_gamma G k) (firstn pub w)).
Lemma all_safe_sparse_ok q X pub k w Px : all_safe_sparse q X pub k w Px = true ->
  sparse_prover_safe q (exponents q X) pub k w Px /\ verifier_safe (exponents q X) k (firstn pub w).
Proof.
  unfold all_safe_sparse. intros H. apply andb_prop in H. destruct H as [H H5]. apply andb_prop in H. destruct H as [H H4].
  apply andb_prop in H. destruct H as [H H3]. apply andb_prop in H. destruct H as [H1 H2]. split; [split; [|split; [|split]]|].
  - intros ts E. rewrite E in H1. now apply sum_allb_ok.
  - intros ts E. rewrite E in H2. now apply sum_allb_ok.
  - intros ts E. rewrite E in H3. now apply sum_allb_ok.
  - intros fuel dom Qx r Ed E. rewrite Ed in H4. destruct (divide_sparse q 100 Px dom) as [[Qx' r']| |] eqn:EQ; try discriminate H4.
    apply (divide_sparse_mono q Px dom 100 (fuel + 100) _ ltac:(lia)) in EQ. apply (divide_sparse_mono q Px dom fuel (fuel + 100) _ ltac:(lia)) in E.
    rewrite E in EQ. injection EQ as <- <-. apply andb_prop in H4. destruct H4 as [H4 H6]. split.
    + intros ts Et. rewrite Et in H4. now apply sum_allb_ok.
    + intros ts qd Et Eq. rewrite Eq in H6. rewrite Et in H6. now apply sum_allb_ok.
  - intros ts E. rewrite E in H5. now apply sum_allb_ok.
Qed.
Definition sparse_safely (s : er1cs tree) (pub : nat) (w : list Z) : bool :=
  match transpose_sparse_er1cs s with
  | None => false
  | Some T => match generate_setup_sparse 101 G101 [] pub T 5 11 12 13 14, combine_sparse_polynomials 101 G101 [] w T with
              | Some (k, _), Some (Px, _) => all_safe_sparse 101 (fun a => a * a) pub k w Px
              | _, _ => false
              end
  end.
Lemma sparse_safely_ok s pub w : sparse_safely s pub w = true -> exists T k c1 Px c3, transpose_sparse_er1cs s = Some T /\
  generate_setup_sparse 101 G101 [] pub T 5 11 12 13 14 = Some (k, c1) /\ combine_sparse_polynomials 101 G101 [] w T = Some (Px, c3) /\
  sparse_prover_safe 101 G101 pub k w Px /\ verifier_safe G101 k (firstn pub w).
Proof.
  unfold sparse_safely. destruct (transpose_sparse_er1cs s) as [T|]; [|discriminate].
  destruct (generate_setup_sparse 101 G101 [] pub T 5 11 12 13 14) as [[k c1]|] eqn:E1; [|discriminate].
  destruct (combine_sparse_polynomials 101 G101 [] w T) as [[Px c3]|] eqn:E2; [|discriminate]. intros H. apply all_safe_sparse_ok in H.
  exists T, k, c1, Px, c3. tauto.
Qed.
Example C91_case : sparse_sized cubes /\ sparse_exponent_free cubes /\ List.length (rows cubes) = List.length (index_map cubes) /\
  Forall (srow_ok 101 (gxc G101) [1; 3; 9]) (rows cubes) /\ combined_entries cubes [1; 3; 9] = Some [(2%N, 12); (3%N, 83); (4%N, 6)] /\
  (exists T k c1 Px c3, transpose_sparse_er1cs cubes = Some T /\
     generate_setup_sparse 101 G101 [] 1 T 5 11 12 13 14 = Some (k, c1) /\ combine_sparse_polynomials 101 G101 [] [1; 3; 9] T = Some (Px, c3) /\
     sparse_prover_safe 101 G101 1 k [1; 3; 9] Px /\ verifier_safe G101 k (firstn 1 [1; 3; 9])) /\
  sparse_outcome 101 G101 cubes 1 [1; 3; 9] 5 11 12 13 14 = Some (Ret true).
Proof.
  split; [exact cubes_sized|]. split; [repeat constructor|]. split; [reflexivity|]. split; [rows_101|]. split; [vm_compute; reflexivity|].
  split; [|vm_compute; reflexivity]. apply sparse_safely_ok. vm_compute. reflexivity.
Qed.
(** Two gates, four variables: the combined polynomial 65x + 36x^2 is not 0 at 2, and the honest
    proof is rejected. *)
Definition combined_value (s : er1cs tree) (w : list Z) (x : Z) : option Z :=
  match transpose_sparse_er1cs s with
  | Some T => match combine_sparse_polynomials 101 G101 [] w T with Some (Px, _) => eval_sparse 101 Px x | None => None end
  | None => None
  end.
Example C91_short_case : sparse_sized short /\ sparse_exponent_free short /\ Forall (srow_ok 101 (gxc G101) [1; 9; 3; 81]) (rows short) /\
  (exists T k c1 Px c3, transpose_sparse_er1cs short = Some T /\
     generate_setup_sparse 101 G101 [] 2 T 5 11 12 13 14 = Some (k, c1) /\ combine_sparse_polynomials 101 G101 [] [1; 9; 3; 81] T = Some (Px, c3) /\
     eval_sparse 101 Px 2 <> Some 0 /\
     sparse_prover_safe 101 G101 2 k [1; 9; 3; 81] Px /\ verifier_safe G101 k (firstn 2 [1; 9; 3; 81])) /\
  sparse_outcome 101 G101 short 2 [1; 9; 3; 81] 5 11 12 13 14 = Some (Ret false).
Proof.
  split; [exact short_sized|]. split; [repeat constructor|]. split; [rows_101|]. split; [|vm_compute; reflexivity].
  destruct (sparse_safely_ok short 2 [1; 9; 3; 81] ltac:(vm_compute; reflexivity)) as (T & k & c1 & Px & c3 & E1 & E2 & E3 & E4 & E5).
  assert (A : match combined_value short [1; 9; 3; 81] 2 with Some 0 => false | _ => true end = true) by (vm_compute; reflexivity).
  exists T, k, c1, Px, c3. do 3 (split; [assumption|]). split; [|split; assumption].
  unfold combined_value in A. rewrite E1, E3 in A. intros H. rewrite H in A. discriminate A.
Qed.

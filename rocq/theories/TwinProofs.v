(** The sparse witness solver follows the dense one: same matrix, same steps, except for the comparison of an
    unreduced sum at the end of every row. *)
Require Import ZArith Znumtheory NArith Bool Lia Setoid Morphisms Sorted Ascii String List.
Require Import Verif.Cong Verif.FqModel Verif.FqSpec Verif.FqProofs Verif.PolyModel Verif.PolyProofs.
Require Import Verif.AvlModel Verif.AvlSpec Verif.AvlProofs Verif.SparseModel Verif.SparseSpec Verif.SparseProofs Verif.SparseProofs2.
Require Import Verif.FactorModel Verif.FactorSpec Verif.FactorProofs Verif.R1csModel Verif.R1csSpec Verif.R1csProofs.
Require Import Verif.WitnessModel Verif.WitnessSpec Verif.WitnessProofs.
Require Verif.SolveProofs2.
Import ListNotations.
Open Scope Z_scope.

(** ** Specification *)
(** The tree holds the entries of the vector. *)
Definition twin (v : list Z) (t : tree) : Prop := represents t (fun k => nth (N.to_nat k) v 0).
Definition twin_row (d : row (list Z)) (r : row tree) : Prop :=
  twin (rl d) (rl r) /\ twin (rr d) (rr r) /\ twin (re d) (re r) /\ twin (ro d) (ro r).
(** Every vector of the row has [n] entries. *)
Definition row_width (n : nat) (d : row (list Z)) : Prop :=
  List.length (rl d) = n /\ List.length (rr d) = n /\ List.length (re d) = n /\ List.length (ro d) = n.
(** Sum of the products, each reduced, the sum itself not. *)
Definition residues (q : Z) (v w : list Z) : Z := zsum (map (fun p => (fst p * snd p) mod q) (combine v w)).
(** The output side of the row adds up to less than [q]. *)
Definition out_fits (q : Z) (w : list Z) (d : row (list Z)) : Prop := residues q (ro d) w < q.

(** ** Entries *)
Fixpoint entries (j : nat) (v : list Z) : list (N * Z) :=
  match v with
  | [] => []
  | x :: v' => if x =? 0 then entries (S j) v' else (N.of_nat j, x) :: entries (S j) v'
  end.
Lemma entries_in v : forall j k x, In (k, x) (entries j v) <-> (N.of_nat j <= k)%N /\ nth (N.to_nat k - j) v 0 = x /\ x <> 0.
Proof.
  induction v as [|y v IH]; intros j k x; cbn [entries].
  - split; [intros []|]. intros [_ [E N]]. destruct (N.to_nat k - j)%nat; cbn in E; congruence.
  - assert (C : In (k, x) (entries (S j) v) <-> (N.of_nat j < k)%N /\ nth (N.to_nat k - j) (y :: v) 0 = x /\ x <> 0).
    { rewrite IH. split; intros [A [E N]]; (split; [lia|]); split; auto.
      - replace (N.to_nat k - j)%nat with (S (N.to_nat k - S j)) by lia. exact E.
      - replace (N.to_nat k - j)%nat with (S (N.to_nat k - S j)) in E by lia. exact E. }
    assert (Z : forall P : Prop, (N.of_nat j <= k)%N /\ P <-> (k = N.of_nat j /\ P) \/ ((N.of_nat j < k)%N /\ P)).
    { intros P. split; [intros [A p]; destruct (N.eq_dec k (N.of_nat j)); [left|right]; split; auto; lia|].
      intros [[-> p]|[A p]]; (split; [lia|auto]). }
    rewrite Z. destruct (Z.eqb_spec y 0) as [->|Hy]; cbn [In]; rewrite C.
    + split; [auto|]. intros [[-> [E N]]|H]; auto. exfalso. rewrite Nat2N.id, Nat.sub_diag in E. cbn in E. congruence.
    + split; (intros [H|H]; [left|right; exact H]).
      * injection H as <- <-. split; auto. rewrite Nat2N.id, Nat.sub_diag. auto.
      * destruct H as [-> [E N]]. rewrite Nat2N.id, Nat.sub_diag in E. cbn in E. congruence.
Qed.
Lemma entries_sorted v : forall j, StronglySorted (fun a b : N * Z => (fst a < fst b)%N) (entries j v).
Proof.
  induction v as [|y v IH]; intros j; cbn [entries]; [constructor|]. destruct (y =? 0); auto. constructor; auto.
  apply Forall_forall. intros [k x] H. apply entries_in in H. cbn [fst]. lia.
Qed.
Lemma twin_entries v t : twin v t -> ascending t = entries 0 v.
Proof.
  intros H. apply (entries_unique (fun k => nth (N.to_nat k) v 0)); [now apply ascending_entries|].
  split; [apply entries_sorted|]. intros k x. rewrite entries_in, Nat.sub_0_r. split; [intros [_ H']|intros H'; split; [lia|]]; intuition.
Qed.

(** ** Scanning *)
Section S.
Variable q : Z.
Hypothesis Hq : prime q.
Variable gx : Z -> Z.
Hypothesis gx_periodic : forall k, 0 <= k -> gx k = gx (k mod q).
Variable bm : bitmap.

Lemma q_large : 1 < q. Proof using Hq. destruct Hq; auto. Qed.

Lemma sscan_twin v : forall j t0 m s, represents t0 m -> (forall k, (N.of_nat j <= k)%N -> m k = 0) ->
  match scan bm j v s with
  | None => sscan bm (entries j v) t0 s = None
  | Some (k, u, s') => exists t, sscan bm (entries j v) t0 s = Some (t, map N.of_nat u, s') /\
      represents t (fun i => if (i <? N.of_nat j)%N then m i else nth (N.to_nat i - j) k 0)
  end.
Proof using Type.
  induction v as [|x v IH]; intros j t0 m s R0 M0; cbn [scan entries].
  - exists t0. split; auto. eapply represents_ext; [exact R0|]. intros i. cbn beta. destruct (N.ltb_spec i (N.of_nat j)); auto.
    rewrite M0 by auto. now destruct (N.to_nat i - j)%nat.
  - assert (STEP : forall (k : list Z) c (t : tree) (m' : amap), represents t (fun i => if (i <? N.of_nat (S j))%N then m' i else nth (N.to_nat i - S j) k 0) ->
      (forall i, (i < N.of_nat j)%N -> m' i = m i) -> m' (N.of_nat j) = c ->
      represents t (fun i => if (i <? N.of_nat j)%N then m i else nth (N.to_nat i - j) (c :: k) 0)).
    { intros k c t m' R A C. eapply represents_ext; [exact R|]. intros i. cbn beta.
      destruct (N.ltb_spec i (N.of_nat (S j))) as [L|L]; destruct (N.ltb_spec i (N.of_nat j)) as [L'|L']; auto; try lia.
      - replace i with (N.of_nat j) by lia. rewrite Nat2N.id, Nat.sub_diag. auto.
      - replace (N.to_nat i - j)%nat with (S (N.to_nat i - S j)) by lia. reflexivity. }
    assert (M1 : forall k, (N.of_nat (S j) <= k)%N -> m k = 0) by (intros k Hk; apply M0; lia).
    assert (INS : forall c, exists t1, insert t0 (N.of_nat j) c = Some t1 /\ represents t1 (aset m (N.of_nat j) c) /\
      (forall k, (N.of_nat (S j) <= k)%N -> aset m (N.of_nat j) c k = 0) /\ (forall i, (i < N.of_nat j)%N -> aset m (N.of_nat j) c i = m i) /\ aset m (N.of_nat j) c (N.of_nat j) = c).
    { intros c. destruct (AvlProofs.insert_spec t0 m (N.of_nat j) c R0) as [t1 [E1 R1]]. exists t1. split; auto. split; auto. unfold aset.
      split; [intros k Hk; destruct (N.eqb_spec k (N.of_nat j)); [lia|apply M1; auto]|]. split; [intros i Hi; destruct (N.eqb_spec i (N.of_nat j)); [lia|auto]|now rewrite N.eqb_refl]. }
    destruct (Z.eqb_spec x 0) as [->|Hx].
    + assert (H := IH (S j) t0 m s R0 M1). destruct (scan bm (S j) v s) as [[[k u] s']|]; auto.
      destruct H as [t [E R]]. exists t. split; auto. apply (STEP k 0 t m R); auto. apply M0. lia.
    + cbn [sscan]. rewrite Nat2N.id. destruct (nth_error (isset s) j) as [[|]|]; [| |reflexivity].
      * destruct (INS x) as [t1 [E1 [R1 [A1 [B1 C1]]]]]. rewrite E1. assert (H := IH (S j) t1 _ s R1 A1).
        destruct (scan bm (S j) v s) as [[[k u] s']|]; auto. destruct H as [t [E R]]. exists t. split; auto. exact (STEP k x t _ R B1 C1).
      * destruct (bm_get bm j) as [[pos father]|].
        -- destruct (nth_error (wit s) father) as [f|]; [|reflexivity]. destruct (assign s j (bit_of f pos)) as [s1|]; [|reflexivity].
           destruct (INS (bit_of f pos)) as [t1 [E1 [R1 [A1 [B1 C1]]]]]. rewrite E1. assert (H := IH (S j) t1 _ s1 R1 A1).
           destruct (scan bm (S j) v s1) as [[[k u] s']|]; auto. destruct H as [t [E R]]. exists t. split; auto. exact (STEP k _ t _ R B1 C1).
        -- assert (H := IH (S j) t0 m s R0 M1). destruct (scan bm (S j) v s) as [[[k u] s']|]; [|now rewrite H].
           destruct H as [t [E R]]. rewrite E. exists t. split; auto. apply (STEP k 0 t m R); auto. apply M0. lia.
Qed.
Lemma leaf_twin : represents Leaf (fun _ => 0).
Proof using Type. split; [apply wf_leaf|]. reflexivity. Qed.
(** The scans of a vector and of its tree agree. *)
Lemma twin_scan v t s : twin v t ->
  (scan bm 0 v s = None /\ sscan bm (ascending t) Leaf s = None) \/
  exists k u kt s', scan bm 0 v s = Some (k, u, s') /\ sscan bm (ascending t) Leaf s = Some (kt, map N.of_nat u, s') /\ twin k kt /\
    List.length k = List.length v /\ List.length (wit s') = List.length (wit s) /\ List.length (isset s') = List.length (isset s).
Proof using Type.
  intros T. rewrite (twin_entries v t T). assert (H := sscan_twin v 0 Leaf (fun _ => 0) s leaf_twin (fun _ _ => eq_refl)).
  destruct (scan bm 0 v s) as [[[k u] s']|] eqn:E; [|auto]. right. destruct H as [kt [E' R]]. exists k, u, kt, s'. split; auto. split; auto.
  destruct (scan_spec bm _ _ _ _ _ _ E) as [[X1 [X2 _]] [L _]]. split; auto.
  eapply represents_ext; [exact R|]. intros i. cbn beta. destruct (N.ltb_spec i (N.of_nat 0)); [lia|]. now rewrite Nat.sub_0_r.
Qed.

(** ** Sums *)
Lemma residues_cong v : forall w, residues q v w ==[q] dot v w.
Proof using Hq.
  unfold residues. assert (Q := q_large). induction v as [|x v IH]; intros w; [reflexivity|]. destruct w as [|y w]; [reflexivity|].
  cbn [combine map zsum dot fst snd]. rewrite IH. rewrite cong_mod by lia. reflexivity.
Qed.
Lemma residues_pos v : forall w, 0 <= residues q v w.
Proof using Hq.
  unfold residues. assert (Q := q_large). induction v as [|x v IH]; intros w; [cbn; lia|]. destruct w as [|y w]; [cbn; lia|].
  cbn [combine map zsum fst snd]. assert (B := Z.mod_pos_bound (x * y) q ltac:(lia)). specialize (IH w). lia.
Qed.
Lemma twin_total k kt s : twin k kt -> List.length k = List.length (wit s) ->
  stotal q kt s = Ok (residues q k (wit s)) /\ total q k s = Ok (residues q k (wit s) mod q).
Proof using Hq.
  intros T L. assert (Q := q_large). split.
  - unfold stotal, sparse_scalar_product. rewrite (twin_entries k kt T).
    assert (G : forall v j acc, (j + List.length v <= List.length (wit s))%nat -> fold_left (fun acc e => match acc, nth_error (wit s) (N.to_nat (fst e)) with
     | Some res, Some w => Some (res + fmul q (snd e) w) | _, _ => None end) (entries j v) (Some acc) = Some (acc + residues q v (skipn j (wit s)))).
    { induction v as [|x v IH]; intros j acc B; cbn [entries].
      - cbn. now rewrite Z.add_0_r.
      - cbn [List.length] in B. destruct (skipn j (wit s)) as [|y ws] eqn:Es.
        { assert (X := skipn_length j (wit s)). rewrite Es in X. cbn in X. lia. }
        destruct (skipn_cons _ _ _ _ Es) as [Ey Ews]. unfold residues. cbn [combine map zsum fst snd]. fold (residues q v ws). rewrite <- Ews.
        destruct (Z.eqb_spec x 0) as [->|Hx].
        + rewrite IH by lia. rewrite Z.mul_0_l, Z.mod_0_l by lia. now rewrite Z.add_0_l.
        + cbn [fold_left fst snd]. rewrite Nat2N.id, (nth_error_nth' (wit s) 0) by lia. rewrite IH by lia. rewrite Ey. unfold fmul. f_equal. ring. }
    rewrite (G k 0%nat 0) by lia. reflexivity.
  - assert (C := residues_cong k (wit s)). apply cong_mod_iff in C; [|lia]. rewrite C. exact (SolveProofs2.total_some q Hq k s L).
Qed.

(** ** One row *)
Lemma fdiv_same a b b' : b <> 0 -> b' <> 0 -> b mod q = b' mod q -> fdiv q a b = fdiv q a b'.
Proof using Type.
  intros N N' E. unfold fdiv, finv. rewrite (proj2 (Z.eqb_neq b 0) N), (proj2 (Z.eqb_neq b' 0) N'). unfold mod_inverse. now rewrite E.
Qed.
Lemma fsub_same a a' b b' : a mod q = a' mod q -> b mod q = b' mod q -> fsub q a b = fsub q a' b'.
Proof using Type. intros A B. unfold fsub. now rewrite Zminus_mod, A, B, <- Zminus_mod. Qed.
Lemma fmul_same a a' b b' : a mod q = a' mod q -> b mod q = b' mod q -> fmul q a b = fmul q a' b'.
Proof using Type. intros A B. unfold fmul. now rewrite Zmult_mod, A, B, <- Zmult_mod. Qed.
Lemma fadd_same a a' b b' : a mod q = a' mod q -> b mod q = b' mod q -> fadd q a b = fadd q a' b'.
Proof using Type. intros A B. unfold fadd. now rewrite Zplus_mod, A, B, <- Zplus_mod. Qed.

Definition knows (s : state) (v : list Z) : Prop := forall i, nth i v 0 <> 0 -> B s i = true.
Definition knows_row (s : state) (d : row (list Z)) : Prop := knows s (rl d) /\ knows s (rr d) /\ knows s (re d) /\ knows s (ro d).
Definition fit (n : nat) (s : state) : Prop := List.length (wit s) = n /\ List.length (isset s) = n.

(** The check at the end of a row, dense and sparse. *)
Definition dtail (r : row (list Z)) (s : state) : solved state :=
  let* (lk, lu, s1) := lift (scan bm 0 (rl r) s) in
  let* (rk, ru, s2) := lift (scan bm 0 (rr r) s1) in
  let* (ek, eu, s3) := lift (scan bm 0 (re r) s2) in
  let* (ok, ou, s4) := lift (scan bm 0 (ro r) s3) in
  match lu, ru, ou, eu with
  | [], [], [], [] =>
      let* sr := total q rk s4 in
      let* sl := total q lk s4 in
      let* se := total q ek s4 in
      let* so := total q ok s4 in
      if fadd q (fmul q sr sl) (gx se) =? so then Ok s4 else Err
  | _, _, _, _ => Err
  end.
Definition stail (r : row tree) (s : state) : solved state :=
  let* (lk, lu, s1) := lift (sscan bm (ascending (rl r)) Leaf s) in
  let* (rk, ru, s2) := lift (sscan bm (ascending (rr r)) Leaf s1) in
  let* (ek, eu, s3) := lift (sscan bm (ascending (re r)) Leaf s2) in
  let* (ok, ou, s4) := lift (sscan bm (ascending (ro r)) Leaf s3) in
  match lu, ru, ou, eu with
  | [], [], [], [] =>
      let* sr := stotal q rk s4 in
      let* sl := stotal q lk s4 in
      let* se := stotal q ek s4 in
      let* so := stotal q ok s4 in
      if fadd q (fmul q sr sl) (gx se) =? so then Ok s4 else Err
  | _, _, _, _ => Err
  end.

Lemma knows_scan n v t s : twin v t -> List.length v = n -> fit n s -> knows s v ->
  scan bm 0 v s = Some (v, [], s) /\ exists kt, sscan bm (ascending t) Leaf s = Some (kt, [], s) /\ twin v kt.
Proof using Type.
  intros T L [F1 F2] K. assert (E : scan bm 0 v s = Some (v, [], s)) by (apply SolveProofs2.scan_known; [lia|exact K]). split; auto.
  destruct (twin_scan v t s T) as [[C _]|(k & u & kt & s' & E1 & E2 & T' & _)]; [congruence|].
  rewrite E in E1. injection E1 as <- <- <-. exists kt. auto.
Qed.
Lemma check_value n d s : row_width n d -> fit n s ->
  fadd q (fmul q (residues q (rr d) (wit s)) (residues q (rl d) (wit s))) (gx (residues q (re d) (wit s))) = dot (ro d) (wit s) mod q <-> row_ok q gx (wit s) d.
Proof using Hq gx_periodic.
  intros _ _. assert (Q := q_large). unfold row_ok. rewrite (gx_periodic _ (residues_pos (re d) (wit s))).
  assert (C := residues_cong (re d) (wit s)). apply cong_mod_iff in C; [|lia]. rewrite C. generalize (gx (dot (re d) (wit s) mod q)). intros g.
  assert (X : fadd q (fmul q (residues q (rr d) (wit s)) (residues q (rl d) (wit s))) g ==[q] dot (rl d) (wit s) * dot (rr d) (wit s) + g).
  { rewrite fadd_cong, fmul_cong, !residues_cong. apply cong_eq. ring. }
  rewrite <- X. split.
  - intros ->. now rewrite cong_mod by lia.
  - intros H. apply (cong_canon_unique q); [apply fadd_range; lia|apply Z.mod_pos_bound; lia|]. now rewrite H, cong_mod by lia.
Qed.
Lemma stail_ok n d r s t : twin_row d r -> row_width n d -> fit n s -> knows_row s d ->
  (stail r s = Ok t <-> t = s /\ row_ok q gx (wit s) d /\ out_fits q (wit s) d).
Proof using Hq gx_periodic.
  intros (TL & TR & TE & TO) Wd F (KL & KR & KE & KO). assert (Q := q_large). assert (CV := check_value n d s Wd F). destruct Wd as (LL & LR & LE & LO).
  unfold stail. destruct (knows_scan n _ _ s TL LL F KL) as [_ (kl & -> & T1)]. cbn [lift bind].
  destruct (knows_scan n _ _ s TR LR F KR) as [_ (kr & -> & T2)]. cbn [lift bind].
  destruct (knows_scan n _ _ s TE LE F KE) as [_ (ke & -> & T3)]. cbn [lift bind].
  destruct (knows_scan n _ _ s TO LO F KO) as [_ (ko & -> & T4)]. cbn [lift bind].
  destruct F as [F1 F2]. rewrite (proj1 (twin_total _ _ s T1 ltac:(congruence))), (proj1 (twin_total _ _ s T2 ltac:(congruence))), (proj1 (twin_total _ _ s T3 ltac:(congruence))), (proj1 (twin_total _ _ s T4 ltac:(congruence))). cbn [bind].
  assert (P := residues_pos (ro d) (wit s)). assert (C := residues_cong (ro d) (wit s)). apply cong_mod_iff in C; [|lia].
  unfold out_fits. rewrite <- CV, <- C. set (o := residues q (ro d) (wit s)) in *. set (c := fadd _ _ _).
  assert (R : 0 <= c < q) by (apply fadd_range; lia). destruct (Z.eqb_spec c o) as [E|E].
  - split; [intros [= <-]|intros [-> _]; auto]. split; auto. rewrite Z.mod_small by lia. split; [auto|lia].
  - split; [discriminate|]. intros (_ & A & B). rewrite Z.mod_small in A by lia. contradiction.
Qed.
Lemma dtail_ok n d r s t : twin_row d r -> row_width n d -> fit n s -> knows_row s d ->
  (dtail d s = Ok t <-> t = s /\ row_ok q gx (wit s) d).
Proof using Hq gx_periodic.
  intros (TL & TR & TE & TO) Wd F (KL & KR & KE & KO). assert (Q := q_large). assert (CV := check_value n d s Wd F). destruct Wd as (LL & LR & LE & LO).
  unfold dtail. rewrite (proj1 (knows_scan n _ _ s TL LL F KL)). cbn [lift bind].
  rewrite (proj1 (knows_scan n _ _ s TR LR F KR)). cbn [lift bind]. rewrite (proj1 (knows_scan n _ _ s TE LE F KE)). cbn [lift bind].
  rewrite (proj1 (knows_scan n _ _ s TO LO F KO)). cbn [lift bind].
  destruct F as [F1 F2]. rewrite (proj2 (twin_total _ _ s TL ltac:(congruence))), (proj2 (twin_total _ _ s TR ltac:(congruence))), (proj2 (twin_total _ _ s TE ltac:(congruence))), (proj2 (twin_total _ _ s TO ltac:(congruence))). cbn [bind].
  rewrite <- CV. assert (C := residues_cong (ro d) (wit s)). apply cong_mod_iff in C; [|lia]. rewrite <- C.
  rewrite <- (gx_periodic _ (residues_pos (re d) (wit s))).
  rewrite (fmul_same (residues q (rr d) (wit s) mod q) (residues q (rr d) (wit s)) (residues q (rl d) (wit s) mod q) (residues q (rl d) (wit s))) by (apply Zmod_mod).
  destruct (Z.eqb_spec (fadd q (fmul q (residues q (rr d) (wit s)) (residues q (rl d) (wit s))) (gx (residues q (re d) (wit s)))) (residues q (ro d) (wit s) mod q)) as [E|E].
  - split; [intros [= <-]; auto|intros [-> _]; auto].
  - split; [discriminate|]. intros (_ & A). contradiction.
Qed.

Lemma knows_after v u k s s' : scan bm 0 v s = Some (k, u, s') -> forall s'', ext s' s'' -> (forall x, In x u -> B s'' x = true) -> knows s'' v.
Proof using Type.
  intros E s'' X A i Hi. destruct (scan_spec bm _ _ _ _ _ _ E) as (_ & _ & _ & _ & _ & H & _). destruct (H i Hi) as [Y|Y]; cbn [Nat.add] in Y.
  - now apply X.
  - now apply A.
Qed.
Lemma unknown_after v u k s s' x : scan bm 0 v s = Some (k, u, s') -> In x u -> nth x v 0 <> 0 /\ (x < List.length v)%nat /\ ~ is_bit bm x.
Proof using Type.
  intros E Hx. destruct (scan_spec bm _ _ _ _ _ _ E) as (_ & _ & _ & H & _). destruct (H x Hx) as (_ & N & [_ L] & Z). rewrite Nat.sub_0_r in Z. auto.
Qed.

Lemma row_twin n d r s t : twin_row d r -> row_width n d -> fit n s ->
  (ssolve_row q gx bm r s = Ok t <-> solve_row q gx bm d s = Ok t /\ row_ok q gx (wit t) d /\ out_fits q (wit t) d).
Proof using Hq gx_periodic.
  intros TW Wd F. assert (Q := q_large). assert (TW' := TW). destruct TW' as (TL & TR & TE & TO). assert (Wd' := Wd). destruct Wd' as (LL & LR & LE & LO).
  assert (NO : forall e e' : solved state, (forall t, e <> Ok t) -> (forall t, e' <> Ok t) -> (e = Ok t <-> e' = Ok t /\ row_ok q gx (wit t) d /\ out_fits q (wit t) d)).
  { intros e e' A B. split; [intros H; now apply A in H|intros [H _]; now apply B in H]. }
  unfold ssolve_row, solve_row. fold (dtail d). 
  destruct (twin_scan (rl d) (rl r) s TL) as [[-> ->]|(kl & lu & tl & s1 & E1 & E1' & T1 & L1 & W1 & I1)]; [now apply NO|]. rewrite E1, E1'. cbn [lift bind].
  destruct (twin_scan (rr d) (rr r) s1 TR) as [[-> ->]|(kr & ru & tr & s2 & E2 & E2' & T2 & L2 & W2 & I2)]; [now apply NO|]. rewrite E2, E2'. cbn [lift bind].
  destruct (twin_scan (re d) (re r) s2 TE) as [[-> ->]|(ke & eu & te & s3 & E3 & E3' & T3 & L3 & W3 & I3)]; [now apply NO|]. rewrite E3, E3'. cbn [lift bind].
  destruct eu as [|ex eu]; cbn [map]; [|now apply NO].
  destruct (twin_scan (ro d) (ro r) s3 TO) as [[-> ->]|(ko & ou & to & s4 & E4 & E4' & T4 & L4 & W4 & I4)]; [now apply NO|]. rewrite E4, E4'. cbn [lift bind].
  rewrite !map_length. destruct (Nat.ltb_spec 1 (List.length lu + List.length ru + List.length ou)) as [_|One]; [now apply NO|].
  assert (X1 := proj1 (scan_spec bm _ _ _ _ _ _ E1)). assert (X2 := proj1 (scan_spec bm _ _ _ _ _ _ E2)).
  assert (X3 := proj1 (scan_spec bm _ _ _ _ _ _ E3)). assert (X4 := proj1 (scan_spec bm _ _ _ _ _ _ E4)).
  assert (X34 := X4). assert (X24 := ext_trans _ _ _ X3 X4). assert (X14 := ext_trans _ _ _ X2 X24).
  assert (F4 : fit n s4) by (destruct F; split; congruence). destruct F4 as [F4 F5].
  destruct (twin_total kl tl s4 T1 ltac:(congruence)) as [SL DL]. destruct (twin_total kr tr s4 T2 ltac:(congruence)) as [SR DR].
  destruct (twin_total ke te s4 T3 ltac:(congruence)) as [SE DE]. destruct (twin_total ko to s4 T4 ltac:(congruence)) as [SO DO].
  assert (Pe := residues_pos ke (wit s4)). set (zl := residues q kl (wit s4)) in *. set (zr := residues q kr (wit s4)) in *. set (ze := residues q ke (wit s4)) in *. set (zo := residues q ko (wit s4)) in *.
  assert (KN : forall s5, ext s4 s5 -> (forall x, In x (lu ++ ru ++ ou) -> B s5 x = true) -> fit n s5 /\ knows_row s5 d).
  { intros s5 X5 A. split; [destruct X5 as (A1 & A2 & _); split; congruence|]. split; [|split; [|split]].
    - eapply knows_after; [exact E1|eapply ext_trans; eauto|]. intros x Hx. apply A, in_app_iff. auto.
    - eapply knows_after; [exact E2|eapply ext_trans; eauto|]. intros x Hx. apply A. rewrite !in_app_iff. auto.
    - eapply knows_after; [exact E3|eapply ext_trans; eauto|]. intros x [].
    - eapply knows_after; [exact E4|exact X5|]. intros x Hx. apply A. rewrite !in_app_iff. auto. }
  assert (FIN : forall x v s5, B s4 x = false -> (forall y, In y (lu ++ ru ++ ou) -> y = x) -> assign s4 x v = Some s5 ->
    (stail r s5 = Ok t <-> Ok s5 = Ok t /\ row_ok q gx (wit t) d /\ out_fits q (wit t) d)).
  { intros x v s5 Bx A EA. destruct (KN s5 (assign_ext _ _ _ _ EA Bx)) as [F' K'].
    { intros y Hy. rewrite (A y Hy). destruct (assign_spec _ _ _ _ EA) as (_ & _ & _ & _ & _ & HB). now rewrite HB, Nat.eqb_refl. }
    rewrite (stail_ok n d r s5 t TW Wd F' K'). split; [intros (-> & A1 & A2); auto|intros ([= <-] & A1 & A2); auto]. }
  assert (UNB : forall w u k sa sb x, scan bm 0 w sa = Some (k, u, sb) -> ext sb s4 -> In x u -> (forall y, B s4 y = true -> B sb y = true \/ is_bit bm y) -> B s4 x = false).
  { intros w u k sa sb x E X Hx H. destruct (scan_spec bm _ _ _ _ _ _ E) as (_ & _ & _ & U & _). destruct (U x Hx) as (U1 & U2 & _).
    destruct (B s4 x) eqn:Y; auto. destruct (H x Y); [congruence|contradiction]. }
  assert (N2 := proj1 (proj2 (proj2 (scan_spec bm _ _ _ _ _ _ E2)))). assert (N3 := proj1 (proj2 (proj2 (scan_spec bm _ _ _ _ _ _ E3)))). assert (N4 := proj1 (proj2 (proj2 (scan_spec bm _ _ _ _ _ _ E4)))).
  assert (COEF : forall w u k sa sb x tt, scan bm 0 w sa = Some (k, u, sb) -> In x u -> twin w tt ->
    nth_error w x = Some (nth x w 0) /\ sget tt (N.of_nat x) = Ok (nth x w 0)).
  { intros w u k sa sb x tt E Hx T. destruct (unknown_after _ _ _ _ _ _ E Hx) as (Z & L & _). split; [now apply nth_error_nth'|].
    unfold sget. rewrite (get_represents tt _ (N.of_nat x) T). rewrite Nat2N.id. now rewrite (proj2 (Z.eqb_neq _ 0) Z). }
  assert (DIV : forall z, z mod q <> 0 -> forall a, fdiv q (fsub q (zo mod q) a) (z mod q) = fdiv q (fsub q zo a) z).
  { intros z Z a. rewrite (fsub_same (zo mod q) zo a a) by auto using Zmod_mod. apply fdiv_same; auto using Zmod_mod. intros ->. now rewrite Z.mod_0_l in Z by lia. }
  assert (ZERO : forall z a, z mod q = 0 -> z <> 0 -> fdiv q a z = None).
  { intros z a Z N. apply fdiv_multiple; auto. apply cong_mod_iff; [lia|]. now rewrite Z, Z.mod_0_l by lia. }
  assert (GE := gx_periodic ze Pe).
  destruct lu as [|x [|x' lu]]; cbn [List.length] in One; try lia.
  - destruct ru as [|x [|x' ru]]; cbn [List.length] in One; try lia.
    + destruct ou as [|x [|x' ou]]; cbn [List.length] in One; try lia; cbn [map bind].
      * destruct (KN s4 (ext_refl s4)) as [F' K']; [intros x []|]. fold (stail r s4). rewrite (stail_ok n d r s4 t TW Wd F' K').
        fold (dtail d s4). rewrite (dtail_ok n d r s4 t TW Wd F' K'). split; [intros (-> & A1 & A2); auto|intros ((-> & A1) & _ & A2); auto].
      * assert (Hx : In x [x]) by now left.
        rewrite SR, SL, SE, SO, DR, DL, DE, DO. cbn [bind]. destruct (COEF _ _ _ _ _ x (ro r) E4 Hx TO) as [C1 C2]. rewrite C1, C2. cbn [lift bind].
        rewrite <- GE, (fmul_same (zr mod q) zr (zl mod q) zl), (fsub_same _ (fadd q (fmul q zr zl) (gx ze)) (zo mod q) zo) by auto using Zmod_mod.
        destruct (fdiv q _ (nth x (ro d) 0)) as [v|]; cbn [lift bind]; [|now apply NO]. rewrite Nat2N.id.
        destruct (assign s4 x v) as [s5|] eqn:EA; cbn [lift bind]; [|now apply NO]. fold (stail r s5). apply (FIN x v s5); auto.
        -- exact (UNB _ _ _ _ _ x E4 (ext_refl s4) Hx (fun y H => or_introl H)).
        -- cbn. intros y [<-|[]]; auto.
    + destruct ou as [|y ou]; cbn [List.length] in One; try lia. cbn [map bind]. assert (Hx : In x [x]) by now left.
      rewrite SL, DL. cbn [bind]. destruct (Z.eqb_spec (zl mod q) 0) as [Z0|Z0].
      { destruct (Z.eqb_spec zl 0) as [_|N0]; [now apply NO|]. rewrite SO, SE. cbn [bind]. rewrite (ZERO zl _ Z0 N0). now apply NO. }
      destruct (Z.eqb_spec zl 0) as [C|N0]; [rewrite C, Z.mod_0_l in Z0 by lia; contradiction|].
      rewrite SO, SE, DO, DE. cbn [bind]. rewrite <- GE, (DIV zl Z0). destruct (fdiv q (fsub q zo (gx ze)) zl) as [dd|]; cbn [lift bind]; [|now apply NO].
      rewrite SR, DR. cbn [bind]. destruct (COEF _ _ _ _ _ x (rr r) E2 Hx TR) as [C1 C2]. rewrite C1, C2. cbn [lift bind].
      rewrite (fsub_same dd dd (zr mod q) zr) by auto using Zmod_mod. destruct (fdiv q _ (nth x (rr d) 0)) as [v|]; cbn [lift bind]; [|now apply NO]. rewrite Nat2N.id.
      destruct (assign s4 x v) as [s5|] eqn:EA; cbn [lift bind]; [|now apply NO]. fold (stail r s5). apply (FIN x v s5); auto.
      * apply (UNB _ _ _ _ _ x E2 X24 Hx). intros y H. destruct (N4 y H) as [H'|H']; auto.
      * cbn. intros y [<-|[]]; auto.
  - destruct ru as [|y ru]; cbn [List.length] in One; try lia. destruct ou as [|y ou]; cbn [List.length] in One; try lia. cbn [map bind]. assert (Hx : In x [x]) by now left.
    rewrite SR, DR. cbn [bind]. destruct (Z.eqb_spec (zr mod q) 0) as [Z0|Z0].
    { destruct (Z.eqb_spec zr 0) as [_|N0]; [now apply NO|]. rewrite SO, SE. cbn [bind]. rewrite (ZERO zr _ Z0 N0). now apply NO. }
    destruct (Z.eqb_spec zr 0) as [C|N0]; [rewrite C, Z.mod_0_l in Z0 by lia; contradiction|].
    rewrite SO, SE, DO, DE. cbn [bind]. rewrite <- GE, (DIV zr Z0). destruct (fdiv q (fsub q zo (gx ze)) zr) as [dd|]; cbn [lift bind]; [|now apply NO].
    rewrite SL, DL. cbn [bind]. destruct (COEF _ _ _ _ _ x (rl r) E1 Hx TL) as [C1 C2]. rewrite C1, C2. cbn [lift bind].
    rewrite (fsub_same dd dd (zl mod q) zl) by auto using Zmod_mod. destruct (fdiv q _ (nth x (rl d) 0)) as [v|]; cbn [lift bind]; [|now apply NO]. rewrite Nat2N.id.
    destruct (assign s4 x v) as [s5|] eqn:EA; cbn [lift bind]; [|now apply NO]. fold (stail r s5). apply (FIN x v s5); auto.
    + apply (UNB _ _ _ _ _ x E1 X14 Hx). intros y H. destruct (N4 y H) as [H'|H']; auto. destruct (N3 y H') as [H2|H2]; auto.
    + cbn. intros y [<-|[]]; auto.
Qed.

(** ** All rows *)
Lemma row_after d s t : solve_row q gx bm d s = Ok t -> ext s t /\ knows_row t d.
Proof using Type.
  unfold solve_row. intros H.
  apply bind_ok in H; destruct H as [[[lk lu] s1] [EL H]]; apply lift_ok in EL.
  apply bind_ok in H; destruct H as [[[rk ru] s2] [ER H]]; apply lift_ok in ER.
  apply bind_ok in H; destruct H as [[[ek eu] s3] [EE H]]; apply lift_ok in EE.
  destruct eu as [|]; [|discriminate].
  apply bind_ok in H; destruct H as [[[ok ou] s4] [EO H]]; apply lift_ok in EO.
  destruct (Nat.ltb_spec 1 (List.length lu + List.length ru + List.length ou)) as [|One]; [discriminate|].
  assert (X1 := proj1 (scan_spec bm _ _ _ _ _ _ EL)). assert (X2 := proj1 (scan_spec bm _ _ _ _ _ _ ER)).
  assert (X3 := proj1 (scan_spec bm _ _ _ _ _ _ EE)). assert (X4 := proj1 (scan_spec bm _ _ _ _ _ _ EO)).
  assert (X24 := ext_trans _ _ _ X3 X4). assert (X14 := ext_trans _ _ _ X2 X24). assert (X04 := ext_trans _ _ _ X1 X14).
  assert (KN : forall s5, ext s4 s5 -> (forall x, In x (lu ++ ru ++ ou) -> B s5 x = true) -> ext s s5 /\ knows_row s5 d).
  { intros s5 X5 A. split; [eapply ext_trans; eauto|]. split; [|split; [|split]].
    - eapply knows_after; [exact EL|eapply ext_trans; eauto|]. intros x Hx. apply A, in_app_iff. auto.
    - eapply knows_after; [exact ER|eapply ext_trans; eauto|]. intros x Hx. apply A. rewrite !in_app_iff. auto.
    - eapply knows_after; [exact EE|eapply ext_trans; eauto|]. intros x [].
    - eapply knows_after; [exact EO|exact X5|]. intros x Hx. apply A. rewrite !in_app_iff. auto. }
  assert (FIN : forall x v s5, B s4 x = false -> (forall y, In y (lu ++ ru ++ ou) -> y = x) -> assign s4 x v = Some s5 -> ext s s5 /\ knows_row s5 d).
  { intros x v s5 Bx A EA. apply (KN s5 (assign_ext _ _ _ _ EA Bx)).
    intros y Hy. rewrite (A y Hy). destruct (assign_spec _ _ _ _ EA) as (_ & _ & _ & _ & _ & HB). now rewrite HB, Nat.eqb_refl. }
  assert (UNB : forall w u k sa sb x, scan bm 0 w sa = Some (k, u, sb) -> In x u -> (forall y, B s4 y = true -> B sb y = true \/ is_bit bm y) -> B s4 x = false).
  { intros w u k sa sb x E Hx HH. destruct (scan_spec bm _ _ _ _ _ _ E) as (_ & _ & _ & U & _). destruct (U x Hx) as (U1 & U2 & _).
    destruct (B s4 x) eqn:Y; auto. destruct (HH x Y); [congruence|contradiction]. }
  assert (N2 := proj1 (proj2 (proj2 (scan_spec bm _ _ _ _ _ _ ER)))). assert (N3 := proj1 (proj2 (proj2 (scan_spec bm _ _ _ _ _ _ EE)))). assert (N4 := proj1 (proj2 (proj2 (scan_spec bm _ _ _ _ _ _ EO)))).
  destruct lu as [|x [|x' lu]]; cbn [List.length] in One; try lia.
  - destruct ru as [|x [|x' ru]]; cbn [List.length] in One; try lia.
    + destruct ou as [|x [|x' ou]]; cbn [List.length] in One; try lia.
      * destruct (KN s4 (ext_refl s4)) as [A1 A2]; [intros x []|]. split.
        -- eapply ext_trans; [exact A1|]. clear -H. repeat (apply bind_ok in H; destruct H as [[[? ?] ?] [? H]]; match goal with E : lift _ = Ok _ |- _ => apply lift_ok in E; apply scan_spec, proj1 in E end).
           repeat match type of H with context [match ?u with [] => _ | _ :: _ => _ end] => destruct u; try discriminate end.
           repeat (apply bind_ok in H; destruct H as [? [_ H]]). destruct (_ =? _); [|discriminate]. injection H as <-. repeat (eapply ext_trans; [eassumption|]). apply ext_refl.
        -- assert (Y : ext s4 t). { clear -H. repeat (apply bind_ok in H; destruct H as [[[? ?] ?] [? H]]; match goal with E : lift _ = Ok _ |- _ => apply lift_ok in E; apply scan_spec, proj1 in E end).
           repeat match type of H with context [match ?u with [] => _ | _ :: _ => _ end] => destruct u; try discriminate end.
           repeat (apply bind_ok in H; destruct H as [? [_ H]]). destruct (_ =? _); [|discriminate]. injection H as <-. repeat (eapply ext_trans; [eassumption|]). apply ext_refl. }
           apply (KN t Y). intros x [].
      * repeat (apply bind_ok in H; destruct H as [? [_ H]]). apply lift_ok in H. apply (FIN x _ _) with (3 := H).
        -- apply (UNB _ _ _ _ _ x EO (or_introl eq_refl)). auto.
        -- cbn. intros y [<-|[]]; auto.
    + destruct ou as [|y ou]; cbn [List.length] in One; try lia. apply bind_ok in H; destruct H as [? [_ H]]. destruct (_ =? 0); [discriminate|].
      repeat (apply bind_ok in H; destruct H as [? [_ H]]). apply lift_ok in H. apply (FIN x _ _) with (3 := H).
      * apply (UNB _ _ _ _ _ x ER (or_introl eq_refl)). intros y Hy. destruct (N4 y Hy) as [H'|H']; auto.
      * cbn. intros y [<-|[]]; auto.
  - destruct ru as [|y ru]; cbn [List.length] in One; try lia. destruct ou as [|y ou]; cbn [List.length] in One; try lia. apply bind_ok in H; destruct H as [? [_ H]]. destruct (_ =? 0); [discriminate|].
    repeat (apply bind_ok in H; destruct H as [? [_ H]]). apply lift_ok in H. apply (FIN x _ _) with (3 := H).
    + apply (UNB _ _ _ _ _ x EL (or_introl eq_refl)). intros y Hy. destruct (N4 y Hy) as [H'|H']; auto. destruct (N3 y H') as [H2|H2]; auto.
    + cbn. intros y [<-|[]]; auto.
Qed.
Lemma rows_after ds : forall s t, solve_rows q gx bm ds s = Ok t -> ext s t.
Proof using Type.
  induction ds as [|d ds IH]; intros s t; cbn [solve_rows]; [intros [= <-]; apply ext_refl|]. intros H. apply bind_ok in H. destruct H as [s1 [E H]].
  eapply ext_trans; [exact (proj1 (row_after d s s1 E))|now apply IH].
Qed.
Lemma dot_same v : forall w w', List.length w = List.length w' -> (forall i, nth i v 0 <> 0 -> nth i w 0 = nth i w' 0) -> dot v w = dot v w' /\ residues q v w = residues q v w'.
Proof using Type.
  unfold residues. induction v as [|x v IH]; intros w w' L H; [auto|]. destruct w as [|y w], w' as [|y' w']; try discriminate L; [auto|].
  cbn [combine map zsum dot fst snd]. destruct (IH w w') as [A1 A2]; [now injection L|intros i; apply (H (S i))|]. rewrite A1, A2.
  destruct (Z.eq_dec x 0) as [->|N]; [auto|]. now rewrite (H O N : y = y').
Qed.
Lemma known_stays s t d : ext s t -> knows_row s d ->
  (row_ok q gx (wit s) d <-> row_ok q gx (wit t) d) /\ (out_fits q (wit s) d <-> out_fits q (wit t) d).
Proof using Type.
  intros (L & _ & X) (KL & KR & KE & KO).
  assert (A : forall v, knows s v -> dot v (wit s) = dot v (wit t) /\ residues q v (wit s) = residues q v (wit t)).
  { intros v K. apply dot_same; auto. intros i Hi. symmetry. exact (proj2 (X i (K i Hi))). }
  unfold row_ok, out_fits. destruct (A _ KL) as [-> _], (A _ KR) as [-> _], (A _ KE) as [-> _], (A _ KO) as [-> ->]. tauto.
Qed.
Lemma rows_twin n ds ss : Forall2 twin_row ds ss -> Forall (row_width n) ds -> forall s t, fit n s ->
  (ssolve_rows q gx bm ss s = Ok t <-> solve_rows q gx bm ds s = Ok t /\ Forall (row_ok q gx (wit t)) ds /\ Forall (out_fits q (wit t)) ds).
Proof using Hq gx_periodic.
  intros F2. induction F2 as [|d r ds ss T F2 IH]; intros Wd s t F; cbn [solve_rows ssolve_rows]; [split; [intros H; auto|intros [H _]; auto]|].
  inversion Wd as [|? ? W1 W2]; subst. assert (R := fun t => row_twin n d r s t T W1 F). rewrite !Forall_cons_iff.
  assert (NXT : forall s1, solve_row q gx bm d s = Ok s1 -> fit n s1). { intros s1 E. destruct (row_after d s s1 E) as [(A1 & A2 & _) _]. destruct F; split; congruence. }
  split.
  - intros H. apply bind_ok in H. destruct H as [s1 [E H]]. apply R in E. destruct E as (E & E1 & E2). apply (IH W2 s1 t (NXT s1 E)) in H. destruct H as (H & H1 & H2).
    rewrite E. cbn [bind]. split; auto. destruct (row_after d s s1 E) as [_ K]. destruct (known_stays s1 t d (rows_after ds s1 t H) K) as [K1 K2]. rewrite <- K1, <- K2. auto.
  - intros (H & (R1 & H1) & O1 & H2). apply bind_ok in H. destruct H as [s1 [E H]]. destruct (row_after d s s1 E) as [_ K].
    destruct (known_stays s1 t d (rows_after ds s1 t H) K) as [K1 K2]. rewrite <- K1 in R1. rewrite <- K2 in O1.
    rewrite (proj2 (R s1)) by auto. cbn [bind]. apply (IH W2 s1 t (NXT s1 E)). auto.
Qed.
End S.

(** ** Congruent coefficients *)
(** Same value modulo [q], and zero at the same places. *)
Definition alike (q a b : Z) : Prop := a ==[q] b /\ (a = 0 <-> b = 0).
Definition alikes (q : Z) (v v' : list Z) : Prop := Forall2 (alike q) v v'.
Definition alike_row (q : Z) (d d' : row (list Z)) : Prop :=
  alikes q (rl d) (rl d') /\ alikes q (rr d) (rr d') /\ alikes q (re d) (re d') /\ alikes q (ro d) (ro d').
(** The tree holds the entries of the vector, up to reduction. *)
Definition same_side (q : Z) (v : list Z) (t : tree) : Prop :=
  wf t /\ forall k, lookup t k ==[q] nth (N.to_nat k) v 0 /\ (lookup t k = 0 <-> nth (N.to_nat k) v 0 = 0).
Definition same_row (q : Z) (d : row (list Z)) (r : row tree) : Prop :=
  same_side q (rl d) (rl r) /\ same_side q (rr d) (rr r) /\ same_side q (re d) (re r) /\ same_side q (ro d) (ro r).

Section C.
Variable q : Z.
Hypothesis Hq : prime q.
Variable bm : bitmap.

Lemma alikes_length v v' : alikes q v v' -> List.length v = List.length v'.
Proof using Type. induction 1; cbn; auto. Qed.
Lemma alikes_dot v v' : alikes q v v' -> forall w, dot v w ==[q] dot v' w.
Proof using Type.
  induction 1 as [|a b v v' [C _] _ IH]; intros w; [reflexivity|]. destruct w as [|y w]; [reflexivity|]. cbn [dot]. now rewrite C, IH.
Qed.
Lemma alikes_nth v v' : alikes q v v' -> forall i, alike q (nth i v 0) (nth i v' 0).
Proof using Type. induction 1; intros [|i]; cbn [nth]; auto; split; reflexivity || tauto. Qed.
Lemma alikes_residues v v' : alikes q v v' -> forall w, residues q v w = residues q v' w.
Proof using Hq.
  unfold residues. induction 1 as [|a b v v' [C _] _ IH]; intros w; [reflexivity|]. destruct w as [|y w]; [reflexivity|]. cbn [combine map zsum fst snd]. rewrite IH. f_equal.
  apply cong_mod_iff; [destruct Hq; lia|]. now rewrite C.
Qed.
Lemma alikes_total k k' s : alikes q k k' -> total q k s = total q k' s.
Proof using Hq.
  intros A. assert (L := alikes_length _ _ A). destruct (Nat.eq_dec (List.length k) (List.length (wit s))) as [E|E].
  - rewrite (SolveProofs2.total_some q Hq k s E), (SolveProofs2.total_some q Hq k' s) by congruence. f_equal.
    apply cong_mod_iff; [destruct Hq; lia|]. now apply alikes_dot.
  - unfold total. assert (Q : 1 < q) by (destruct Hq; lia). rewrite (proj2 (fscalar_product_spec q k (wit s) Q)), (proj2 (fscalar_product_spec q k' (wit s) Q)); congruence.
Qed.
Lemma alikes_scan v v' : alikes q v v' -> forall j s,
  (scan bm j v s = None /\ scan bm j v' s = None) \/
  exists k k' u s', scan bm j v s = Some (k, u, s') /\ scan bm j v' s = Some (k', u, s') /\ alikes q k k'.
Proof using Type.
  induction 1 as [|a b v v' [C Z] _ IH]; intros j s; cbn [scan].
  - right. exists [], [], [], s. repeat split; constructor.
  - assert (STEP : forall c c' s1, alike q c c' -> forall e : nat -> list nat -> list nat,
      (match scan bm (S j) v s1 with Some (k, u, s') => Some (c :: k, e j u, s') | None => None end = None /\
       match scan bm (S j) v' s1 with Some (k, u, s') => Some (c' :: k, e j u, s') | None => None end = None) \/
      exists k k' u s', match scan bm (S j) v s1 with Some (k, u, s') => Some (c :: k, e j u, s') | None => None end = Some (k, u, s') /\
       match scan bm (S j) v' s1 with Some (k, u, s') => Some (c' :: k, e j u, s') | None => None end = Some (k', u, s') /\ alikes q k k').
    { intros c c' s1 A e. destruct (IH (S j) s1) as [[-> ->]|(k & k' & u & s' & -> & -> & K)]; [auto|]. right. do 4 eexists. split; [reflexivity|]. split; [reflexivity|]. now constructor. }
    assert (A0 : alike q 0 0) by (split; reflexivity). assert (Al : forall c, alike q c c) by (intros c; split; reflexivity).
    destruct (Z.eqb_spec a 0) as [->|Na].
    + replace b with 0 by (symmetry; tauto). cbn [Z.eqb]. exact (STEP 0 0 s A0 (fun _ u => u)).
    + rewrite (proj2 (Z.eqb_neq b 0)) by tauto. destruct (nth_error (isset s) j) as [[|]|]; [| |auto].
      * exact (STEP a b s (conj C Z) (fun _ u => u)).
      * destruct (bm_get bm j) as [[pos father]|]; [|exact (STEP 0 0 s A0 (fun j u => j :: u))].
        destruct (nth_error (wit s) father) as [f|]; [|auto]. destruct (assign s j (bit_of f pos)) as [s1|]; [|auto]. exact (STEP _ _ s1 (Al _) (fun _ u => u)).
Qed.
Lemma alike_div v v' x a : alikes q v v' -> 
  (let* c := lift (nth_error v x) in lift (fdiv q a c)) = (let* c := lift (nth_error v' x) in lift (fdiv q a c)).
Proof using Hq.
  intros A. assert (N := alikes_nth _ _ A x). assert (L := alikes_length _ _ A). destruct (Nat.lt_ge_cases x (List.length v)) as [H|H].
  - rewrite (nth_error_nth' v 0 H), (nth_error_nth' v' 0) by lia. cbn [lift bind]. destruct N as [C Z].
    destruct (Z.eq_dec (nth x v 0) 0) as [E|E]; [rewrite E, (proj1 Z E); auto|]. f_equal. apply fdiv_same; [tauto|tauto|]. apply cong_mod_iff in C; auto. destruct Hq; lia.
  - rewrite (proj2 (nth_error_None v x) H), (proj2 (nth_error_None v' x)) by lia. reflexivity.
Qed.
Lemma bind_assoc {A B C} (m : solved A) (f : A -> solved B) (g : B -> solved C) : bind (bind m f) g = bind m (fun x => bind (f x) g).
Proof using Type. destruct m; reflexivity. Qed.
Lemma alike_rest v v' x a (g : Z -> solved state) : alikes q v v' ->
  (let* c := lift (nth_error v x) in let* y := lift (fdiv q a c) in g y) = (let* c := lift (nth_error v' x) in let* y := lift (fdiv q a c) in g y).
Proof using Hq. intros A. rewrite <- !bind_assoc. now rewrite (alike_div v v' x a A). Qed.

Variable gx : Z -> Z.
Ltac scans A s := let k := fresh "k" in let k' := fresh "k" in let u := fresh "u" in let s' := fresh "s" in let E := fresh "E" in let E' := fresh "E" in let K := fresh "K" in
  destruct (alikes_scan _ _ A 0%nat s) as [[E E']|(k & k' & u & s' & E & E' & K)]; rewrite E, E'; [reflexivity|]; cbn [lift bind].
Ltac tots := repeat match goal with |- bind (total ?a ?b ?c) _ = _ => destruct (total a b c); cbn [bind]; [|reflexivity|reflexivity] end.
Ltac divs := match goal with |- bind (lift (fdiv ?a ?b ?c)) _ = _ => destruct (fdiv a b c); cbn [lift bind]; [|reflexivity] end.
(** The dense solver does not tell such systems apart. *)
Lemma alike_solve d d' : alike_row q d d' -> forall s, solve_row q gx bm d s = solve_row q gx bm d' s.
Proof using Hq.
  intros (AL & AR & AE & AO) s. unfold solve_row. scans AL s. scans AR s0. scans AE s1. destruct u1 as [|y u1]; [|reflexivity]. scans AO s2.
  destruct (Nat.ltb 1 _); [reflexivity|].
  assert (CHK : dtail q gx bm d s3 = dtail q gx bm d' s3).
  { unfold dtail. scans AL s3. scans AR s4. scans AE s5. scans AO s6.
    now rewrite (alikes_total _ _ s7 K3), (alikes_total _ _ s7 K4), (alikes_total _ _ s7 K5), (alikes_total _ _ s7 K6). }
  rewrite (alikes_total _ _ s3 K), (alikes_total _ _ s3 K0), (alikes_total _ _ s3 K1), (alikes_total _ _ s3 K2).
  destruct u as [|x [|x' u]].
  - destruct u0 as [|x [|x' u0]].
    + destruct u1 as [|x [|x' u1]]; [exact CHK| |exact CHK]. tots. now apply alike_rest.
    + tots. destruct (_ =? 0); [reflexivity|]. tots. divs. tots. now apply alike_rest.
    + destruct u1 as [|x0 [|x1 u1]]; [exact CHK| |exact CHK]. tots. now apply alike_rest.
  - tots. destruct (_ =? 0); [reflexivity|]. tots. divs. tots. now apply alike_rest.
  - destruct u0 as [|x0 [|x1 u0]].
    + destruct u1 as [|x0 [|x1 u1]]; [exact CHK| |exact CHK]. tots. now apply alike_rest.
    + tots. destruct (_ =? 0); [reflexivity|]. tots. divs. tots. now apply alike_rest.
    + destruct u1 as [|x2 [|x3 u1]]; [exact CHK| |exact CHK]. tots. now apply alike_rest.
Qed.
Lemma alike_solves ds ds' : Forall2 (alike_row q) ds ds' -> forall s, solve_rows q gx bm ds s = solve_rows q gx bm ds' s.
Proof using Hq.
  induction 1 as [|d d' ds ds' A _ IH]; intros s; [reflexivity|]. cbn [solve_rows]. rewrite (alike_solve d d' A s). destruct (solve_row q gx bm d' s); cbn [bind]; auto.
Qed.
Lemma alike_ok d d' w : alike_row q d d' -> (row_ok q gx w d <-> row_ok q gx w d') /\ (out_fits q w d <-> out_fits q w d').
Proof using Hq.
  intros (AL & AR & AE & AO). assert (E := alikes_dot _ _ AE w). apply cong_mod_iff in E; [|destruct Hq; lia].
  split; [|unfold out_fits; now rewrite (alikes_residues _ _ AO)]. unfold row_ok. now rewrite E, (alikes_dot _ _ AL w), (alikes_dot _ _ AR w), (alikes_dot _ _ AO w).
Qed.

(** The vector a tree stands for. *)
Definition vector_of (n : nat) (t : tree) : list Z := map (fun i => lookup t (N.of_nat i)) (seq 0 n).
Definition vectors_of (n : nat) (r : row tree) : row (list Z) := Row (vector_of n (rl r)) (vector_of n (rr r)) (vector_of n (re r)) (vector_of n (ro r)).
Lemma vector_nth n t i : (i < n)%nat -> nth i (vector_of n t) 0 = lookup t (N.of_nat i).
Proof using Type.
  intros H. unfold vector_of. rewrite (nth_indep _ 0 (lookup t (N.of_nat O))) by (rewrite map_length, seq_length; auto).
  change (lookup t (N.of_nat 0)) with ((fun i => lookup t (N.of_nat i)) O). rewrite map_nth, seq_nth by auto. reflexivity.
Qed.
Lemma side_twin n v t : List.length v = n -> same_side q v t -> twin (vector_of n t) t /\ alikes q v (vector_of n t).
Proof using gx.
  intros L [Wt SS]. assert (LV : List.length (vector_of n t) = n) by (unfold vector_of; now rewrite map_length, seq_length). split.
  - split; auto. intros k. destruct (Nat.lt_ge_cases (N.to_nat k) n) as [H|H].
    + rewrite vector_nth, N2Nat.id by auto. reflexivity.
    + rewrite nth_overflow by lia. apply SS. apply nth_overflow. lia.
  - assert (G : forall a b : list Z, List.length a = List.length b -> (forall i, (i < List.length a)%nat -> alike q (nth i a 0) (nth i b 0)) -> alikes q a b).
    { induction a as [|x a IH]; intros [|y b] E H; try discriminate; [constructor|]. constructor; [apply (H O); cbn; lia|].
      apply IH; [now injection E|]. intros i Hi. apply (H (S i)). cbn. lia. }
    apply G; [congruence|]. intros i Hi. rewrite vector_nth by lia. destruct (SS (N.of_nat i)) as [A1 A2]. rewrite Nat2N.id in *. split; [now symmetry|tauto].
Qed.
Hypothesis gx_periodic : forall k, 0 <= k -> gx k = gx (k mod q).
Lemma rows_same n ds ss : Forall2 (same_row q) ds ss -> Forall (row_width n) ds -> forall s t, fit n s ->
  (ssolve_rows q gx bm ss s = Ok t <-> solve_rows q gx bm ds s = Ok t /\ Forall (row_ok q gx (wit t)) ds /\ Forall (out_fits q (wit t)) ds).
Proof using Hq gx_periodic.
  intros F2 Wd s t F.
  assert (D : Forall2 (alike_row q) ds (map (vectors_of n) ss) /\ Forall2 twin_row (map (vectors_of n) ss) ss /\ Forall (row_width n) (map (vectors_of n) ss)).
  { clear F. induction F2 as [|d r ds ss (SL & SR & SE & SO) _ IH]; [repeat split; constructor|]. apply Forall_cons_iff in Wd. destruct Wd as [(L1 & L2 & L3 & L4) W2]. destruct (IH W2) as (I1 & I2 & I3).
    destruct (side_twin _ _ _ L1 SL), (side_twin _ _ _ L2 SR), (side_twin _ _ _ L3 SE), (side_twin _ _ _ L4 SO). cbn [map].
    split; [constructor; auto; repeat split; auto|]. split; [constructor; auto; repeat split; auto; apply H || apply H1 || apply H3 || apply H5|].
    constructor; auto. unfold row_width, vectors_of, vector_of. cbn [rl rr re ro]. now rewrite !map_length, !seq_length. }
  destruct D as (D1 & D2 & D3). rewrite (rows_twin q Hq gx gx_periodic bm n _ _ D2 D3 s t F), (alike_solves _ _ D1 s).
  assert (E : Forall (row_ok q gx (wit t)) ds /\ Forall (out_fits q (wit t)) ds <-> Forall (row_ok q gx (wit t)) (map (vectors_of n) ss) /\ Forall (out_fits q (wit t)) (map (vectors_of n) ss)); [|tauto].
  clear -D1 Hq. induction D1 as [|d d' ds ds' A _ IH]; [split; split; constructor|]. rewrite !Forall_cons_iff. destruct (alike_ok d d' (wit t) A). tauto.
Qed.
End C.

(** ** From the inputs on *)
Lemma witness_same q gx m sp rnd inp ds ss : prime q -> (forall k, 0 <= k -> gx k = gx (k mod q)) ->
  Forall2 (same_row q) ds ss -> Forall (row_width (List.length m)) ds -> forall W,
  calculate_sparse_witness q gx m sp ss rnd inp = Ok W <->
  calculate_witness q gx m sp ds rnd inp = Ok W /\ Forall (row_ok q gx W) ds /\ Forall (out_fits q W) ds.
Proof.
  intros Hq P F2 Wd W. unfold calculate_sparse_witness, calculate_witness. destruct (start m sp rnd inp) as [[s bm]|] eqn:E; cbn [lift bind]; [|split; [discriminate|intros [H _]; discriminate]].
  assert (F : fit (List.length m) s) by exact (start_len _ _ _ _ _ _ E). assert (R := fun t => rows_same q Hq bm gx P _ ds ss F2 Wd s t F). split.
  - intros H. apply bind_ok in H. destruct H as [t [Et H]]. injection H as <-. apply R in Et. destruct Et as (Et & A1 & A2). rewrite Et. auto.
  - intros (H & A1 & A2). apply bind_ok in H. destruct H as [t [Et H]]. injection H as <-. rewrite (proj2 (R t)) by auto. reflexivity.
Qed.

(** A side with one entry fits. *)
Lemma single_fits q v w : 0 < q -> (forall i j, nth i v 0 <> 0 -> nth j v 0 <> 0 -> i = j) -> residues q v w < q.
Proof.
  intros Q. unfold residues. revert w. induction v as [|x v IH]; intros w H; [cbn; lia|]. destruct w as [|y w]; [cbn; lia|]. cbn [combine map zsum fst snd].
  assert (B := Z.mod_pos_bound (x * y) q Q). destruct (Z.eq_dec x 0) as [->|N].
  - rewrite Z.mul_0_l, Z.mod_0_l by lia. rewrite Z.add_0_l. apply IH. intros i j A1 A2. specialize (H (S i) (S j) A1 A2). lia.
  - assert (Z0 : forall v' w', (forall i, nth i v' 0 = 0) -> zsum (map (fun p => (fst p * snd p) mod q) (combine v' w')) = 0).
    { clear -Q. induction v' as [|a v' IH]; intros w' H; [reflexivity|]. destruct w' as [|b w']; [reflexivity|]. cbn [combine map zsum fst snd].
      rewrite IH by (intros i; apply (H (S i))). rewrite (H O : a = 0), Z.mul_0_l, Z.mod_0_l by lia. reflexivity. }
    rewrite Z0; [lia|]. intros i. destruct (Z.eq_dec (nth i v 0) 0); auto. specialize (H O (S i) N n). discriminate.
Qed.

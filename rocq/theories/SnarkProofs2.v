(** Proofs about SnarkModel: the combined polynomial, the keys, and the verification equation. *)
Require Import ZArith Znumtheory NArith Bool Ascii String Lia Setoid Morphisms List.
Require Import Verif.Cong Verif.FqModel Verif.FqSpec Verif.FqProofs Verif.PolyModel Verif.PolyProofs Verif.InterpProofs.
Require Import Verif.AvlModel Verif.SparseModel Verif.FactorModel Verif.R1csModel Verif.R1csSpec Verif.SnarkModel Verif.SnarkSpec Verif.SnarkProofs.
Import ListNotations.
Open Scope Z_scope.

(** ** Division keeps coefficients reduced *)
Lemma reduced_removelast q l : reduced q l -> reduced q (removelast l).
Proof.
  unfold reduced. intros F. apply Forall_forall. intros y Hy. rewrite Forall_forall in F. apply F. clear F.
  induction l as [|a l IH]; [destruct Hy|]. cbn in Hy. destruct l; [destruct Hy|]. destruct Hy as [->|Hy]; [now left|right; auto].
Qed.
Lemma reduced_set_nth q : forall pos l r, 0 <= l < q -> reduced q r -> reduced q (set_nth pos l r).
Proof. induction pos as [|p IH]; intros l [|y r] Hl F; cbn; auto; inversion F; subst; constructor; auto. apply IH; auto. Qed.
Lemma fdiv_range q a b l : 0 < q -> fdiv q a b = Some l -> 0 <= l < q.
Proof. intros Hq. unfold fdiv. destruct (finv q b); [|discriminate]. intros [= <-]. now apply Z.mod_pos_bound. Qed.
Lemma pdiv_loop_reduced q b : 0 < q -> forall fuel r rem r' rem', reduced q r -> reduced q rem ->
  pdiv_loop q fuel b r rem = Some (r', rem') -> reduced q r' /\ reduced q rem'.
Proof.
  intros Hq. induction fuel as [|f IH]; intros r rem r' rem' Hr Hm; cbn [pdiv_loop];
    destruct (Nat.leb (List.length b) (List.length rem)); try discriminate; try (intros [= <- <-]; auto).
  destruct b as [|b0 b']; [discriminate|]. destruct rem as [|m0 rem0]; [discriminate|].
  destruct (fdiv q (top (m0 :: rem0)) (top (b0 :: b'))) as [l|] eqn:E; [|discriminate].
  apply IH; [|apply reduced_removelast; now apply psub_reduced].
  apply reduced_set_nth; auto. eapply fdiv_range; eauto.
Qed.
Lemma pdiv_reduced q a b quo rem : 0 < q -> reduced q a -> pdiv q a b = Some (quo, rem) -> reduced q quo /\ reduced q rem.
Proof.
  intros Hq Ha. unfold pdiv. destruct (Nat.leb _ _); [|discriminate]. apply pdiv_loop_reduced; auto. now apply zeros_reduced.
Qed.
Lemma is_zero_array_iff q r : reduced q r -> (is_zero_array r = true <-> forall k, coef r k ==[q] 0).
Proof.
  intros F. unfold is_zero_array. rewrite forallb_forall. split.
  - intros H k. apply cong_eq. unfold coef. destruct (Nat.lt_ge_cases k (List.length r)) as [L|L].
    + assert (A := H _ (nth_In r 0 L)). now apply Z.eqb_eq in A.
    + now rewrite nth_overflow.
  - intros H y Hy. destruct (In_nth _ _ 0 Hy) as [k [Hk <-]]. apply Z.eqb_eq.
    assert (A := H k). unfold coef in A. unfold reduced in F. rewrite Forall_forall in F. assert (B := F _ Hy).
    destruct A as [z A]. rewrite Z.sub_0_r in A. assert (z = 0) by nia. subst. now rewrite A.
Qed.
Lemma reduced_nonneg q l : reduced q l -> Forall (Z.le 0) l.
Proof. unfold reduced. apply Forall_impl. lia. Qed.

Section Fixed.
Variable q : Z.
Hypothesis Pq : prime q.
Variable G : groups.
Local Notation gx := (gxc G).
Let q1 : 1 < q.
Proof. destruct Pq; lia. Qed.

(** ** Transposed systems *)
Lemma transpose_er1cs_spec s : well_sized s -> (1 <= List.length (rows s))%nat ->
  exists T, transpose_er1cs s = Some T /\ ngates T = List.length (rows s) /\ wlen T = List.length (index_map s) /\
    transposed (map rl (rows s)) = Some (cl T) /\ transposed (map rr (rows s)) = Some (cr T) /\
    transposed (map re (rows s)) = Some (ce T) /\ transposed (map ro (rows s)) = Some (co T).
Proof.
  intros W N. unfold transpose_er1cs.
  assert (R : forall f : row (list Z) -> list Z, (forall r, In r (rows s) -> List.length (f r) = List.length (index_map s)) ->
    exists t, transposed (map f (rows s)) = Some t).
  { intros f H. destruct (transposed_spec (List.length (rows s)) (List.length (index_map s)) (map f (rows s))) as [t [E _]]; eauto.
    split; [now rewrite map_length|]. apply Forall_forall. intros d Hd. apply in_map_iff in Hd. destruct Hd as [r [<- Hr]]. auto. }
  unfold well_sized in W. rewrite Forall_forall in W.
  destruct (R rl) as [t1 E1]; [intros; apply W; auto|]. destruct (R rr) as [t2 E2]; [intros; apply W; auto|].
  destruct (R re) as [t3 E3]; [intros; apply W; auto|]. destruct (R ro) as [t4 E4]; [intros; apply W; auto|].
  rewrite E1, E2, E3, E4. eexists. split; [reflexivity|]. cbn. repeat split; auto.
Qed.
Lemma rows_rectangular s (f : row (list Z) -> list Z) :
  (forall r, In r (rows s) -> List.length (f r) = List.length (index_map s)) ->
  rectangular (List.length (rows s)) (List.length (index_map s)) (map f (rows s)).
Proof.
  intros H. split; [now rewrite map_length|]. apply Forall_forall. intros d Hd. apply in_map_iff in Hd. destruct Hd as [r [<- Hr]]. auto.
Qed.
Lemma transposed_shape n m M t : (0 < n)%nat -> rectangular n m M -> transposed M = Some t -> List.length t = m /\ Forall (fun c => List.length c = n) t.
Proof. intros Hn R E. destruct (transposed_spec n m M Hn R) as [t' [E' [R' _]]]. rewrite E in E'. injection E' as <-. exact R'. Qed.

(** ** The combined polynomial *)
Lemma combine_spec s T c w :
  (1 <= List.length (rows s))%nat -> Z.of_nat (List.length (rows s)) <= q -> well_sized s -> transpose_er1cs s = Some T ->
  cache_ok q c -> List.length w = List.length (index_map s) -> w <> [] ->
  exists Px c', combine_polynomials q G c w T = Some (Px, c') /\ cache_ok q c' /\
    List.length Px = (2 * List.length (rows s) - 1)%nat /\ reduced q Px /\
    (exists dl dr de d_o l r g o,
       weighted q (cl T) w = Some dl /\ weighted q (cr T) w = Some dr /\ weighted q (ce T) w = Some de /\ weighted q (co T) w = Some d_o /\
       interpolates q dl l /\ interpolates q dr r /\ interpolates q (map gx de) g /\ interpolates q d_o o /\
       List.length l = List.length (rows s) /\ List.length r = List.length (rows s) /\ List.length o = List.length (rows s) /\
       List.length de = List.length (rows s) /\
       (forall i, (i < List.length (rows s))%nat -> nth i de 0 = dot (nth i (map re (rows s)) []) w mod q) /\
       forall x, poly_at Px x ==[q] poly_at l x * poly_at r x + poly_at g x - poly_at o x) /\
    (forall i r, nth_error (rows s) i = Some r ->
       poly_at Px (Z.of_nat i) ==[q] dot (rl r) w * dot (rr r) w + gx (dot (re r) w mod q) - dot (ro r) w).
Proof.
  intros N Hn W ET Hc Lw Nw. destruct (transpose_er1cs_spec s W N) as [T' [E' [T1 [T2 [TL [TR [TE TO]]]]]]].
  rewrite ET in E'. injection E' as <-. unfold well_sized in W. rewrite Forall_forall in W.
  set (n := List.length (rows s)) in *. assert (q0 : 0 < q) by lia.
  destruct (weighted_rows q n _ _ _ w q0 N (rows_rectangular s rl ltac:(intros; apply W; auto)) TL Lw Nw) as [dl [El [Ll [_ Vl]]]].
  destruct (weighted_rows q n _ _ _ w q0 N (rows_rectangular s rr ltac:(intros; apply W; auto)) TR Lw Nw) as [dr [Er [Lr [_ Vr]]]].
  destruct (weighted_rows q n _ _ _ w q0 N (rows_rectangular s re ltac:(intros; apply W; auto)) TE Lw Nw) as [de [Ee [Le [Re Ve]]]].
  destruct (weighted_rows q n _ _ _ w q0 N (rows_rectangular s ro ltac:(intros; apply W; auto)) TO Lw Nw) as [d_o [Eo [Lo [_ Vo]]]].
  unfold combine_polynomials. rewrite El, Er, Ee, Eo.
  destruct (lagrange_spec q c dl Pq ltac:(rewrite Ll; lia) Hc) as [l [c1 [E1 [L1 [C1 H1]]]]]. rewrite E1.
  destruct (lagrange_spec q c1 dr Pq ltac:(rewrite Lr; lia) C1) as [r [c2 [E2 [L2 [C2 H2]]]]]. rewrite E2.
  destruct (lagrange_spec q c2 d_o Pq ltac:(rewrite Lo; lia) C2) as [o [c3 [E3 [L3 [C3 H3]]]]]. rewrite E3.
  destruct (lagrange_spec q c3 (map gx de) Pq ltac:(rewrite map_length, Le; lia) C3) as [g [c4 [E4 [L4 [C4 H4]]]]]. rewrite E4.
  rewrite map_length in L4, H4.
  unfold pmul_checked. replace (Nat.eqb (List.length l + List.length r) 0) with false by (symmetry; apply Nat.eqb_neq; lia).
  assert (Ev : forall x, poly_at (psub q (padd q (pmul q l r) g) o) x ==[q] poly_at l x * poly_at r x + poly_at g x - poly_at o x).
  { intros x. rewrite psub_eval, padd_eval, pmul_eval. reflexivity. }
  assert (De : forall i, (i < n)%nat -> nth i de 0 = dot (nth i (map re (rows s)) []) w mod q).
  { intros i Hi. assert (V := Ve i Hi). apply cong_mod_iff in V; [|lia]. rewrite <- V. symmetry. apply Z.mod_small.
    unfold reduced in Re. rewrite Forall_forall in Re. apply Re. apply nth_In. lia. }
  exists (psub q (padd q (pmul q l r) g) o), c4.
  split; [destruct l; [cbn in *; lia|]; destruct r; [cbn in *; lia|]; reflexivity|].
  split; auto. split; [rewrite psub_length, padd_length, pmul_length; lia|]. split; [apply psub_reduced; lia|].
  split.
  - exists dl, dr, de, d_o, l, r, g, o. repeat split; auto; try lia; try (rewrite ?map_length; lia).
    intros i Hi. rewrite map_length in Hi. apply H4. exact Hi.
  - intros i rw Hi. assert (Hl : (i < n)%nat) by (apply nth_error_Some; congruence).
    assert (Nt : forall f : row (list Z) -> list Z, nth i (map f (rows s)) [] = f rw).
    { intros f. apply nth_error_nth. now apply map_nth_error. }
    rewrite Ev, H1, H2, H3, H4, Vl, Vr, Vo by lia. rewrite !Nt.
    rewrite (nth_indep _ 0 (gx 0)) by (rewrite map_length; lia). rewrite map_nth, De, Nt by auto. reflexivity.
Qed.

(** Vanishing at all gates and the remainder. *)
Lemma divisible_iff s Px w :
  (1 <= List.length (rows s))%nat -> Z.of_nat (List.length (rows s)) <= q -> reduced q Px -> (List.length (rows s) <= List.length Px)%nat ->
  (forall i r, nth_error (rows s) i = Some r ->
     poly_at Px (Z.of_nat i) ==[q] dot (rl r) w * dot (rr r) w + gx (dot (re r) w mod q) - dot (ro r) w) ->
  exists Qx rem, pdiv q Px (domain_poly q (List.length (rows s))) = Some (Qx, rem) /\ reduced q Qx /\
    List.length Qx = (List.length Px - List.length (rows s))%nat /\
    (forall x, poly_at Px x ==[q] poly_at (domain_poly q (List.length (rows s))) x * poly_at Qx x + poly_at rem x) /\
    (is_zero_array rem = true <-> Forall (row_ok q gx w) (rows s)).
Proof.
  intros N Hn R L H. set (n := List.length (rows s)) in *.
  destruct (div_domain_zero_iff q n Px Pq Hn N L) as [Qx [rem [E [LQ [LR [Ev Iff]]]]]].
  destruct (pdiv_reduced q Px _ Qx rem ltac:(lia) R E) as [RQ RR].
  exists Qx, rem. split; auto. split; auto. split; auto. split; auto.
  rewrite is_zero_array_iff by eauto. rewrite Iff. split.
  - intros A. apply Forall_forall. intros r Hr. destruct (In_nth_error _ _ Hr) as [i Hi].
    assert (Hl : (i < n)%nat) by (apply nth_error_Some; congruence). assert (B := A i Hl). rewrite (H i r Hi) in B.
    unfold row_ok. now apply cong_sub_0.
  - intros F i Hi. destruct (nth_error (rows s) i) as [r|] eqn:Er; [|apply nth_error_None in Er; fold n in Er; lia].
    rewrite (H i r Er). apply -> cong_sub_0. rewrite Forall_forall in F. apply F. eapply nth_error_In; eauto.
Qed.

(** ** Keys *)
Lemma wire_keys_spec x al be ls rs es os n : forall i,
  (i + n <= List.length ls)%nat -> (i + n <= List.length rs)%nat -> (i + n <= List.length es)%nat -> (i + n <= List.length os)%nat ->
  Forall (fun p => (2 <= List.length p)%nat) ls -> Forall (fun p => (2 <= List.length p)%nat) rs ->
  Forall (fun p => (2 <= List.length p)%nat) es -> Forall (fun p => (2 <= List.length p)%nat) os ->
  exists ks, wire_keys q (feval_poly q) n i x al be ls rs es os = Some ks /\ List.length ks = n /\
    Forall (fun k => 0 <= fst (fst (fst k)) /\ 0 <= snd (fst (fst k)) /\ 0 <= snd (fst k) /\ 0 <= snd k) ks /\
    forall t, (t < n)%nat ->
      let k := nth t ks (0, 0, 0, 0) in
      fst (fst (fst k)) ==[q] poly_at (nth (i + t) es []) x /\
      snd (fst (fst k)) ==[q] poly_at (nth (i + t) es []) x + poly_at (nth (i + t) ls []) x /\
      snd (fst k) ==[q] poly_at (nth (i + t) rs []) x /\
      snd k ==[q] al * poly_at (nth (i + t) rs []) x + be * poly_at (nth (i + t) ls []) x + be * poly_at (nth (i + t) es []) x
                  + poly_at (nth (i + t) os []) x.
Proof.
  induction n as [|n IH]; intros i A1 A2 A3 A4 F1 F2 F3 F4; cbn [wire_keys].
  - exists []. split; auto. split; auto. split; auto. intros; lia.
  - assert (Ev : forall ps, (i + S n <= List.length ps)%nat -> Forall (fun p => (2 <= List.length p)%nat) ps ->
      exists v, match nth_error ps i with Some p => feval_poly q p x | None => None end = Some v /\ 0 <= v /\ v ==[q] poly_at (nth i ps []) x).
    { intros ps L F. assert (Hi : (i < List.length ps)%nat) by lia. rewrite (nth_error_nth' ps [] Hi).
      assert (L2 : (2 <= List.length (nth i ps []))%nat).
      { rewrite Forall_forall in F. apply F. now apply nth_In. }
      destruct (nth i ps []) as [|c0 [|c1 v]] eqn:E; cbn in L2; try lia.
      destruct (feval_poly_Some q c0 (c1 :: v) x) as [r Er]. exists r. split; auto. split.
      - apply feval_poly_range in Er; lia.
      - now apply feval_poly_cong. }
    destruct (Ev ls) as [l [-> [l1 l2]]]; auto. destruct (Ev rs) as [r [-> [r1 r2]]]; auto.
    destruct (Ev es) as [e [-> [e1 e2]]]; auto. destruct (Ev os) as [o [-> [o1 o2]]]; auto.
    cbn [wire_key]. destruct (IH (S i)) as [ks [E [L [F H]]]]; auto; try lia. rewrite E.
    assert (Hmod : forall a, 0 <= a mod q) by (intros; apply Z.mod_pos_bound; lia).
    eexists. split; [reflexivity|]. split; [cbn; lia|]. split.
    + constructor; auto. cbn [fst snd]. repeat split; auto; apply Hmod.
    + intros [|t] Ht; cbn [nth].
      * cbn [fst snd]. rewrite Nat.add_0_r. unfold fcopy. rewrite !fadd_cong, !fmul_cong, cong_mod, l2, r2, e2, o2.
        repeat split; apply cong_eq; ring.
      * replace (i + S t)%nat with (S i + t)%nat by lia. apply H. lia.
Qed.

Lemma powers_spec x : forall n t k, (k < n)%nat -> nth k (powers q n t x) 0 ==[q] t * x ^ Z.of_nat k.
Proof.
  induction n as [|n IH]; intros t [|k] H; try lia; cbn [powers nth].
  - apply cong_eq. change (Z.of_nat 0) with 0. rewrite Z.pow_0_r. ring.
  - rewrite IH by lia. rewrite fmul_cong. apply cong_eq. rewrite Nat2Z.inj_succ, Z.pow_succ_r by lia. ring.
Qed.
Lemma powers_length x : forall n t, List.length (powers q n t x) = n.
Proof. induction n; intros; cbn; auto. Qed.
Lemma powers_nonneg x : 0 <= x -> forall n t, 0 <= t -> Forall (Z.le 0) (powers q n t x).
Proof. intros Hx. induction n as [|n IH]; intros t Ht; cbn; constructor; auto. apply IH. apply Z.mod_pos_bound. lia. Qed.

Lemma dot_cong_nth (a b : list Z) w : List.length a = List.length b -> (forall i, (i < List.length a)%nat -> nth i a 0 ==[q] nth i b 0) ->
  dot a w ==[q] dot b w.
Proof.
  revert b w. induction a as [|x a IH]; intros [|y b] w L H; cbn in L; try lia; [reflexivity|].
  destruct w as [|z w]; cbn; [reflexivity|]. rewrite (H 0%nat) by (cbn; lia). cbn. rewrite (IH b w); [reflexivity|lia|].
  intros i Hi. apply (H (S i)). cbn; lia.
Qed.
Lemma dot_scale z a : forall w, dot (map (fun t => fmul q z t) a) w ==[q] z * dot a w.
Proof.
  induction a as [|x a IH]; intros [|y w]; cbn [map dot]; try (apply cong_eq; ring).
  rewrite IH, fmul_cong. apply cong_eq; ring.
Qed.
Lemma dot_scale_r z a : forall w, dot (map (fun t => fmul q t z) a) w ==[q] z * dot a w.
Proof.
  induction a as [|x a IH]; intros [|y w]; cbn [map dot]; try (apply cong_eq; ring).
  rewrite IH, fmul_cong. apply cong_eq; ring.
Qed.
Lemma dot_split a : forall k w, dot a w = dot (firstn k a) (firstn k w) + dot (skipn k a) (skipn k w).
Proof.
  induction a as [|x a IH]; intros [|k] [|y w]; cbn [firstn skipn dot]; try reflexivity; try lia.
  - destruct (skipn k a); cbn; lia.
  - rewrite (IH k w). lia.
Qed.
Lemma dot_powers v x : forall t n, (List.length v <= n)%nat -> dot (powers q n t x) v ==[q] t * poly_at v x.
Proof.
  induction v as [|c v IH]; intros t [|n] L; cbn in L; try lia; cbn [powers dot].
  - apply cong_eq. rewrite poly_at_nil. ring.
  - apply cong_eq. rewrite poly_at_nil. ring.
  - rewrite IH by lia. rewrite fmul_cong, poly_at_cons. apply cong_eq; ring.
Qed.

(** Values of combined columns at the secret point. *)
Definition column_values (cols : list (list Z)) (x : Z) (vs : list Z) : Prop :=
  List.length vs = List.length cols /\
  forall w d p, List.length w = List.length cols -> w <> [] -> weighted q cols w = Some d -> interpolates q d p -> dot vs w ==[q] poly_at p x.

Definition good_columns (n m : nat) (T : columns (list Z)) : Prop :=
  ngates T = n /\ wlen T = m /\
  (List.length (cl T) = m /\ Forall (fun c => List.length c = n) (cl T)) /\
  (List.length (cr T) = m /\ Forall (fun c => List.length c = n) (cr T)) /\
  (List.length (ce T) = m /\ Forall (fun c => List.length c = n) (ce T)) /\
  (List.length (co T) = m /\ Forall (fun c => List.length c = n) (co T)).

Lemma good_columns_of s T : well_sized s -> (1 <= List.length (rows s))%nat -> transpose_er1cs s = Some T ->
  good_columns (List.length (rows s)) (List.length (index_map s)) T.
Proof.
  intros W N E. destruct (transpose_er1cs_spec s W N) as [T' [E' [T1 [T2 [TL [TR [TE TO]]]]]]].
  rewrite E in E'. injection E' as <-. unfold well_sized in W. rewrite Forall_forall in W.
  split; auto. split; auto.
  split; [eapply transposed_shape; eauto; apply rows_rectangular; intros; apply W; auto|].
  split; [eapply transposed_shape; eauto; apply rows_rectangular; intros; apply W; auto|].
  split; eapply transposed_shape; eauto; apply rows_rectangular; intros; apply W; auto.
Qed.

Definition lag_ok n (d p : list Z) : Prop := List.length p = n /\ forall j, (j < n)%nat -> poly_at p (Z.of_nat j) ==[q] nth j d 0.

Lemma values_of n cols ps x vs : Z.of_nat n <= q -> Forall (fun c => List.length c = n) cols ->
  Forall2 (lag_ok n) cols ps -> List.length vs = List.length cols ->
  (forall j, (j < List.length cols)%nat -> nth j vs 0 ==[q] poly_at (nth j ps []) x) -> column_values cols x vs.
Proof.
  intros Hn F F2 L H. split; auto. intros w d p Lw Nw Ew I.
  rewrite (interp_linear q n cols ps w d p Pq Hn Lw F2 Ew Nw F I). apply value_sum; [lia|]. intros; apply H; lia.
Qed.

Lemma setup_spec n m T c pub x al be ga de :
  (2 <= n)%nat -> Z.of_nat n <= q -> good_columns n m T -> cache_ok q c -> (pub < m)%nat ->
  0 <= x -> ~ ga ==[q] 0 -> ~ de ==[q] 0 ->
  exists k c', generate_setup q G c pub T x al be ga de = Some (k, c') /\ cache_ok q c' /\
  exists vl vr ve vo vle vk pd id ig dx,
    column_values (cl T) x vl /\ column_values (cr T) x vr /\ column_values (ce T) x ve /\ column_values (co T) x vo /\
    Forall (Z.le 0) vr /\ Forall (Z.le 0) ve /\ Forall (Z.le 0) vle /\ Forall (Z.le 0) vk /\ Forall (Z.le 0) pd /\
    0 <= id /\ 0 <= ig /\ de * id ==[q] 1 /\ ga * ig ==[q] 1 /\ dx ==[q] poly_at (domain_poly q n) x /\
    List.length vle = m /\ List.length vk = m /\ List.length pd = n /\
    (forall w, dot vle w ==[q] dot vl w + dot ve w) /\
    (forall w, dot vk w ==[q] al * dot vr w + be * dot vl w + be * dot ve w + dot vo w) /\
    (forall v, (List.length v <= n)%nat -> dot pd v ==[q] dx * id * poly_at v x) /\
    k = {| domain := domain_poly q n; eGH := pair G (base1 G 1) (base2 G 1); eGHab := pair G (base1 G al) (base2 G be);
           rleo_delta := map (base1 G) (map (fun t => fmul q id t) (skipn pub vk));
           alpha1 := base1 G al; beta1 := base1 G be; delta1 := base1 G de;
           rleo_gamma := map (base1 G) (map (fun t => fmul q ig t) (firstn pub vk));
           powers1 := base1 G 1 :: map (base1 G) (powers q (n - 1) x x);
           powers_domain_delta := map (base1 G) pd; lx_ex := map (base1 G) vle; ex := map (base1 G) ve;
           beta2 := base2 G be; gamma2 := base2 G ga; delta2 := base2 G de;
           powers2 := base2 G 1 :: map (base2 G) (powers q (n - 1) x x); rx := map (base2 G) vr |}.
Proof.
  intros Hn2 Hn [T1 [T2 [[L1 F1] [[L2 F2] [[L3 F3] [L4 F4]]]]]] Hc Hp Hx Nga Nde.
  unfold generate_setup, er1cs_to_eap. rewrite L1, L2, L3, L4, Nat.leb_refl. cbn [andb].
  rewrite !firstn_all2 by lia.
  destruct (lagranges_spec q n Pq Hn (cl T) c Hc F1) as [pl [c1 [-> [C1 A1]]]].
  destruct (lagranges_spec q n Pq Hn (cr T) c1 C1 F2) as [pr [c2 [-> [C2 A2]]]].
  destruct (lagranges_spec q n Pq Hn (ce T) c2 C2 F3) as [pe [c3 [-> [C3 A3]]]].
  destruct (lagranges_spec q n Pq Hn (co T) c3 C3 F4) as [po [c4 [-> [C4 A4]]]].
  fold (lag_ok n) in A1, A2, A3, A4.
  assert (M1 := Forall2_len _ _ _ A1). assert (M2 := Forall2_len _ _ _ A2).
  assert (M3 := Forall2_len _ _ _ A3). assert (M4 := Forall2_len _ _ _ A4).
  assert (Two : forall cols ps, Forall2 (lag_ok n) cols ps -> Forall (fun p => (2 <= List.length p)%nat) ps).
  { intros cols ps A. induction A as [|d p cols ps [B _] A IH]; constructor; auto. lia. }
  unfold setup_keys. rewrite T1, T2. rewrite <- M1, <- M2, <- M3, <- M4, L1, L2, L3, L4, Nat.eqb_refl. cbn [andb].
  destruct (Nat.leb_spec m pub) as [?|_]; [lia|].
  assert (Ld := domain_length q n ltac:(lia)).
  destruct (feval_poly q (domain_poly q n) x) as [dx|] eqn:Ed.
  2:{ apply feval_poly_None in Ed. rewrite Ed in Ld. cbn in Ld. lia. }
  destruct (finv_prime q de Pq Nde) as [id [-> [Ri Hi]]]. destruct (finv_prime q ga Pq Nga) as [ig [-> [Rg Hg]]].
  destruct (wire_keys_spec x al be pl pr pe po m 0) as [ks [-> [Lk [Fk Hk]]]]; try lia; eauto.
  eexists _, c4. split; [reflexivity|]. split; auto.
  set (ve := map (fun k : Z * Z * Z * Z => fst (fst (fst k))) ks).
  set (vle := map (fun k : Z * Z * Z * Z => snd (fst (fst k))) ks).
  set (vr := map (fun k : Z * Z * Z * Z => snd (fst k)) ks).
  set (vk := map (fun k : Z * Z * Z * Z => snd k) ks).
  set (vl := map (fun p => poly_at p x) pl). set (vo := map (fun p => poly_at p x) po).
  set (dxd := fmul q id dx).
  set (pd := dxd :: map (fun t => fmul q t dxd) (powers q (n - 1) x x)).
  assert (Np : forall (f : Z * Z * Z * Z -> Z) t, (t < m)%nat -> nth t (map f ks) 0 = f (nth t ks (0, 0, 0, 0))).
  { intros f t Ht. rewrite (nth_indep _ 0 (f (0, 0, 0, 0))) by (rewrite map_length; lia). apply map_nth. }
  assert (Nv : forall ps t, nth t (map (fun p => poly_at p x) ps) 0 = poly_at (nth t ps []) x).
  { intros ps t. change 0 with ((fun p => poly_at p x) []) at 1. rewrite map_nth. reflexivity. }
  exists vl, vr, ve, vo, vle, vk, pd, id, ig, dx.
  assert (Cl : column_values (cl T) x vl).
  { apply (values_of n (cl T) pl); auto; [unfold vl; rewrite map_length; lia|]. intros j Hj. unfold vl. rewrite Nv. reflexivity. }
  assert (Co : column_values (co T) x vo).
  { apply (values_of n (co T) po); auto; [unfold vo; rewrite map_length; lia|]. intros j Hj. unfold vo. rewrite Nv. reflexivity. }
  assert (Cr : column_values (cr T) x vr).
  { apply (values_of n (cr T) pr); auto; [unfold vr; rewrite map_length; lia|]. intros j Hj. unfold vr. rewrite Np by lia.
    destruct (Hk j) as [_ [_ [B _]]]; [lia|]. exact B. }
  assert (Ce : column_values (ce T) x ve).
  { apply (values_of n (ce T) pe); auto; [unfold ve; rewrite map_length; lia|]. intros j Hj. unfold ve. rewrite Np by lia.
    destruct (Hk j) as [B _]; [lia|]. exact B. }
  assert (Fm : forall f : Z * Z * Z * Z -> Z, (forall k, In k ks -> 0 <= f k) -> Forall (Z.le 0) (map f ks)).
  { intros f H. apply Forall_forall. intros v Hv. apply in_map_iff in Hv. destruct Hv as [k [<- Hkk]]. auto. }
  rewrite Forall_forall in Fk.
  assert (Hdxd : 0 <= dxd) by (apply Z.mod_pos_bound; lia).
  split; auto. split; auto. split; auto. split; auto.
  split; [apply Fm; intros; apply Fk; auto|]. split; [apply Fm; intros; apply Fk; auto|].
  split; [apply Fm; intros; apply Fk; auto|]. split; [apply Fm; intros; apply Fk; auto|].
  split.
  { constructor; auto. apply Forall_forall. intros v Hv. apply in_map_iff in Hv. destruct Hv as [t [<- _]]. apply Z.mod_pos_bound; lia. }
  split; [lia|]. split; [lia|]. split; auto. split; auto. split; [now apply feval_poly_cong|].
  split; [unfold vle; rewrite map_length; lia|]. split; [unfold vk; rewrite map_length; lia|].
  split; [unfold pd; cbn; rewrite map_length, powers_length; lia|].
  assert (Lvl : List.length vl = m) by (unfold vl; rewrite map_length; lia).
  assert (Lvo : List.length vo = m) by (unfold vo; rewrite map_length; lia).
  assert (Lvr : List.length vr = m) by (unfold vr; rewrite map_length; lia).
  assert (Lve : List.length ve = m) by (unfold ve; rewrite map_length; lia).
  assert (Lvle : List.length vle = m) by (unfold vle; rewrite map_length; lia).
  assert (Lvk : List.length vk = m) by (unfold vk; rewrite map_length; lia).
  split; [|split; [|split]].
  - intros w. assert (D : forall a b c : list Z, List.length a = m -> List.length b = m -> List.length c = m ->
      (forall j, (j < m)%nat -> nth j a 0 ==[q] nth j b 0 + nth j c 0) -> dot a w ==[q] dot b w + dot c w).
    { clear. revert w. induction m as [|m' IH]; intros w [|a0 a] [|b0 b] [|c0 c] A B C H; cbn in A, B, C; try lia; [reflexivity|].
      destruct w as [|z w]; cbn; [reflexivity|]. rewrite (IH w a b c), (H 0%nat); try lia.
      - cbn. apply cong_eq; ring.
      - intros j Hj. apply (H (S j)). lia. }
    apply D; auto. intros j Hj. unfold vle, vl, ve. rewrite !Np, Nv by lia. destruct (Hk j) as [B1 [B2 _]]; [lia|].
    cbn [Nat.add] in B1, B2. rewrite B1, B2. apply cong_eq; ring.
  - intros w. assert (D : forall a b c d e : list Z, List.length a = m -> List.length b = m -> List.length c = m -> List.length d = m -> List.length e = m ->
      (forall j, (j < m)%nat -> nth j a 0 ==[q] al * nth j b 0 + be * nth j c 0 + be * nth j d 0 + nth j e 0) ->
      dot a w ==[q] al * dot b w + be * dot c w + be * dot d w + dot e w).
    { clear. revert w. induction m as [|m' IH]; intros w [|a0 a] [|b0 b] [|c0 c] [|d0 d] [|e0 e] A B C D E H; cbn in A, B, C, D, E; try lia;
        [apply cong_eq; cbn; ring|].
      destruct w as [|z w]; cbn; [apply cong_eq; ring|]. rewrite (IH w a b c d e), (H 0%nat); try lia.
      - cbn. apply cong_eq; ring.
      - intros j Hj. apply (H (S j)). lia. }
    apply D; auto. intros j Hj. unfold vk, vl, ve, vr, vo. rewrite !Np, !Nv by lia. destruct (Hk j) as [B1 [_ [B3 B4]]]; [lia|].
    cbn [Nat.add] in B1, B3, B4. rewrite B1, B3, B4. reflexivity.
  - intros v Lv. unfold pd. destruct v as [|c0 v]; cbn [dot]; [apply cong_eq; rewrite poly_at_nil; ring|].
    cbn in Lv. rewrite dot_scale_r, dot_powers by lia. rewrite poly_at_cons. unfold dxd. rewrite fmul_cong. apply cong_eq; ring.
  - unfold ve, vr, vle, vk, pd, dxd. cbn [map]. rewrite !map_map. rewrite skipn_map, firstn_map, !map_map. reflexivity.
Qed.

(** ** The verification equation *)
Hypothesis Laws : lawful q G.

Lemma verify_exp k sig A B C F IC al be ga de : 0 <= A -> 0 <= B -> 0 <= C -> 0 <= F -> 0 <= IC -> 0 <= al -> 0 <= be -> 0 <= ga -> 0 <= de ->
  List.length sig = List.length (rleo_gamma G k) -> msm (smul1 G) (acc1 G) (rleo_gamma G k) sig = Some (base1 G IC) ->
  beta2 G k = base2 G be -> gamma2 G k = base2 G ga -> delta2 G k = base2 G de ->
  eGH G k = pair G (base1 G 1) (base2 G 1) -> eGHab G k = pair G (base1 G al) (base2 G be) ->
  exists b, verify_proof G k (Proof G (base1 G A) (base2 G B) (base1 G C) (base1 G F)) sig = Some b /\
    (b = true <-> A * (B + be) + gx F ==[q] al * be + IC * ga + C * de + F * B).
Proof.
  intros HA HB HC HF HI Hal Hbe Hga Hde L M E1 E2 E3 E4 E5. unfold verify_proof. rewrite L, Nat.eqb_refl, M. cbn [negb piA piB piC piF].
  rewrite E1, E2, E3, E4, E5. eexists. split; [reflexivity|].
  assert (Hx := law_x q G Laws F HF).
  rewrite (law_add2 q G Laws), !(law_pair q G Laws) by lia. change (pair G (base1 G 1) (base2 G 1)) with (gT G 1).
  rewrite (law_smulT q G Laws) by lia. rewrite !(law_addT q G Laws) by nia. unfold bytes_equal, gxc.
  destruct (list_eq_dec Z.eq_dec _ _) as [E|E].
  - split; auto. intros _. apply (law_marshal q G Laws) in E; [|nia|nia]. rewrite Z.mul_1_l in E. rewrite E. apply cong_eq; ring.
  - split; [discriminate|]. intros H. exfalso. apply E. f_equal. apply (gT_cong q); auto; [nia|nia|]. rewrite Z.mul_1_l, H. apply cong_eq; ring.
Qed.

Lemma dot_nonneg ks ws : Forall (Z.le 0) ks -> Forall (Z.le 0) ws -> 0 <= dot ks ws.
Proof. intros A B. rewrite <- terms_dot. apply zsum_nonneg. now apply terms_nonneg. Qed.
Lemma Forall_firstn {A} (P : A -> Prop) k l : Forall P l -> Forall P (firstn k l).
Proof. intros F. apply Forall_forall. intros x Hx. rewrite Forall_forall in F. apply F. rewrite <- (firstn_skipn k l). apply in_or_app; auto. Qed.
Lemma Forall_skipn {A} (P : A -> Prop) k l : Forall P l -> Forall P (skipn k l).
Proof. intros F. apply Forall_forall. intros x Hx. rewrite Forall_forall in F. apply F. rewrite <- (firstn_skipn k l). apply in_or_app; auto. Qed.
Lemma Forall_fmul z l : Forall (Z.le 0) (map (fun t => fmul q z t) l).
Proof. apply Forall_forall. intros v Hv. apply in_map_iff in Hv. destruct Hv as [t [<- _]]. apply Z.mod_pos_bound. lia. Qed.

End Fixed.

(** Proofs about PolyModel: ring operations and division. *)
Require Import ZArith Znumtheory Lia Setoid Morphisms Bool List.
Require Import Verif.Cong Verif.FqModel Verif.FqSpec Verif.FqProofs Verif.PolyModel.
Import ListNotations.
Open Scope Z_scope.

(** ** Evaluation and coefficients *)
Lemma coef_cons c v k : coef (c :: v) k = match k with O => c | S k' => coef v k' end.
Proof. destruct k; reflexivity. Qed.

Lemma coef_nil k : coef [] k = 0.
Proof. destruct k; reflexivity. Qed.

Lemma coef_over v k : (length v <= k)%nat -> coef v k = 0.
Proof. apply nth_overflow. Qed.

Lemma coef_app v1 v2 k : coef (v1 ++ v2) k =
  if Nat.ltb k (length v1) then coef v1 k else coef v2 (k - length v1).
Proof.
  unfold coef. destruct (Nat.ltb_spec k (length v1)).
  - now rewrite app_nth1.
  - now rewrite app_nth2.
Qed.

Lemma coef_zeros n k : coef (zeros n) k = 0.
Proof. revert k; induction n; destruct k; cbn; auto. apply IHn. Qed.

Lemma zeros_length n : length (zeros n) = n.
Proof. apply repeat_length. Qed.

Lemma poly_at_bound v x n : (length v <= n)%nat ->
  poly_at v x = zsum (map (fun i => coef v i * x ^ Z.of_nat i) (seq 0 n)).
Proof.
  intros H. unfold poly_at. replace n with (length v + (n - length v))%nat by lia.
  rewrite seq_app, map_app, zsum_app. rewrite (zsum_map_0 _ (seq (0 + _) _)).
  - unfold coef. lia.
  - intros i Hi. apply in_seq in Hi. rewrite coef_over by lia. ring.
Qed.

Lemma poly_at_peq q a b x : peq q a b -> poly_at a x ==[q] poly_at b x.
Proof.
  intros H. rewrite (poly_at_bound a x (Nat.max (length a) (length b))) by lia.
  rewrite (poly_at_bound b x (Nat.max (length a) (length b))) by lia.
  apply zsum_map_cong. intros i _. rewrite (H i). reflexivity.
Qed.

Lemma poly_at_cong_x q v x y : x ==[q] y -> poly_at v x ==[q] poly_at v y.
Proof.
  intros H. induction v; [reflexivity|]. rewrite !poly_at_cons, IHv, H. reflexivity.
Qed.

Lemma poly_at_add q a b c x : (forall k, coef c k ==[q] coef a k + coef b k) ->
  poly_at c x ==[q] poly_at a x + poly_at b x.
Proof.
  intros H. set (n := Nat.max (length c) (Nat.max (length a) (length b))).
  rewrite (poly_at_bound a x n), (poly_at_bound b x n), (poly_at_bound c x n) by lia.
  rewrite <- zsum_map_add. apply zsum_map_cong. intros i _. rewrite (H i). apply cong_eq; ring.
Qed.

Lemma poly_at_scale q a w c x : (forall k, coef c k ==[q] w * coef a k) ->
  poly_at c x ==[q] w * poly_at a x.
Proof.
  intros H. set (n := Nat.max (length c) (length a)).
  rewrite (poly_at_bound a x n), (poly_at_bound c x n) by lia.
  rewrite <- zsum_map_scale. apply zsum_map_cong. intros i _. rewrite (H i). apply cong_eq; ring.
Qed.

Lemma poly_at_zeros n x : poly_at (zeros n) x = 0.
Proof. apply zsum_map_0. intros i _. fold (coef (zeros n) i). rewrite coef_zeros. ring. Qed.

Lemma poly_at_app v1 v2 x :
  poly_at (v1 ++ v2) x = poly_at v1 x + x ^ Z.of_nat (length v1) * poly_at v2 x.
Proof.
  induction v1 as [|c v1 IH].
  - cbn [app length]. rewrite poly_at_nil. change (x ^ Z.of_nat 0) with 1. ring.
  - cbn [app length]. rewrite !poly_at_cons, IH, Nat2Z.inj_succ, Z.pow_succ_r by lia. ring.
Qed.

(** ** Add, Sub, MulSimple *)
Lemma ploop_length op r b : (length b <= length r)%nat -> length (ploop op r b) = length r.
Proof. revert r; induction b; destruct r; cbn; intros; auto; try lia. rewrite IHb; lia. Qed.

Lemma ploop_coef op r b k : (length b <= length r)%nat ->
  coef (ploop op r b) k =
  if Nat.ltb k (length b) then op (coef r k) (coef b k) else coef r k.
Proof.
  revert r k; induction b as [|y b IH]; destruct r as [|x r]; cbn [length]; intros k H;
    try lia; try reflexivity.
  cbn [ploop]. rewrite !coef_cons. destruct k; [reflexivity|].
  rewrite IH by lia. reflexivity.
Qed.

Lemma ploop_reduced q op r b : (forall x y, 0 <= op x y < q) -> reduced q r ->
  reduced q (ploop op r b).
Proof.
  intros Hop. revert r; induction b as [|y b IH]; destruct r as [|x r]; intros HR;
    try assumption; try constructor; auto.
  apply IH. now inversion HR.
Qed.

Lemma zeros_reduced q n : 0 < q -> reduced q (zeros n).
Proof. intros; unfold zeros; induction n; constructor; auto. lia. Qed.

Lemma padd_length q a b : length (padd q a b) = Nat.max (length a) (length b).
Proof. unfold padd. rewrite !ploop_length; rewrite ?ploop_length; rewrite ?zeros_length; lia. Qed.
Lemma psub_length q a b : length (psub q a b) = Nat.max (length a) (length b).
Proof. unfold psub. rewrite !ploop_length; rewrite ?ploop_length; rewrite ?zeros_length; lia. Qed.

Lemma padd_coef q a b k : coef (padd q a b) k ==[q] coef a k + coef b k.
Proof.
  unfold padd. rewrite !ploop_coef; rewrite ?ploop_length; rewrite ?zeros_length; try lia.
  rewrite coef_zeros.
  destruct (Nat.ltb_spec k (length b)), (Nat.ltb_spec k (length a)); rewrite ?fadd_cong;
    rewrite ?(coef_over a k), ?(coef_over b k) by lia; apply cong_eq; ring.
Qed.

Lemma psub_coef q a b k : coef (psub q a b) k ==[q] coef a k - coef b k.
Proof.
  unfold psub. rewrite !ploop_coef; rewrite ?ploop_length; rewrite ?zeros_length; try lia.
  rewrite coef_zeros.
  destruct (Nat.ltb_spec k (length b)), (Nat.ltb_spec k (length a)); rewrite ?fsub_cong, ?fadd_cong;
    rewrite ?(coef_over a k), ?(coef_over b k) by lia; apply cong_eq; ring.
Qed.

Lemma pmul_simple_coef q a b k : coef (pmul_simple q a b) k ==[q]
  if Nat.ltb k (length b) then coef a k * coef b k else coef a k.
Proof.
  unfold pmul_simple. rewrite !ploop_coef; rewrite ?ploop_length; rewrite ?zeros_length; try lia.
  rewrite coef_zeros.
  destruct (Nat.ltb_spec k (length b)), (Nat.ltb_spec k (length a)); rewrite ?fmul_cong, ?fadd_cong;
    rewrite ?(coef_over a k) by lia; apply cong_eq; ring.
Qed.

Lemma padd_reduced q a b : 0 < q -> reduced q (padd q a b).
Proof.
  intros. apply ploop_reduced; [intros; now apply fadd_range|].
  apply ploop_reduced; [intros; now apply fadd_range|]. now apply zeros_reduced.
Qed.
Lemma psub_reduced q a b : 0 < q -> reduced q (psub q a b).
Proof.
  intros. apply ploop_reduced; [intros; now apply fsub_range|].
  apply ploop_reduced; [intros; now apply fadd_range|]. now apply zeros_reduced.
Qed.

Lemma padd_eval q a b x : poly_at (padd q a b) x ==[q] poly_at a x + poly_at b x.
Proof. apply poly_at_add. apply padd_coef. Qed.
Lemma psub_eval q a b x : poly_at (psub q a b) x ==[q] poly_at a x - poly_at b x.
Proof.
  assert (H : poly_at a x ==[q] poly_at (psub q a b) x + poly_at b x).
  { apply poly_at_add. intros k. rewrite psub_coef. apply cong_eq; ring. }
  rewrite H. apply cong_eq; ring.
Qed.

Lemma pmul_scalar_coef q p w k : coef (pmul_scalar q p w) k ==[q] w * coef p k.
Proof.
  unfold pmul_scalar. revert k; induction p as [|c p IH]; intros k; cbn [map].
  - rewrite coef_nil. apply cong_eq; ring.
  - rewrite !coef_cons. destruct k; [apply fmul_cong|apply IH].
Qed.
Lemma pmul_scalar_eval q p w x : poly_at (pmul_scalar q p w) x ==[q] w * poly_at p x.
Proof. apply poly_at_scale. apply pmul_scalar_coef. Qed.
Lemma pmul_scalar_length q p w : length (pmul_scalar q p w) = length p.
Proof. apply map_length. Qed.

(** ** Mul *)
Lemma conv_cons c a b k : conv (c :: a) b k =
  c * coef b k + match k with O => 0 | S k' => conv a b k' end.
Proof.
  unfold conv at 1. cbn [seq map zsum]. rewrite coef_cons, Nat.sub_0_r. f_equal.
  rewrite <- seq_shift, map_map. destruct k as [|k]; [reflexivity|]. unfold conv.
  apply zsum_map_ext. intros i _. rewrite coef_cons. reflexivity.
Qed.

Lemma conv_nil b k : conv [] b k = 0.
Proof. unfold conv. apply zsum_map_0. intros; rewrite coef_nil; ring. Qed.

Lemma addrow_length q ai b r : (length b <= length r)%nat -> length (addrow q ai b r) = length r.
Proof. revert r; induction b; destruct r; cbn; intros; auto; try lia. rewrite IHb; lia. Qed.

Lemma addrow_coef q ai b r k : (length b <= length r)%nat ->
  coef (addrow q ai b r) k ==[q] coef r k + ai * coef b k.
Proof.
  revert r k; induction b as [|y b IH]; destruct r as [|x r]; cbn [length]; intros k H; try lia.
  - cbn [addrow]. rewrite coef_nil. apply cong_eq; ring.
  - cbn [addrow]. rewrite coef_nil. apply cong_eq; ring.
  - cbn [addrow]. rewrite !coef_cons. destruct k.
    + destruct (Z.eqb_spec ai 0) as [->|]; [cbn; apply cong_eq; ring|].
      destruct (Z.eqb_spec y 0) as [->|]; [cbn; apply cong_eq; ring|].
      cbn [orb]. rewrite fadd_cong, fmul_cong. reflexivity.
    + apply IH; lia.
Qed.

Lemma addrow_reduced q ai b r : 0 < q -> reduced q r -> reduced q (addrow q ai b r).
Proof.
  intros Hq. revert r; induction b as [|y b IH]; destruct r as [|x r]; intros HR;
    try assumption.
  inversion HR; subst. cbn [addrow]. constructor; [|now apply IH].
  destruct (_ || _); auto. now apply fadd_range.
Qed.

Lemma mulrows_length q a b r : (length a + length b <= S (length r))%nat ->
  length (mulrows q a b r) = length r.
Proof.
  revert r; induction a as [|ai a IH]; intros r H; [reflexivity|].
  cbn [mulrows length] in *. assert (L := addrow_length q ai b r ltac:(lia)).
  destruct (addrow q ai b r) as [|x r']; [destruct r; auto|].
  cbn in L. cbn [length]. rewrite IH; lia.
Qed.

Lemma mulrows_coef q a b r k : (length a + length b <= S (length r))%nat ->
  coef (mulrows q a b r) k ==[q] coef r k + conv a b k.
Proof.
  revert r k; induction a as [|ai a IH]; intros r k H.
  - cbn [mulrows]. rewrite conv_nil. apply cong_eq; ring.
  - cbn [mulrows length] in *. assert (L := addrow_length q ai b r ltac:(lia)).
    assert (C := addrow_coef q ai b r k ltac:(lia)).
    rewrite conv_cons, Z.add_assoc, <- C.
    destruct (addrow q ai b r) as [|x r'].
    + destruct r; [|discriminate]. cbn in H.
      destruct a; [|cbn in H; lia]. rewrite !coef_nil.
      destruct k; [|rewrite conv_nil]; apply cong_eq; ring.
    + rewrite !coef_cons. destruct k; [apply cong_eq; ring|].
      apply IH. cbn in L. lia.
Qed.

Lemma mulrows_reduced q a b r : 0 < q -> reduced q r -> reduced q (mulrows q a b r).
Proof.
  intros Hq. revert r; induction a as [|ai a IH]; intros r HR; [assumption|].
  cbn [mulrows]. assert (A := addrow_reduced q ai b r Hq HR).
  destruct (addrow q ai b r); [constructor|]. inversion A; subst. constructor; [assumption|]. now apply IH.
Qed.

Lemma pmul_length q a b : length (pmul q a b) = (length a + length b - 1)%nat.
Proof. unfold pmul. rewrite mulrows_length; rewrite zeros_length; lia. Qed.

Lemma pmul_coef q a b k : coef (pmul q a b) k ==[q] conv a b k.
Proof.
  unfold pmul. rewrite mulrows_coef by (rewrite zeros_length; lia).
  rewrite coef_zeros. apply cong_eq; ring.
Qed.

Lemma pmul_reduced q a b : 0 < q -> reduced q (pmul q a b).
Proof. intros. apply mulrows_reduced; auto. now apply zeros_reduced. Qed.

Lemma poly_at_conv q a b c x : (forall k, coef c k ==[q] conv a b k) ->
  poly_at c x ==[q] poly_at a x * poly_at b x.
Proof.
  revert c; induction a as [|ai a IH]; intros c H.
  - rewrite poly_at_nil. assert (E : peq q c []).
    { intros k. rewrite H, conv_nil, coef_nil. reflexivity. }
    rewrite (poly_at_peq _ _ _ x E), poly_at_nil. apply cong_eq; ring.
  - (* c = ai * b + X * (rest), with rest = pmul a b *)
    set (rest := pmul q a b).
    assert (R : poly_at rest x ==[q] poly_at a x * poly_at b x) by (apply IH, pmul_coef).
    assert (S1 : poly_at (pmul_scalar q b ai) x ==[q] ai * poly_at b x) by apply pmul_scalar_eval.
    assert (E : poly_at c x ==[q] poly_at (pmul_scalar q b ai) x + poly_at (0 :: rest) x).
    { apply poly_at_add. intros k. rewrite H, conv_cons, pmul_scalar_coef, coef_cons.
      destruct k; [reflexivity|]. unfold rest. rewrite pmul_coef. reflexivity. }
    rewrite E, S1, !poly_at_cons, R. apply cong_eq; ring.
Qed.

Lemma pmul_eval q a b x : poly_at (pmul q a b) x ==[q] poly_at a x * poly_at b x.
Proof. apply poly_at_conv. apply pmul_coef. Qed.

(** ** Algebra of convolution *)
Lemma conv_add_r q a b c d k : (forall i, coef d i ==[q] coef b i + coef c i) ->
  conv a d k ==[q] conv a b k + conv a c k.
Proof.
  intros H. unfold conv. rewrite <- zsum_map_add. apply zsum_map_cong.
  intros i _. rewrite H. apply cong_eq; ring.
Qed.

Lemma conv_peq_r q a b c k : peq q b c -> conv a b k ==[q] conv a c k.
Proof. intros H. apply zsum_map_cong. intros i _. rewrite (H _). reflexivity. Qed.

Lemma conv_over a b k : (length a + length b <= S k)%nat -> conv a b k = 0.
Proof.
  intros H. apply zsum_map_0. intros i Hi. apply in_seq in Hi.
  destruct (Nat.lt_ge_cases i (length a)).
  - rewrite (coef_over b) by lia. ring.
  - rewrite (coef_over a) by lia. ring.
Qed.

Lemma last_coef l : l <> [] -> last l 0 = coef l (length l - 1).
Proof.
  induction l as [|x l IH]; [easy|]. intros _. destruct l as [|y l]; [reflexivity|].
  change (last (x :: y :: l) 0) with (last (y :: l) 0). rewrite IH by easy.
  cbn [length]. replace (S (S (length l)) - 1)%nat with (S (length l)) by lia.
  rewrite (coef_cons x). f_equal. lia.
Qed.

Lemma conv_top a b : a <> [] -> b <> [] ->
  conv a b (length a + length b - 2) = last a 0 * last b 0.
Proof.
  intros Ha Hb. assert (Lb : (0 < length b)%nat) by (destruct b; [easy|cbn; lia]).
  induction a as [|x a IH]; [easy|].
  rewrite conv_cons. destruct a as [|y a].
  - assert (M : forall k, match k with O => 0 | S k' => conv [] b k' end = 0).
    { intros [|k]; auto using conv_nil. }
    rewrite M, (last_coef b Hb). cbn [length last].
    replace (1 + length b - 2)%nat with (length b - 1)%nat by lia. ring.
  - rewrite coef_over by (cbn [length]; lia).
    replace (length (x :: y :: a) + length b - 2)%nat
        with (S (length (y :: a) + length b - 2)) by (cbn [length]; lia).
    rewrite IH by easy. change (last (x :: y :: a) 0) with (last (y :: a) 0). ring.
Qed.

(** ** Division *)
Lemma set_nth_length pos l r : length (set_nth pos l r) = length r.
Proof. revert pos; induction r; destruct pos; cbn; auto. Qed.

Lemma set_nth_coef pos l r k : (pos < length r)%nat ->
  coef (set_nth pos l r) k = if Nat.eqb k pos then l else coef r k.
Proof.
  revert pos k; induction r as [|x r IH]; intros pos k H; [cbn in H; lia|].
  destruct pos as [|pos]; cbn [set_nth]; rewrite !coef_cons; destruct k; cbn [Nat.eqb]; auto.
  apply IH. cbn in H. lia.
Qed.

Lemma monomial_coef pos l k : coef (zeros pos ++ [l]) k = if Nat.eqb k pos then l else 0.
Proof.
  rewrite coef_app, zeros_length. destruct (Nat.ltb_spec k pos).
  - rewrite coef_zeros. destruct (Nat.eqb_spec k pos); auto; lia.
  - rewrite coef_cons. destruct (Nat.eqb_spec k pos) as [->|].
    + now rewrite Nat.sub_diag.
    + destruct (k - pos)%nat eqn:E; [lia|]. now rewrite coef_nil.
Qed.

Lemma removelast_length {A} (l : list A) : length (removelast l) = (length l - 1)%nat.
Proof.
  induction l as [|x l IH]; [reflexivity|]. destruct l as [|y l]; [reflexivity|].
  change (removelast (x :: y :: l)) with (x :: removelast (y :: l)). cbn [length] in *. lia.
Qed.

Lemma removelast_coef l k : coef (removelast l) k = if Nat.ltb k (length l - 1) then coef l k else 0.
Proof.
  revert k; induction l as [|x l IH]; intros k; [now rewrite coef_nil|].
  destruct l as [|y l].
  - destruct k; reflexivity.
  - change (removelast (x :: y :: l)) with (x :: removelast (y :: l)).
    rewrite !(coef_cons x). cbn [length]. destruct k; [reflexivity|].
    rewrite IH. cbn [length]. replace (S (S (length l)) - 1)%nat with (S (length l)) by lia.
    replace (S (length l) - 1)%nat with (length l) by lia. reflexivity.
Qed.

Section Div.
Variable q : Z.
Hypothesis Pq : prime q.
Variable b : list Z.
Hypothesis Hb : b <> [].
Hypothesis Hlead : ~ last b 0 ==[q] 0.

(** One round of the division loop. *)
Lemma div_round rem l : (length b <= length rem)%nat ->
  l * last b 0 ==[q] last rem 0 ->
  let pos := (length rem - length b)%nat in
  let rem' := removelast (psub q rem (pmul q b (zeros pos ++ [l]))) in
  length rem' = (length rem - 1)%nat /\
  forall k, coef rem k ==[q] conv b (zeros pos ++ [l]) k + coef rem' k.
Proof.
  intros HL El pos rem'.
  assert (Lb : (0 < length b)%nat) by (destruct b; [easy|cbn; lia]).
  assert (Lm : length (zeros pos ++ [l]) = S pos) by (rewrite app_length, zeros_length; cbn; lia).
  assert (Ls : length (psub q rem (pmul q b (zeros pos ++ [l]))) = length rem).
  { rewrite psub_length, pmul_length, Lm. lia. }
  split.
  - unfold rem'. rewrite removelast_length, Ls. reflexivity.
  - intros k. unfold rem'. rewrite removelast_coef, Ls.
    destruct (Nat.ltb_spec k (length rem - 1)).
    + rewrite psub_coef, pmul_coef. apply cong_eq; ring.
    + destruct (Nat.eq_dec k (length rem - 1)) as [->|Hk].
      * rewrite Z.add_0_r, <- last_coef by (intros ->; cbn in HL; lia).
        replace (length rem - 1)%nat with (length b + length (zeros pos ++ [l]) - 2)%nat by lia.
        rewrite conv_top; auto.
        -- rewrite last_last, <- El. apply cong_eq; ring.
        -- destruct pos; easy.
      * rewrite coef_over by lia. rewrite conv_over by lia. reflexivity.
Qed.

Lemma pdiv_loop_spec : forall fuel r rem,
  (length rem <= fuel)%nat -> (length rem < length b + length r \/ length rem < length b)%nat ->
  (forall k, (k <= length rem - length b)%nat -> (length b <= length rem)%nat -> coef r k = 0) ->
  exists r' rem', pdiv_loop q fuel b r rem = Some (r', rem') /\
    length r' = length r /\ (length rem' < length b)%nat /\
    ((length rem < length b)%nat -> rem' = rem) /\
    (length rem' = Nat.min (length rem) (length b - 1))%nat /\
    (forall k, coef rem k + conv b r k ==[q] conv b r' k + coef rem' k).
Proof.
  assert (Lb : (0 < length b)%nat) by (destruct b; [easy|cbn; lia]).
  induction fuel as [|f IH]; intros r rem Hf Hr Hz.
  - cbn [pdiv_loop]. replace (Nat.leb (length b) (length rem)) with false by (symmetry; apply Nat.leb_gt; lia).
    exists r, rem. repeat split; auto; try lia. intros k; apply cong_eq; ring.
  - cbn [pdiv_loop]. destruct (Nat.leb_spec (length b) (length rem)) as [HL|HL].
    + destruct b as [|b0 b'] eqn:Eb; [easy|]. rewrite <- Eb in *.
      destruct rem as [|x rem0] eqn:Er; [cbn in HL; lia|]. rewrite <- Er in *.
      unfold top.
      destruct (fdiv_prime q (last rem 0) (last b 0) Pq Hlead) as [l [El [_ El2]]].
      rewrite El.
      destruct (div_round rem l HL El2) as [R1 R2].
      set (pos := (length rem - length b)%nat) in *.
      set (rem' := removelast (psub q rem (pmul q b (zeros pos ++ [l])))) in *.
      assert (Hpos : (pos < length r)%nat) by lia.
      destruct (IH (set_nth pos l r) rem') as [r2 [rem2 [E [L1 [L2 [_ [L3 C]]]]]]].
      * lia.
      * rewrite set_nth_length. lia.
      * intros k Hk HLk. rewrite set_nth_coef by lia.
        destruct (Nat.eqb_spec k pos); [lia|]. apply Hz; lia.
      * exists r2, rem2. rewrite E. repeat split; auto; try lia.
        -- rewrite L1, set_nth_length. reflexivity.
        -- intros k. rewrite <- C, R2.
           rewrite (conv_add_r q b r (zeros pos ++ [l]) (set_nth pos l r)).
           ++ apply cong_eq; ring.
           ++ intros i. rewrite set_nth_coef, monomial_coef by lia.
              destruct (Nat.eqb_spec i pos) as [->|]; [|apply cong_eq; ring].
              rewrite Hz by lia. apply cong_eq; ring.
    + exists r, rem. repeat split; auto; try lia. intros k; apply cong_eq; ring.
Qed.

Lemma pdiv_spec a : (length b <= length a + 1)%nat ->
  exists quo rem, pdiv q a b = Some (quo, rem) /\
    length quo = (length a + 1 - length b)%nat /\ (length rem < length b)%nat /\
    (length rem = Nat.min (length a) (length b - 1))%nat /\
    (forall k, coef a k ==[q] conv b quo k + coef rem k).
Proof.
  intros HL. unfold pdiv. replace (Nat.leb (length b) (length a + 1)) with true by (symmetry; apply Nat.leb_le; lia).
  destruct (pdiv_loop_spec (length a) (zeros (length a + 1 - length b)) a) as [r [rem [E [L1 [L2 [_ [L3 C]]]]]]].
  - lia.
  - rewrite zeros_length. lia.
  - intros; apply coef_zeros.
  - exists r, rem. rewrite zeros_length in L1. repeat split; auto.
    intros k. rewrite <- C. unfold conv at 1. rewrite zsum_map_0.
    + apply cong_eq; ring.
    + intros; rewrite coef_zeros; ring.
Qed.

Lemma pdiv_eval a quo rem x : pdiv q a b = Some (quo, rem) -> (length b <= length a + 1)%nat ->
  poly_at a x ==[q] poly_at b x * poly_at quo x + poly_at rem x.
Proof.
  intros E HL. destruct (pdiv_spec a HL) as [quo' [rem' [E' [_ [_ [_ C]]]]]].
  rewrite E in E'. injection E' as <- <-.
  rewrite <- pmul_eval. apply poly_at_add. intros k. rewrite pmul_coef. apply C.
Qed.
End Div.

Lemma pdiv_panic q a b : (length a + 1 < length b)%nat -> pdiv q a b = None.
Proof.
  intros H. unfold pdiv.
  now replace (Nat.leb (length b) (length a + 1)) with false by (symmetry; apply Nat.leb_gt; lia).
Qed.
Lemma pdiv_empty q a : pdiv q a [] = None.
Proof. unfold pdiv; cbn [length]. replace (Nat.leb 0 (length a + 1)) with true by reflexivity. destruct a; reflexivity. Qed.

(** ** Linear combinations *)
Lemma plinear_combine_some q ps w : (length w <= length ps)%nat ->
  plinear_combine q ps w = Some (map (fun p => pmul q [fst p] (snd p)) (combine w ps)).
Proof.
  revert ps; induction w as [|c w IH]; intros ps H; [now destruct ps|].
  destruct ps as [|p ps]; [cbn in H; lia|]. cbn [plinear_combine combine map fst snd].
  rewrite IH by (cbn in H; lia). reflexivity.
Qed.

Lemma plinear_combine_none q ps w : (length ps < length w)%nat -> plinear_combine q ps w = None.
Proof.
  revert ps; induction w as [|c w IH]; intros ps H; [cbn in H; lia|].
  destruct ps as [|p ps]; [reflexivity|]. cbn [plinear_combine].
  rewrite IH by (cbn in H; lia). reflexivity.
Qed.

Lemma fold_padd_eval q ps x : forall acc,
  poly_at (fold_left (padd q) ps acc) x ==[q] poly_at acc x + zsum (map (fun p => poly_at p x) ps).
Proof.
  induction ps as [|p ps IH]; intros acc; cbn [fold_left map zsum].
  - apply cong_eq; ring.
  - rewrite IH, padd_eval. apply cong_eq; ring.
Qed.

Lemma padd_polynomials_eval q ps x :
  poly_at (padd_polynomials q ps) x ==[q] zsum (map (fun p => poly_at p x) ps).
Proof. unfold padd_polynomials. rewrite fold_padd_eval, poly_at_nil. reflexivity. Qed.

Lemma combine_eval q ps w x : (length w <= length ps)%nat ->
  exists lc, plinear_combine q ps w = Some lc /\ length lc = length w /\
  poly_at (padd_polynomials q lc) x ==[q]
    zsum (map (fun i => nth i w 0 * poly_at (nth i ps []) x) (seq 0 (length w))).
Proof.
  intros H. rewrite plinear_combine_some by auto. eexists; split; [reflexivity|]. split.
  { rewrite map_length, combine_length. lia. }
  rewrite padd_polynomials_eval, map_map.
  revert ps H; induction w as [|c w IH]; intros ps H; [reflexivity|].
  destruct ps as [|p ps]; [cbn in H; lia|].
  cbn [combine map zsum length seq fst snd nth]. rewrite pmul_eval, poly_at_cons, poly_at_nil.
  rewrite IH by (cbn in H; lia). rewrite <- (seq_shift (length w)), map_map. cbn [nth].
  apply cong_eq. ring.
Qed.

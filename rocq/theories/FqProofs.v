(** Proofs about FqModel. *)
Require Import ZArith Znumtheory Lia Setoid Morphisms Bool Ascii String List.
Require Import Verif.Cong Verif.FqModel Verif.FqSpec.
Import ListNotations.
Open Scope Z_scope.

Lemma fadd_cong q a b : fadd q a b ==[q] a + b.
Proof. apply cong_mod. Qed.
Lemma fsub_cong q a b : fsub q a b ==[q] a - b.
Proof. apply cong_mod. Qed.
Lemma fmul_cong q a b : fmul q a b ==[q] a * b.
Proof. apply cong_mod. Qed.
Lemma fneg_cong q a : fneg q a ==[q] - a.
Proof. apply cong_mod. Qed.
Lemma fsquare_cong q a : fsquare q a ==[q] a * a.
Proof. apply cong_mod. Qed.

Lemma fadd_range q a b : 0 < q -> 0 <= fadd q a b < q.
Proof. intros; now apply Z.mod_pos_bound. Qed.
Lemma fsub_range q a b : 0 < q -> 0 <= fsub q a b < q.
Proof. intros; now apply Z.mod_pos_bound. Qed.
Lemma fmul_range q a b : 0 < q -> 0 <= fmul q a b < q.
Proof. intros; now apply Z.mod_pos_bound. Qed.
Lemma fneg_range q a : 0 < q -> 0 <= fneg q a < q.
Proof. intros; now apply Z.mod_pos_bound. Qed.

Lemma ring_ops_canon q a b : 0 < q ->
  canon q (a + b) (fadd q a b) /\ canon q (a - b) (fsub q a b) /\
  canon q (a * b) (fmul q a b) /\ canon q (- a) (fneg q a) /\
  canon q (2 * a) (fdouble q a) /\ canon q (a ^ 2) (fsquare q a) /\
  canon q (a * b) (fmul_scalar q a b).
Proof.
  intros Hq. repeat split; try (apply Z.mod_pos_bound; assumption); try apply cong_mod.
  - unfold fdouble. rewrite cong_mod. apply cong_eq; ring.
  - unfold fsquare. rewrite cong_mod. apply cong_eq; ring.
Qed.

(** ** Inverse *)
Lemma egcd_spec n a : forall fuel r0 r1 s0 s1,
  0 <= r1 <= r0 -> 0 < r0 -> r0 * r1 < 2 ^ Z.of_nat fuel ->
  r0 ==[n] s0 * a -> r1 ==[n] s1 * a ->
  let '(g, s) := egcd fuel r0 r1 s0 s1 in
  g = Z.gcd r0 r1 /\ g ==[n] s * a.
Proof.
  induction fuel as [|f IH]; intros r0 r1 s0 s1 H1 H0 Hf E0 E1; cbn [egcd].
  - cbn in Hf. assert (r1 = 0) by nia. subst. rewrite Z.gcd_0_r, Z.abs_eq by lia. auto.
  - destruct (Z.eqb_spec r1 0) as [->|Hr].
    + rewrite Z.gcd_0_r, Z.abs_eq by lia. auto.
    + set (k := r0 / r1).
      assert (Hm : r0 - k * r1 = r0 mod r1) by (unfold k; rewrite Z.mod_eq; lia).
      specialize (IH r1 (r0 - k * r1) s1 (s0 - k * s1)).
      assert (B : 0 <= r0 mod r1 < r1) by (apply Z.mod_pos_bound; lia).
      destruct (egcd f r1 (r0 - k * r1) s1 (s0 - k * s1)) as [g s] eqn:E.
      assert (IH' : g = Z.gcd r1 (r0 - k * r1) /\ g ==[n] s * a).
      { apply IH; try lia; auto.
        - rewrite Hm. rewrite Nat2Z.inj_succ, Z.pow_succ_r in Hf by lia.
          assert (1 <= k) by (unfold k; apply Z.div_le_lower_bound; lia).
          nia.
        - rewrite E0, E1. apply cong_eq; ring. }
      destruct IH' as [-> IH2]. split; [|exact IH2].
      rewrite Hm. rewrite Z.gcd_comm, Z.gcd_mod, Z.gcd_comm by lia. reflexivity.
Qed.

Lemma mod_inverse_spec a n : 1 < n ->
  match mod_inverse a n with
  | Some i => canon n i i /\ a * i ==[n] 1 /\ Z.gcd a n = 1
  | None => Z.gcd a n <> 1
  end.
Proof.
  intros Hn. unfold mod_inverse.
  assert (B := Z.mod_pos_bound a n ltac:(lia)).
  assert (HE := egcd_spec n (a mod n) (egcd_fuel n (a mod n)) n (a mod n) 0 1).
  destruct (egcd _ _ _ _ _) as [g s].
  assert (H : g = Z.gcd n (a mod n) /\ g ==[n] s * (a mod n)).
  { apply HE; try lia.
    - unfold egcd_fuel. destruct (Z.eq_dec (a mod n) 0) as [->|Hz].
      + rewrite Z.mul_0_r. apply Z.pow_pos_nonneg; lia.
      + rewrite Z2Nat.id by (pose proof (Z.log2_nonneg (n * (a mod n))); lia).
        apply Z.log2_spec. nia.
    - exists 1; ring.
    - apply cong_eq; ring. }
  destruct H as [Hg Hs].
  assert (Hgcd : g = Z.gcd a n).
  { rewrite Hg, Z.gcd_comm, Z.gcd_mod, Z.gcd_comm by lia; reflexivity. }
  destruct (Z.eqb_spec g 1) as [E|E].
  - repeat split.
    + apply Z.mod_pos_bound; lia.
    + apply Z.mod_pos_bound; lia.
    + reflexivity.
    + rewrite (cong_mod n s), Z.mul_comm, <- (cong_mod n a), <- Hs, E; reflexivity.
    + lia.
  - lia.
Qed.

Lemma prime_gcd q a : prime q -> ~ a ==[q] 0 -> Z.gcd a q = 1.
Proof.
  intros Pq Ha. rewrite Z.gcd_comm. apply Zgcd_1_rel_prime.
  apply prime_rel_prime; auto. now rewrite <- cong_0_iff.
Qed.

Lemma finv_prime q a : prime q -> ~ a ==[q] 0 ->
  exists i, finv q a = Some i /\ 0 <= i < q /\ a * i ==[q] 1.
Proof.
  intros Pq Ha. unfold finv.
  destruct (Z.eqb_spec a 0) as [->|_]; [exfalso; apply Ha; reflexivity|].
  assert (H := mod_inverse_spec a q ltac:(destruct Pq; lia)).
  destruct (mod_inverse a q) as [i|].
  - exists i; destruct H as [[H _] [H2 _]]; auto.
  - now rewrite prime_gcd in H.
Qed.

Lemma finv_unique q a i j : prime q -> finv q a = Some i -> ~ a ==[q] 0 ->
  0 <= j < q -> a * j ==[q] 1 -> i = j.
Proof.
  intros Pq H Ha Hj Ej. destruct (finv_prime q a Pq Ha) as [i' [E [R E2]]].
  rewrite H in E; injection E as <-.
  apply (cong_canon_unique q); auto. apply (cong_cancel q Pq a); auto.
  rewrite E2, Ej; reflexivity.
Qed.

Lemma finv_multiple q a : prime q -> a ==[q] 0 -> a <> 0 -> finv q a = None.
Proof.
  intros Pq Ha Hz. unfold finv. destruct (Z.eqb_spec a 0); [lia|].
  assert (H := mod_inverse_spec a q ltac:(destruct Pq; lia)).
  destruct (mod_inverse a q) as [i|]; auto.
  exfalso. destruct H as [_ [H _]]. apply (cong_1_0 q Pq).
  rewrite <- H, Ha. apply cong_eq; ring.
Qed.

Lemma fdiv_prime q a b : prime q -> ~ b ==[q] 0 ->
  exists d, fdiv q a b = Some d /\ 0 <= d < q /\ d * b ==[q] a.
Proof.
  intros Pq Hb. destruct (finv_prime q b Pq Hb) as [i [E [R E2]]].
  unfold fdiv. rewrite E. eexists; split; [reflexivity|split].
  - apply Z.mod_pos_bound; destruct Pq; lia.
  - rewrite cong_mod, fmul_cong.
    replace (a * i * b) with (a * (b * i)) by ring. rewrite E2. apply cong_eq; ring.
Qed.

Lemma finv_0 q : finv q 0 = Some 0.
Proof. reflexivity. Qed.
Lemma fdiv_0 q a : fdiv q a 0 = Some 0.
Proof. unfold fdiv, fmul; rewrite finv_0, Z.mul_0_r, !Zmod_0_l; reflexivity. Qed.
Lemma fdiv_multiple q a b : prime q -> b ==[q] 0 -> b <> 0 -> fdiv q a b = None.
Proof. intros; unfold fdiv; rewrite finv_multiple; auto. Qed.

(** ** Exponentiation *)
Lemma exp_loop_spec q : forall p res ex,
  exp_loop q res ex p ==[q] res * ex ^ Zpos p.
Proof.
  induction p; intros; cbn [exp_loop].
  - rewrite IHp, fmul_cong.
    rewrite (cong_pow q _ _ (Zpos p) (fsquare_cong q ex)).
    apply cong_eq. rewrite Pos2Z.inj_xI, Z.pow_add_r, Z.pow_mul_r by lia.
    rewrite Z.pow_2_r. ring.
  - rewrite IHp. rewrite (cong_pow q _ _ (Zpos p) (fsquare_cong q ex)).
    apply cong_eq. rewrite Pos2Z.inj_xO, Z.pow_mul_r, Z.pow_2_r by lia. ring.
  - rewrite fmul_cong. apply cong_eq; ring.
Qed.

Lemma exp_loop_range q : 0 < q -> forall p res ex, 0 <= exp_loop q res ex p < q.
Proof. intros Hq; induction p; intros; cbn [exp_loop]; auto. now apply fmul_range. Qed.

Lemma fexp_int_canon q b e : 1 < q -> canon q (b ^ Z.of_N e) (fexp_int q b e).
Proof.
  intros Hq. destruct e as [|p]; cbn [fexp_int].
  - split; [lia|reflexivity].
  - split; [apply exp_loop_range; lia|]. rewrite exp_loop_spec.
    change (Z.of_N (N.pos p)) with (Zpos p). apply cong_eq; ring.
Qed.

Lemma fexp_int_cong q b e : fexp_int q b e ==[q] b ^ Z.of_N e.
Proof.
  destruct e as [|p]; cbn [fexp_int]; [reflexivity|].
  rewrite exp_loop_spec. change (Z.of_N (N.pos p)) with (Zpos p). apply cong_eq; ring.
Qed.

Lemma fexp_canon_gen q b e : 1 < q -> canon q (b ^ (e mod q)) (fexp q b e).
Proof.
  intros Hq. unfold fexp, fcopy.
  assert (B := Z.mod_pos_bound e q ltac:(lia)).
  destruct (e mod q) as [|p|p]; try lia.
  - split; [lia|reflexivity].
  - split; [apply exp_loop_range; lia|]. rewrite exp_loop_spec. apply cong_eq; ring.
Qed.

Lemma fexp_canon q b e : 1 < q -> 0 <= e < q -> canon q (b ^ e) (fexp q b e).
Proof. intros. rewrite <- (Z.mod_small e q) at 1 by lia. now apply fexp_canon_gen. Qed.

Lemma fexp_refuted : exists q b e, prime q /\ 0 <= e /\ ~ fexp q b e ==[q] b ^ e.
Proof.
  exists 7, 3, 7. split; [|split; [lia|]].
  - apply prime_intro; [lia|]. intros n Hn.
    assert (n = 1 \/ n = 2 \/ n = 3 \/ n = 4 \/ n = 5 \/ n = 6) by lia.
    apply Zgcd_1_rel_prime.
    decompose [or] H; subst; reflexivity.
  - intros H. apply cong_mod_iff in H; [|lia]. vm_compute in H. discriminate.
Qed.

(** ** Polynomial evaluation *)
Lemma zsum_app l1 l2 : zsum (l1 ++ l2) = zsum l1 + zsum l2.
Proof. induction l1; cbn [zsum app]; lia. Qed.

Lemma zsum_map_ext {A} (f g : A -> Z) l : (forall x, In x l -> f x = g x) ->
  zsum (map f l) = zsum (map g l).
Proof. induction l; cbn [zsum map]; intros H; [reflexivity|]. rewrite H, IHl; auto with datatypes. Qed.

Lemma zsum_map_cong {A} q (f g : A -> Z) l : (forall x, In x l -> f x ==[q] g x) ->
  zsum (map f l) ==[q] zsum (map g l).
Proof.
  induction l; cbn [zsum map]; intros H; [reflexivity|].
  rewrite (H a), IHl; auto with datatypes.
Qed.

Lemma zsum_map_add {A} (f g : A -> Z) l :
  zsum (map (fun x => f x + g x) l) = zsum (map f l) + zsum (map g l).
Proof. induction l; cbn [zsum map]; lia. Qed.

Lemma zsum_map_scale {A} (f : A -> Z) c l :
  zsum (map (fun x => c * f x) l) = c * zsum (map f l).
Proof. induction l; cbn [zsum map]; lia. Qed.

Lemma zsum_map_0 {A} (f : A -> Z) l : (forall x, In x l -> f x = 0) -> zsum (map f l) = 0.
Proof. induction l; cbn [zsum map]; intros H; [reflexivity|]. rewrite H, IHl; auto with datatypes. Qed.

Lemma poly_at_nil x : poly_at [] x = 0.
Proof. reflexivity. Qed.

Lemma poly_at_cons c v x : poly_at (c :: v) x = c + x * poly_at v x.
Proof.
  unfold poly_at. cbn [length seq map zsum].
  rewrite <- seq_shift, map_map. cbn [nth].
  rewrite Z.pow_0_r, Z.mul_1_r. f_equal.
  rewrite <- zsum_map_scale. apply zsum_map_ext. intros i _.
  rewrite Nat2Z.inj_succ, Z.pow_succ_r by lia. ring.
Qed.

Lemma feval_poly_cons2 q c d v x : feval_poly q (c :: d :: v) x =
  match feval_poly q (d :: v) x with Some r => Some (fadd q (fmul q r x) c) | None => None end.
Proof. reflexivity. Qed.

Lemma feval_poly_Some q c v x : exists r, feval_poly q (c :: v) x = Some r.
Proof.
  revert c; induction v as [|d v IH]; intros; [eexists; reflexivity|].
  rewrite feval_poly_cons2. destruct (IH d) as [r ->]. eexists; reflexivity.
Qed.

Lemma feval_poly_cong q v x r : feval_poly q v x = Some r -> r ==[q] poly_at v x.
Proof.
  revert r; induction v as [|c v IH]; intros r; [discriminate|].
  destruct v as [|d v].
  - cbn [feval_poly]. intros [= <-]. rewrite poly_at_cons, poly_at_nil. apply cong_eq; ring.
  - rewrite feval_poly_cons2. destruct (feval_poly q (d :: v) x) as [r'|] eqn:E; [|discriminate].
    intros [= <-].
    rewrite poly_at_cons, fadd_cong, fmul_cong, (IH r' eq_refl). apply cong_eq; ring.
Qed.

Lemma feval_poly_range q c d v x r : 0 < q ->
  feval_poly q (c :: d :: v) x = Some r -> 0 <= r < q.
Proof.
  intros Hq. rewrite feval_poly_cons2.
  destruct (feval_poly q (d :: v) x) as [r'|] eqn:E; [|discriminate].
  intros [= <-]. now apply fadd_range.
Qed.

Lemma feval_poly_None q v x : feval_poly q v x = None <-> v = [].
Proof.
  destruct v as [|c v]; [cbn; tauto|]. destruct (feval_poly_Some q c v x) as [r E].
  rewrite E; split; discriminate.
Qed.

(** ** Scalar product *)
Lemma dot_cons a l b r : dot (a :: l) (b :: r) = a * b + dot l r.
Proof.
  unfold dot. cbn [length seq map zsum nth]. f_equal.
  rewrite <- seq_shift, map_map. reflexivity.
Qed.

Lemma dot_fold q : forall l r acc, List.length l = List.length r ->
  fold_left (fun s (p : Z * Z) => (s + fst p * snd p) mod q) (combine l r) acc
  ==[q] acc + dot l r.
Proof.
  induction l as [|a l IH]; destruct r as [|b r]; try discriminate; intros acc H.
  - cbn. unfold dot; cbn. apply cong_eq; ring.
  - cbn [combine fold_left fst snd]. rewrite IH by (cbn in H; lia).
    rewrite dot_cons, cong_mod. apply cong_eq; ring.
Qed.

Lemma dot_fold_range q : 0 < q -> forall (l : list (Z*Z)) acc, 0 <= acc < q ->
  0 <= fold_left (fun s (p : Z * Z) => (s + fst p * snd p) mod q) l acc < q.
Proof. intros Hq; induction l; cbn; intros; auto. apply IHl. now apply Z.mod_pos_bound. Qed.

Lemma fscalar_product_spec q l r : 1 < q ->
  (List.length l = List.length r -> exists s, fscalar_product q l r = Some s /\ canon q (dot l r) s) /\
  (List.length l <> List.length r -> fscalar_product q l r = None).
Proof.
  intros Hq; unfold fscalar_product; split; intros H.
  - rewrite H, Nat.eqb_refl. eexists; split; [reflexivity|split].
    + apply dot_fold_range; lia.
    + rewrite dot_fold by auto. apply cong_eq; ring.
  - apply Nat.eqb_neq in H. now rewrite H.
Qed.

(** ** Normalisation *)
Lemma faffine_mod q a : 0 < q -> faffine q a = a mod q.
Proof.
  intros Hq. unfold faffine, fneg. rewrite Z.mod_opp_l_z by (try apply Z_mod_same_full; lia).
  destruct (Z.ltb_spec a 0).
  - replace (a <=? 0) with true by lia.
    assert (B := Z.mod_pos_bound a q Hq).
    now replace (a mod q <? 0) with false by lia.
  - destruct (Z.leb_spec q a); [reflexivity|]. now rewrite Z.mod_small by lia.
Qed.

Lemma fequal_iff q a b : 0 < q -> (fequal q a b = true <-> a ==[q] b).
Proof.
  intros Hq. unfold fequal. rewrite !faffine_mod by auto.
  assert (Ba := Z.mod_pos_bound a q Hq). assert (Bb := Z.mod_pos_bound b q Hq).
  rewrite !Z.abs_eq, Z.eqb_eq by lia. symmetry. apply cong_mod_iff. lia.
Qed.

Lemma fis_zero_iff a : fis_zero a = true <-> a = 0.
Proof. unfold fis_zero. rewrite Z.eqb_eq. lia. Qed.

(** ** Random elements *)
Lemma set_bytes_acc bs : forall acc, Forall (fun b => 0 <= b < 256) bs -> 0 <= acc ->
  0 <= fold_left (fun acc b => acc * 256 + b) bs acc
    < (acc + 1) * 256 ^ Z.of_nat (List.length bs).
Proof.
  induction bs as [|b bs IH]; intros acc HF Ha; cbn [fold_left List.length].
  - rewrite Z.pow_0_r; lia.
  - inversion HF; subst. specialize (IH (acc * 256 + b) H2 ltac:(lia)).
    rewrite Nat2Z.inj_succ, Z.pow_succ_r by lia.
    assert (0 < 256 ^ Z.of_nat (List.length bs)) by (apply Z.pow_pos_nonneg; lia). nia.
Qed.

Lemma frand_range q bs r : 0 < q -> Forall (fun b => 0 <= b < 256) bs ->
  frand q bs = Some r -> 0 <= r < q /\ r < 2 ^ (8 * (bitlen q / 8 - 1)).
Proof.
  intros Hq HF. unfold frand. destruct (Z.eqb_spec (Z.of_nat (List.length bs)) (bitlen q / 8 - 1)) as [E|]; [|discriminate].
  intros [= <-]. split; [now apply Z.mod_pos_bound|].
  destruct (set_bytes_acc bs 0 HF ltac:(lia)) as [H1 H2].
  unfold set_bytes. rewrite <- E.
  rewrite Z.mul_1_l in H2. change 256 with (2^8) in H2 at 2.
  rewrite <- Z.pow_mul_r in H2 by lia.
  eapply Z.le_lt_trans; [|exact H2]. now apply Z.mod_le.
Qed.

Lemma frand_Order bs r : Forall (fun b => 0 <= b < 256) bs ->
  frand Order bs = Some r -> 0 <= r < 2 ^ 240.
Proof.
  intros HF H. destruct (frand_range Order bs r ltac:(reflexivity) HF H) as [A B].
  change (8 * (bitlen Order / 8 - 1)) with 240 in B. lia.
Qed.

(** ** Decimal strings *)
Fixpoint all_digits (s : string) : Prop :=
  match s with
  | EmptyString => True
  | String c s' => digit_of c <> None /\ all_digits s'
  end.

(** Primality by Pocklington's criterion, Fermat's little theorem, and primality of the
    two constants of /repo/pairing/constants.go (nothing else here models code). *)
Require Import ZArith Znumtheory Lia List Permutation Bool Wf_nat.
Require Import Verif.Cong Verif.FqModel Verif.FqSpec.
Import ListNotations.
Open Scope Z_scope.

(** ** Prime divisors *)
Lemma prime_divisor n : 1 < n -> exists p, prime p /\ (p | n).
Proof.
  intros Hn. assert (H0 : 0 <= n) by lia. generalize Hn. generalize H0. revert H0.
  apply (Z_lt_induction (fun n => 0 <= n -> 1 < n -> exists p, prime p /\ (p | n))).
  clear n Hn. intros n IH _ Hn.
  destruct (prime_dec n) as [Hp|Hp].
  - exists n; split; auto. apply Z.divide_refl.
  - destruct (not_prime_divide n Hn Hp) as [m [Hm Hd]].
    destruct (IH m ltac:(lia) ltac:(lia) ltac:(lia)) as [p [Pp Dp]].
    exists p; split; auto. eapply Z.divide_trans; eauto.
Qed.

Lemma prime_divides_prod r l : prime r -> Forall prime l -> (r | zprod l) -> In r l.
Proof.
  intros Pr. induction 1 as [|p l Pp Hl IH]; cbn [zprod].
  - intros D. apply Z.divide_1_r_nonneg in D; destruct Pr; lia.
  - intros D. apply prime_mult in D; auto. destruct D as [D|D].
    + left. symmetry. apply prime_div_prime; auto.
    + right; auto.
Qed.

Lemma zprod_pos l : Forall prime l -> 0 < zprod l.
Proof. induction 1 as [|p l Pp _ IH]; cbn [zprod]; [lia|]. destruct Pp; nia. Qed.

(** ** Powers equal to one *)
Lemma pow_mul_one d b x k : 0 <= x -> 0 <= k -> b ^ x ==[d] 1 -> b ^ (k * x) ==[d] 1.
Proof.
  intros Hx Hk H. rewrite Z.mul_comm, Z.pow_mul_r by lia.
  rewrite (cong_pow d _ _ k H). rewrite Z.pow_1_l by lia. reflexivity.
Qed.

Lemma pow_gcd_one d b x y : 0 < x -> 0 < y -> b ^ x ==[d] 1 -> b ^ y ==[d] 1 ->
  b ^ (Z.gcd x y) ==[d] 1.
Proof.
  intros Hx Hy Ex Ey.
  destruct (Z.gcd_bezout x y (Z.gcd x y) eq_refl) as [u [v Huv]].
  set (g := Z.gcd x y) in *. assert (Hg : 0 <= g) by apply Z.gcd_nonneg.
  (* shift u by a multiple of y to make both coefficients have the right sign *)
  set (t := Z.abs u + Z.abs v).
  assert (A : (u + t * y) * x = g + (t * x - v) * y) by (rewrite <- Huv; ring).
  assert (Hu : 0 <= u + t * y) by (unfold t; nia).
  assert (Hv : 0 <= t * x - v) by (unfold t; nia).
  assert (B := pow_mul_one d b x _ ltac:(lia) Hu Ex).
  assert (C := pow_mul_one d b y _ ltac:(lia) Hv Ey).
  rewrite A, Z.pow_add_r in B by nia. rewrite C, Z.mul_1_r in B. exact B.
Qed.

(** ** Fermat's little theorem *)
Definition residues (d : Z) : list Z := map Z.of_nat (seq 1 (Z.to_nat (d - 1))).

Lemma residues_In d x : In x (residues d) <-> 1 <= x < d.
Proof.
  unfold residues. rewrite in_map_iff. split.
  - intros [n [<- H]]. apply in_seq in H. lia.
  - intros H. exists (Z.to_nat x). split; [lia|]. apply in_seq. lia.
Qed.

Lemma residues_NoDup d : NoDup (residues d).
Proof. unfold residues. apply FinFun.Injective_map_NoDup; [|apply seq_NoDup]. intros x y; lia. Qed.

Lemma zprod_perm l1 l2 : Permutation l1 l2 -> zprod l1 = zprod l2.
Proof. induction 1; cbn [zprod]; lia. Qed.

Lemma zprod_map_scale d a l :
  zprod (map (fun x => (a * x) mod d) l) ==[d] a ^ Z.of_nat (length l) * zprod l.
Proof.
  induction l as [|x l IH]; [reflexivity|].
  cbn [map zprod length]. rewrite IH, (cong_mod d (a * x)).
  apply cong_eq. rewrite Nat2Z.inj_succ, Z.pow_succ_r by lia. ring.
Qed.

Lemma zprod_nz d l : prime d -> Forall (fun x => ~ x ==[d] 0) l -> ~ zprod l ==[d] 0.
Proof.
  intros Pd. induction 1 as [|x l Hx _ IH]; cbn [zprod].
  - apply cong_1_0; auto.
  - apply cong_mul_nz; auto.
Qed.

Lemma small_nz d x : 1 <= x < d -> ~ x ==[d] 0.
Proof. intros H E. apply cong_mod_iff in E; [|lia]. rewrite Z.mod_small, Zmod_0_l in E; lia. Qed.

Lemma NoDup_map_in {A B} (f : A -> B) l :
  (forall x y, In x l -> In y l -> f x = f y -> x = y) -> NoDup l -> NoDup (map f l).
Proof.
  intros Hf HN. induction HN as [|x l Hx HN IH]; cbn; constructor.
  - rewrite in_map_iff. intros [y [E Hy]]. apply Hx.
    rewrite <- (Hf y x); auto with datatypes.
  - apply IH. intros; apply Hf; auto with datatypes.
Qed.

Theorem fermat d a : prime d -> ~ a ==[d] 0 -> a ^ (d - 1) ==[d] 1.
Proof.
  intros Pd Ha. assert (Hd : 1 < d) by (destruct Pd; lia).
  set (l := residues d). set (f := fun x => (a * x) mod d).
  assert (Hp : Permutation (map f l) l).
  { apply NoDup_Permutation_bis.
    - apply NoDup_map_in; [|apply residues_NoDup].
      intros x y Hx Hy E. apply residues_In in Hx. apply residues_In in Hy.
      apply (cong_canon_unique d); try lia. apply (cong_cancel d Pd a); auto.
      apply cong_mod_iff; [lia|exact E].
    - rewrite map_length. lia.
    - intros y Hy. apply in_map_iff in Hy. destruct Hy as [x [<- Hx]].
      apply residues_In in Hx. apply residues_In. unfold f.
      assert (B := Z.mod_pos_bound (a * x) d ltac:(lia)).
      assert ((a * x) mod d <> 0); [|lia].
      intros E. apply (cong_mul_nz d Pd a x Ha (small_nz d x Hx)).
      apply cong_mod_iff; [lia|]. now rewrite Zmod_0_l. }
  assert (E := zprod_perm _ _ Hp).
  assert (S := zprod_map_scale d a l). fold f in S. rewrite E in S.
  assert (L : Z.of_nat (length l) = d - 1).
  { unfold l, residues. rewrite map_length, seq_length. lia. }
  rewrite L in S.
  apply (cong_cancel d Pd (zprod l)).
  - apply zprod_nz; auto. apply Forall_forall. intros x Hx. apply residues_In in Hx.
    now apply small_nz.
  - rewrite Z.mul_1_r, Z.mul_comm. symmetry. exact S.
Qed.

(** ** Pocklington's criterion *)
(** Stated for an element [b] whose order modulo every prime divisor of n is forced to be the
    product of the primes in [l]. *)
Lemma pocklington n b l :
  1 < n -> Forall prime l -> n <= zprod l * zprod l ->
  b ^ zprod l ==[n] 1 ->
  (forall p, In p l -> Z.gcd (b ^ (zprod l / p) - 1) n = 1) ->
  prime n.
Proof.
  intros Hn Hl Hsq Hb Hg.
  set (F := zprod l) in *. assert (HF0 : 0 < F) by (now apply zprod_pos).
  assert (K : forall d, prime d -> (d | n) -> F < d).
  { intros d Pd Dd. assert (Hd : 1 < d) by (destruct Pd; lia).
    assert (lift : forall x y, x ==[n] y -> x ==[d] y).
    { intros x y H. eapply Z.divide_trans; eauto. }
    assert (BF : b ^ F ==[d] 1) by auto.
    assert (Bd : ~ b ==[d] 0).
    { intros E. apply (cong_1_0 d Pd). rewrite <- BF.
      rewrite (cong_pow d _ _ _ E), Z.pow_0_l by lia. reflexivity. }
    assert (G := pow_gcd_one d b F (d - 1) HF0 ltac:(lia) BF (fermat d b Pd Bd)).
    set (g := Z.gcd F (d - 1)) in *.
    assert (Hg0 : 0 < g).
    { assert (0 <= g) by apply Z.gcd_nonneg. assert (g <> 0); [|lia].
      intros E. apply Z.gcd_eq_0_l in E. lia. }
    destruct (Z.gcd_divide_l F (d - 1)) as [h Hh]. fold g in Hh.
    destruct (Z.eq_dec h 1) as [->|Hh1].
    - destruct (Z.gcd_divide_r F (d - 1)) as [k Hk]. fold g in Hk. clear -Hk Hh Hg0 Hd. assert (0 < k) by nia. nia.
    - exfalso. assert (Hh2 : 1 < h) by (clear -Hh Hg0 HF0 Hh1; nia).
      destruct (prime_divisor h Hh2) as [p [Pp [m Dp]]].
      assert (Hin : In p l).
      { apply prime_divides_prod; auto. fold F. exists (m * g). rewrite Hh, Dp. ring. }
      specialize (Hg p Hin).
      assert (Hp1 : 1 < p) by (destruct Pp; lia).
      assert (E1 : F / p = m * g).
      { rewrite Hh, Dp. replace (m * p * g) with (m * g * p) by ring. apply Z.div_mul; lia. }
      assert (Hm : 0 < m) by (clear -Dp Hh2 Hp1; nia).
      assert (E2 : b ^ (F / p) ==[d] 1).
      { rewrite E1. apply pow_mul_one; try lia. exact G. }
      assert (D1 : (d | 1)).
      { rewrite <- Hg. apply Z.gcd_greatest; auto. }
      apply Z.divide_1_r_nonneg in D1; lia. }
  destruct (prime_dec n) as [|Hnp]; auto.
  exfalso. destruct (not_prime_divide n Hn Hnp) as [m [Hm [k Hk]]].
  assert (1 < k) by nia.
  destruct (prime_divisor m ltac:(lia)) as [p1 [P1 D1]].
  destruct (prime_divisor k ltac:(lia)) as [p2 [P2 D2]].
  assert (F < p1) by (apply K; auto; apply Z.divide_trans with m; auto; exists k; lia).
  assert (F < p2) by (apply K; auto; apply Z.divide_trans with k; auto; exists m; lia).
  apply Z.divide_pos_le in D1; [|lia]. apply Z.divide_pos_le in D2; [|lia]. nia.
Qed.

(** ** Executable checks *)
(** a^p mod n by repeated squaring. *)
Fixpoint powmod (n a : Z) (p : positive) : Z :=
  match p with
  | xH => a mod n
  | xO p' => let r := powmod n a p' in (r * r) mod n
  | xI p' => let r := powmod n a p' in (((r * r) mod n) * a) mod n
  end.

Lemma powmod_cong n a p : powmod n a p ==[n] a ^ Zpos p.
Proof.
  induction p; cbn [powmod].
  - rewrite cong_mod, (cong_mod n (_ * _)), IHp. apply cong_eq.
    rewrite Pos2Z.inj_xI, Z.pow_add_r by lia. rewrite Z.mul_comm with (n := 2), Z.pow_mul_r, Z.pow_2_r by lia. ring.
  - rewrite cong_mod, IHp. apply cong_eq.
    rewrite Pos2Z.inj_xO. rewrite Z.mul_comm with (n := 2), Z.pow_mul_r, Z.pow_2_r by lia. ring.
  - rewrite cong_mod. apply cong_eq. now rewrite Z.pow_1_r.
Qed.

Definition zpowmod (n a e : Z) : Z := match e with Zpos p => powmod n a p | _ => 1 mod n end.

Lemma zpowmod_cong n a e : 0 <= e -> zpowmod n a e ==[n] a ^ e.
Proof.
  destruct e; cbn [zpowmod]; intros; [|apply powmod_cong|lia].
  rewrite cong_mod. reflexivity.
Qed.

Definition pock_check (n b : Z) (l : list Z) : bool :=
  let F := zprod l in
  (1 <? n) && (n <=? F * F) && (zpowmod n b F =? 1) &&
  forallb (fun p => Z.gcd (zpowmod n b (F / p) - 1) n =? 1) l.

Lemma gcd_cong n x y : n <> 0 -> x ==[n] y -> Z.gcd x n = Z.gcd y n.
Proof.
  intros Hn H. apply cong_mod_iff in H; auto.
  rewrite (Z.gcd_comm x), (Z.gcd_comm y), <- (Z.gcd_mod x n), <- (Z.gcd_mod y n), H by auto. reflexivity.
Qed.

Lemma pock_check_sound n b l : Forall prime l -> pock_check n b l = true -> prime n.
Proof.
  intros Hl H. unfold pock_check in H. rewrite !andb_true_iff in H.
  destruct H as [[[H1 H4] H5] H6].
  apply Z.ltb_lt in H1. apply Z.eqb_eq in H5. apply Z.leb_le in H4.
  assert (HF0 : 0 < zprod l) by (now apply zprod_pos).
  apply (pocklington n b l); auto.
  - rewrite <- zpowmod_cong by lia. rewrite H5. reflexivity.
  - intros p Hp. rewrite forallb_forall in H6. specialize (H6 p Hp). apply Z.eqb_eq in H6.
    etransitivity; [|exact H6]. apply gcd_cong; [lia|].
    assert (1 < p) by (rewrite Forall_forall in Hl; destruct (Hl p Hp); lia).
    rewrite zpowmod_cong by (apply Z.div_pos; lia). reflexivity.
Qed.

(** Trial division by 2..sqrt n. *)
Definition trial_check (n : Z) : bool :=
  (1 <? n) && forallb (fun k => negb (n mod Z.of_nat k =? 0)) (seq 2 (Z.to_nat (Z.sqrt n) - 1)).

Lemma trial_check_sound n : trial_check n = true -> prime n.
Proof.
  unfold trial_check. rewrite andb_true_iff. intros [H1 H2]. apply Z.ltb_lt in H1.
  destruct (prime_dec n) as [|Hnp]; auto. exfalso.
  destruct (not_prime_divide n H1 Hnp) as [m [Hm [k Hk]]].
  assert (Hk1 : 1 < k) by nia.
  assert (W : exists w, 1 < w /\ w <= Z.sqrt n /\ (w | n)).
  { destruct (Z.le_gt_cases m k).
    - exists m. repeat split; try lia; [|exists k; lia]. apply Z.sqrt_le_square; nia.
    - exists k. repeat split; try lia; [|exists m; lia]. apply Z.sqrt_le_square; nia. }
  destruct W as [w [Hw1 [Hw2 Hw3]]].
  rewrite forallb_forall in H2. specialize (H2 (Z.to_nat w)).
  rewrite in_seq in H2. assert (B := H2 ltac:(lia)). rewrite Z2Nat.id in B by lia.
  apply Zdivide_mod in Hw3. rewrite Hw3 in B. discriminate.
Qed.

Ltac small_primes := repeat first [assumption | apply Forall_nil
  | apply Forall_cons; [first [assumption | apply trial_check_sound; vm_compute; reflexivity] | ] ].

Lemma prime_93001 : prime 93001.
Proof.
  apply (pock_check_sound _ 44651 [31; 5; 5]); [small_primes | vm_cast_no_check (eq_refl true)].
Qed.

Lemma prime_173171039 : prime 173171039.
Proof.
  apply (pock_check_sound _ 16359965 [13327]); [small_primes | vm_cast_no_check (eq_refl true)].
Qed.

Lemma prime_639533339 : prime 639533339.
Proof.
  apply (pock_check_sound _ 569936353 [1637; 853]); [small_primes | vm_cast_no_check (eq_refl true)].
Qed.

Lemma prime_1263766531 : prime 1263766531.
Proof.
  apply (pock_check_sound _ 11725631 [3557; 911]); [small_primes | vm_cast_no_check (eq_refl true)].
Qed.

Lemma prime_12048837557 : prime 12048837557.
Proof.
  pose proof prime_93001.
  apply (pock_check_sound _ 9314271357 [93001; 661]); [small_primes | vm_cast_no_check (eq_refl true)].
Qed.

Lemma prime_35385462869 : prime 35385462869.
Proof.
  pose proof prime_1263766531.
  apply (pock_check_sound _ 268435456 [1263766531]); [small_primes | vm_cast_no_check (eq_refl true)].
Qed.

Lemma prime_5156902474397 : prime 5156902474397.
Proof.
  pose proof prime_12048837557.
  apply (pock_check_sound _ 4746712836098 [12048837557]); [small_primes | vm_cast_no_check (eq_refl true)].
Qed.

Lemma prime_1670836401704629 : prime 1670836401704629.
Proof.
  pose proof prime_5156902474397.
  apply (pock_check_sound _ 11046204280772 [5156902474397]); [small_primes | vm_cast_no_check (eq_refl true)].
Qed.

Lemma prime_2480874801745591 : prime 2480874801745591.
Proof.
  pose proof prime_35385462869.
  apply (pock_check_sound _ 1241451147209469 [35385462869]); [small_primes | vm_cast_no_check (eq_refl true)].
Qed.

Lemma prime_65865678001877903 : prime 65865678001877903.
Proof.
  pose proof prime_639533339.
  apply (pock_check_sound _ 8595199928015311 [639533339]); [small_primes | vm_cast_no_check (eq_refl true)].
Qed.

Lemma prime_13818364434197438864469338081 : prime 13818364434197438864469338081.
Proof.
  pose proof prime_65865678001877903.
  apply (pock_check_sound _ 7935281130018080704632618576 [65865678001877903]); [small_primes | vm_cast_no_check (eq_refl true)].
Qed.

Lemma prime_13427688667394608761327070753331941386769 : prime 13427688667394608761327070753331941386769.
Proof.
  pose proof prime_173171039.
  pose proof prime_2480874801745591.
  apply (pock_check_sound _ 1514272753416439075498401041775419479098 [2480874801745591; 173171039]); [small_primes | vm_cast_no_check (eq_refl true)].
Qed.

Lemma prime_Order : prime Order.
Proof.
  pose proof prime_1670836401704629.
  pose proof prime_13818364434197438864469338081.
  apply (pock_check_sound _ 4067217240286848671452265983065331897323918408910809300406102239489012348584 [13818364434197438864469338081; 1670836401704629]); [small_primes | vm_cast_no_check (eq_refl true)].
Qed.

Lemma prime_P : prime P.
Proof.
  pose proof prime_13427688667394608761327070753331941386769.
  apply (pock_check_sound _ 20520420087326380218354900027015874311863624918437260220194913954166250002289 [13427688667394608761327070753331941386769]); [small_primes | vm_cast_no_check (eq_refl true)].
Qed.


(** Every point of the twist killed by Order is a multiple of its generator.  Otherwise the generator, another
    such point and a point of order 10069 would give 3 Order^2 points, more than the curve over Z/P[i] can have. *)
Require Import ZArith NArith Znumtheory Bool List Lia Setoid Morphisms.
Require Import Verif.Cong Verif.Ext Verif.FqModel Verif.Pocklington Verif.TowerModel Verif.TowerSpec Verif.TowerProofs Verif.FieldProofs
  Verif.FrobProofs Verif.CurveModel Verif.CurveSpec Verif.JacProofs Verif.AssocProofs Verif.CurveGroup Verif.CurveProofs
  Verif.OrderCheck Verif.OrderCert2 Verif.OrderProofs Verif.PointCount Verif.SerialProofs.
Import ListNotations.
Open Scope Z_scope.
Local Existing Instance apoint_equiv.

(** ** Counting subgroups. *)
Section Count.
Variable R : cring.
Hypothesis F : is_field R.
Hypothesis two : ~ (c1 : R) +! c1 =! c0.
Hypothesis three : ~ (c1 : R) +! c1 +! c1 =! c0.
Variable b : R.
Hypothesis nonsing : ~ b =! c0.
Local Notation on := (on_curve b).
Variable code : apoint R -> Z.
Hypothesis code_inj : forall s t, on s -> on t -> code s = code t -> apoint_eq s t.
Hypothesis code_eq : forall s t, apoint_eq s t -> code s = code t.
Local Notation SC := (sum_cancel R F two three b nonsing).
Local Notation EX := (sum_ex R F two b).
Record subgroup (H : apoint R -> Prop) : Prop := {
  sg_on : forall s, H s -> on s;
  sg_eq : forall s t, H s -> apoint_eq s t -> H t;
  sg_sum : forall s t u, H s -> H t -> ct_sum s t u -> H u;
  sg_opp : forall s, H s -> H (opposite s) }.
Definition counted (H : apoint R -> Prop) (n : nat) : Prop :=
  exists l, length l = n /\ NoDup (map code l) /\ forall s, In s l -> H s.
(** The coset of u: as many points, each the sum of u and one of the list. *)
Lemma coset (H : apoint R -> Prop) (u : apoint R) (l : list (apoint R)) : subgroup H -> on u -> (forall s, In s l -> H s) -> NoDup (map code l) ->
  exists l', length l' = length l /\ NoDup (map code l') /\ forall s, In s l' -> exists h, In h l /\ ct_sum u h s.
Proof.
  intros G Ou. induction l as [|h l IH]; intros HL ND.
  - exists []. split; [reflexivity|]. split; [constructor|]. intros s [].
  - cbn in ND. inversion ND as [|? ? NI ND']; subst. destruct IH as (l' & Ll & NL & Hl); [intros s I; apply HL; now right|exact ND'|].
    assert (Oh : on h) by (apply (sg_on H G), HL; now left). destruct (EX u h Ou Oh) as (s & S & Os).
    exists (s :: l'). split; [cbn; lia|]. split.
    + cbn. constructor; [|exact NL]. intros I. apply in_map_iff in I. destruct I as (t & E & I). destruct (Hl t I) as (h' & I' & S').
      assert (Oh' : on h') by (apply (sg_on H G), HL; now right). assert (Ot := sum_on_curve R F b u h' t Ou Oh' S').
      apply NI. assert (Eq := code_inj t s Ot Os E). assert (HH : apoint_eq h' h).
      { apply (cancel_l R F two three b nonsing u h' h s); auto. now apply (sum_eq R u h' t s). }
      rewrite <- (code_eq _ _ HH). now apply in_map.
    + intros t [<-|I]; [exists h; split; [now left|exact S]|]. destruct (Hl t I) as (h' & I' & S'). exists h'. split; [now right|exact S'].
Qed.
(** If no multiple d a with 0 < d < n lies in H, the n cosets of 0, a, 2 a, ... are disjoint. *)
Lemma cosets (H H' : apoint R -> Prop) (a : apoint R) (N n : nat) : subgroup H -> on a -> counted H N ->
  (forall d s, (0 < d < n)%nat -> multiple a d s -> ~ H s) ->
  (forall i u h s, multiple a i u -> H h -> ct_sum u h s -> H' s) -> counted H' (n * N).
Proof.
  intros G Oa (l & Ll & ND & HL) D C.
  assert (K : forall k, (k <= n)%nat -> exists l', length l' = (k * N)%nat /\ NoDup (map code l') /\
    forall s, In s l' -> exists i u h, (i < k)%nat /\ multiple a i u /\ H h /\ ct_sum u h s).
  { induction k as [|k IH]; intros Lk.
    - exists []. split; [reflexivity|]. split; [constructor|]. intros s [].
    - destruct IH as (l1 & L1 & N1 & H1); [lia|]. destruct (mult_ex R F two b a k Oa) as [u U]. assert (Ou := mult_on R F b a k u Oa U).
      destruct (coset H u l G Ou HL ND) as (l2 & L2 & N2 & H2). exists (l2 ++ l1). split; [rewrite app_length; cbn; lia|]. split.
      + rewrite map_app. apply NoDup_app3; auto. intros e I2 I1. apply in_map_iff in I1, I2.
        destruct I2 as (s2 & E2 & I2). destruct I1 as (s1 & E1 & I1). destruct (H2 s2 I2) as (h2 & J2 & S2).
        destruct (H1 s1 I1) as (i & v & h1 & Li & V & J1 & S1). apply HL in J2.
        assert (Ov := mult_on R F b a i v Oa V). assert (O1 := sg_on H G _ J1). assert (O2 := sg_on H G _ J2).
        assert (Os1 := sum_on_curve R F b _ _ _ Ov O1 S1). assert (Os2 := sum_on_curve R F b _ _ _ Ou O2 S2).
        assert (EQ : apoint_eq s2 s1) by (apply code_inj; auto; congruence).
        destruct (mult_ex R F two b a (k - i) Oa) as [w W]. assert (Ow := mult_on R F b a _ w Oa W).
        assert (VW : ct_sum v w u).
        { apply (mult_add_inv R F two three b nonsing a i (k - i) v w u Oa V W). now replace (i + (k - i))%nat with k by lia. }
        destruct (EX w h2 Ow O2) as (x & X & Ox).
        assert (VX : ct_sum v x s1).
        { apply (sum_eq R v x s2 s1); [|exact EQ]. exact (assoc_r R F two three b nonsing v w h2 u x s2 Ov Ow O2 VW X S2). }
        assert (XH : apoint_eq x h1) by (apply (cancel_l R F two three b nonsing v x h1 s1); auto).
        assert (Z := SC w h2 x Ow O2 X). apply (D (k - i)%nat w); [lia|exact W|].
        apply (sg_sum H G h1 (opposite h2)); auto; [now apply (sg_opp H G)|].
        apply (sum_m R x h1 (opposite h2) (opposite h2) w w); auto; reflexivity.
      + intros s I. apply in_app_iff in I. destruct I as [I|I].
        * destruct (H2 s I) as (h & J & S). exists k, u, h. split; [lia|]. auto.
        * destruct (H1 s I) as (i & v & h & Li & J). exists i, v, h. split; [lia|exact J]. }
  destruct (K n (le_n n)) as (l' & L' & N' & H'l). exists l'. split; [exact L'|]. split; [exact N'|]. intros s I.
  destruct (H'l s I) as (i & u & h & _ & U & J & S). exact (C i u h s U J S).
Qed.
Lemma trivial_sg : subgroup (fun s => apoint_eq s None).
Proof.
  split.
  - intros [[x y]|] E; [destruct E|exact I].
  - intros s t E E'. now rewrite <- E'.
  - intros s t u E E' S. destruct s as [[? ?]|]; [destruct E|]. destruct t as [[? ?]|]; [destruct E'|]. exact S.
  - intros [[? ?]|] E; [destruct E|exact I].
Qed.
Lemma trivial_count : counted (fun s => apoint_eq s None) 1.
Proof. exists [None]. split; [reflexivity|]. split; [repeat constructor; intros []|]. intros s [<-|[]]. exact I. Qed.
Lemma killed_sg q : subgroup (fun s => on s /\ multiple s q None).
Proof.
  split.
  - intros s [O _]. exact O.
  - intros s t [O M] E. split; [exact (on_eq R b s t E O)|exact (mult_arg R s t q None E M)].
  - intros s t u [O M] [O' M'] S. split; [exact (sum_on_curve R F b s t u O O' S)|].
    exact (mult_sum R F two three b nonsing s t u q None None None O O' S M M' I).
  - intros s [O M]. split; [exact (opp_on R b s O)|exact (mult_opp R b s q None O M)].
Qed.
Lemma mult_zero (a : apoint R) n m : on a -> multiple a n None -> multiple a (m * n) None.
Proof.
  intros O H. apply (mult_mul R F two three b nonsing a n m None None); auto. apply mult_none.
Qed.
Lemma gen_sg (g : apoint R) q : on g -> (0 < q)%nat -> multiple g q None -> subgroup (fun s => exists n, multiple g n s).
Proof.
  intros O Q M. split.
  - intros s [n H]. exact (mult_on R F b g n s O H).
  - intros s t [n H] E. exists n. exact (mult_eq R g n s t H E).
  - intros s t u [n H] [m H'] S. exists (n + m)%nat. exact (mult_add R F two three b nonsing g n m s t u O H H' S).
  - intros s [n H]. exists (n * (q - 1))%nat. destruct (mult_ex R F two b g (n * (q - 1)) O) as [v V].
    apply (mult_eq R g _ v); auto. apply opp_unique.
    apply (mult_add_inv R F two three b nonsing g n (n * (q - 1)) s v None O H V).
    replace (n + n * (q - 1))%nat with (n * q)%nat by nia. now apply mult_zero.
Qed.
(** u n = 1 + v m: killed by n and by m means infinity. *)
Lemma coprime_zero (a : apoint R) n m u v : on a -> multiple a n None -> multiple a m None -> (u * n = 1 + v * m)%nat -> apoint_eq a None.
Proof.
  intros O Hn Hm E. assert (A := mult_zero a n u O Hn). assert (B := mult_zero a m v O Hm). rewrite E in A.
  assert (C := mult_add_inv R F two three b nonsing a 1 (v * m) a None None O (mult_1 R a) B A).
  apply (sum_inf_r R) in C. now symmetry.
Qed.
Lemma small_mult (g : apoint R) q s : on g -> (0 < q)%nat -> multiple g q None -> (exists n, multiple g n s) -> exists n, (n < q)%nat /\ multiple g n s.
Proof.
  intros O Q M [n H]. exists (n mod q)%nat. split; [apply Nat.mod_upper_bound; lia|].
  destruct (mult_ex R F two b g (n mod q) O) as [v V]. apply (mult_eq R g _ v); auto.
  assert (Z := mult_zero g q (n / q) O M). assert (E := Nat.div_mod n q ltac:(lia)). rewrite Nat.mul_comm in E. rewrite E in H.
  assert (S := mult_add_inv R F two three b nonsing g (n / q * q) (n mod q) None v s O Z V H). cbn in S. now symmetry.
Qed.
Lemma point_dec (s t : apoint R) : apoint_eq s t \/ ~ apoint_eq s t.
Proof.
  destruct s as [[x y]|], t as [[x' y']|]; cbn [apoint_eq]; auto.
  destruct (f_eq_dec R F x x'), (f_eq_dec R F y y'); tauto.
Qed.
Lemma gen_dec (g : apoint R) q s : on g -> (0 < q)%nat -> multiple g q None -> (exists n, multiple g n s) \/ ~ (exists n, multiple g n s).
Proof.
  intros O Q M.
  assert (D : forall k, (exists n, (n < k)%nat /\ multiple g n s) \/ ~ (exists n, (n < k)%nat /\ multiple g n s)).
  { induction k as [|k IH]; [right; intros (n & L & _); lia|].
    destruct IH as [(n & L & H)|IH]; [left; exists n; split; [lia|exact H]|].
    destruct (mult_ex R F two b g k O) as [v V]. destruct (point_dec v s) as [E|E].
    - left. exists k. split; [lia|]. now apply (mult_eq R g k v).
    - right. intros (n & L & H). assert (n < k \/ n = k)%nat as [L'| ->] by lia; [apply IH; eauto|].
      apply E. exact (mult_unique R F g k v s V H). }
  destruct (D q) as [(n & _ & H)|N]; [left; now exists n|right]. intros I. apply N. now apply small_mult.
Qed.
(** The argument: g of prime order q, another point s killed by q but no multiple of g, and c with c, 2 c not killed by q. *)
Variable M : Z.
Hypothesis code_range : forall s, 0 <= code s < M.
Theorem no_room (g s c : apoint R) (q : Z) : prime q -> on g -> on s -> on c -> g <> None ->
  multiple g (Z.to_nat q) None -> multiple s (Z.to_nat q) None ->
  (forall d t, (0 < d < 3)%nat -> multiple c d t -> ~ multiple t (Z.to_nat q) None) ->
  M < 3 * (q * q) -> exists n, multiple g n s.
Proof.
  intros Pq Og Os Oc Ng Kg Ks Kc Big. assert (Q := prime_ge_2 q Pq). assert (Q0 : (0 < Z.to_nat q)%nat) by lia.
  destruct (gen_dec g _ s Og Q0 Kg) as [Y|NS]; [exact Y|exfalso].
  assert (A : counted (fun s => exists n, multiple g n s) (Z.to_nat q * 1)).
  { apply (cosets (fun s => apoint_eq s None) _ g 1 (Z.to_nat q) trivial_sg Og trivial_count).
    - intros d t [D1 D2] H E. destruct t as [[? ?]|]; [destruct E|].
      apply (order_div R F two three b nonsing g Og q Pq Kg Ng) in H. apply Z.divide_pos_le in H; lia.
    - intros i u h t U E S. destruct h as [[? ?]|]; [destruct E|]. apply (sum_inf_r R) in S. exists i. apply (mult_eq R g i u); auto. now symmetry. }
  rewrite Nat.mul_1_r in A. assert (SG := gen_sg g _ Og Q0 Kg).
  assert (B : counted (fun s => on s /\ multiple s (Z.to_nat q) None) (Z.to_nat q * Z.to_nat q)).
  { apply (cosets (fun s => exists n, multiple g n s) _ s (Z.to_nat q) (Z.to_nat q) SG Os A).
    - intros d t [D1 D2] H [n J]. apply NS.
      assert (RP : rel_prime (Z.of_nat d) q).
      { apply rel_prime_sym, prime_rel_prime; [exact Pq|]. intros X. apply Z.divide_pos_le in X; lia. }
      destruct (rel_prime_bezout _ _ RP) as [x y E].
      set (e := x mod q). assert (He := Z.mod_pos_bound x q ltac:(lia)). fold e in He.
      assert (Ee : (e * Z.of_nat d) mod q = 1).
      { unfold e. rewrite Z.mul_mod_idemp_l by lia. replace (x * Z.of_nat d) with (1 + (- y) * q) by lia. rewrite Z.mod_add by lia. apply Z.mod_1_l. lia. }
      set (f := (e * Z.of_nat d) / q). assert (Ef : e * Z.of_nat d = q * f + 1) by (rewrite <- Ee; apply Z.div_mod; lia).
      assert (Hf : 0 <= f) by (apply Z.div_pos; [apply Z.mul_nonneg_nonneg; lia|lia]).
      destruct (mult_ex R F two b t (Z.to_nat e) (mult_on R F b s d t Os H)) as [w W].
      assert (W' := mult_mul R F two three b nonsing s d (Z.to_nat e) t w Os H W).
      replace (Z.to_nat e * d)%nat with (1 + Z.to_nat f * Z.to_nat q)%nat in W' by (apply Nat2Z.inj; rewrite Nat2Z.inj_add, !Nat2Z.inj_mul, !Z2Nat.id by lia; lia).
      assert (C := mult_add_inv R F two three b nonsing s 1 _ s None w Os (mult_1 R s) (mult_zero s _ (Z.to_nat f) Os Ks) W').
      apply (sum_inf_r R) in C. exists (Z.to_nat e * n)%nat. apply (mult_eq R g _ w); [|exact C].
      exact (mult_mul R F two three b nonsing g n (Z.to_nat e) t w Og J W).
    - intros i u h t U [n J] S. apply (sg_sum _ (killed_sg (Z.to_nat q)) u h t); [| |exact S].
      + split; [exact (mult_on R F b s i u Os U)|]. destruct (mult_ex R F two b u (Z.to_nat q) (mult_on R F b s i u Os U)) as [w W].
        apply (mult_eq R u _ w); auto. assert (X := mult_mul R F two three b nonsing s i (Z.to_nat q) u w Os U W). rewrite Nat.mul_comm in X.
        exact (mult_unique R F s _ w None X (mult_zero s _ i Os Ks)).
      + split; [exact (mult_on R F b g n h Og J)|]. destruct (mult_ex R F two b h (Z.to_nat q) (mult_on R F b g n h Og J)) as [w W].
        apply (mult_eq R h _ w); auto. assert (X := mult_mul R F two three b nonsing g n (Z.to_nat q) h w Og J W). rewrite Nat.mul_comm in X.
        exact (mult_unique R F g _ w None X (mult_zero g _ n Og Kg)). }
  assert (C : counted on (3 * (Z.to_nat q * Z.to_nat q))).
  { apply (cosets (fun s => on s /\ multiple s (Z.to_nat q) None) _ c (Z.to_nat q * Z.to_nat q) 3 (killed_sg _) Oc B).
    - intros d t D H [_ K]. exact (Kc d t D H K).
    - intros i u h t U [O _] S. exact (sum_on_curve R F b u h t (mult_on R F b c i u Oc U) O S). }
  destruct C as (l & Ll & ND & _). apply (NoDup_bound _ M) in ND.
  - rewrite map_length, Ll, !Nat2Z.inj_mul, Z2Nat.id in ND by lia. lia.
  - assert (X := code_range None). lia.
  - intros e I. apply in_map_iff in I. destruct I as (t & <- & _). apply code_range.
Qed.
End Count.

(** ** The code of a point of the twist: x and which of the two square roots. *)
Definition big (a : Z) : bool := P <? 2 * (a mod P).
Definition root2 (y : gfp2) : bool := if fst y mod P =? 0 then big (snd y) else big (fst y).
Definition code2 (s : apoint FP2) : Z :=
  match s with
  | None => 2 * (P * P)
  | Some (x, y) => 2 * (P * (fst x mod P) + snd x mod P) + (if root2 y then 1 else 0)
  end.
Lemma code2_range s : 0 <= code2 s < 2 * (P * P) + 1.
Proof.
  assert (PP := P_pos). destruct s as [[x y]|]; cbn [code2]; [|nia].
  assert (H := Z.mod_pos_bound (fst x) P P_pos). assert (H' := Z.mod_pos_bound (snd x) P P_pos).
  set (p := P) in *. clearbody p. set (u := fst x mod p) in *. set (v := snd x mod p) in *. destruct (root2 y); nia.
Qed.
Lemma code2_eq s t : apoint_eq s t -> code2 s = code2 t.
Proof.
  destruct s as [[[x1 x2] [y1 y2]]|], t as [[[x1' x2'] [y1' y2']]|]; intros E; try contradiction; [|reflexivity]. destruct E as [[A B] [C D]].
  change (x1 ==[P] x1') in A. change (x2 ==[P] x2') in B. change (y1 ==[P] y1') in C. change (y2 ==[P] y2') in D.
  apply cong_mod_iff in A, B, C, D; try discriminate. cbn [code2 fst snd]. unfold root2, big. cbn [fst snd]. now rewrite A, B, C, D.
Qed.
Lemma digits_eq p a c a' c' : 0 <= c < p -> 0 <= c' < p -> p * a + c = p * a' + c' -> a = a' /\ c = c'.
Proof. intros H H' E. assert (a = a') by nia. subst. split; lia. Qed.
Lemma half_opp a a' : a ==[P] - a' -> ~ a ==[P] 0 -> big a = big a' -> False.
Proof.
  intros H N. unfold big.
  assert (B := Z.mod_pos_bound a P P_pos). assert (B' := Z.mod_pos_bound a' P P_pos).
  assert (S : a mod P + a' mod P ==[P] 0) by (rewrite !cong_mod, H; apply cong_eq; ring).
  assert (Z0 : a mod P <> 0) by (intros Z0; apply N; rewrite <- (cong_mod P a), Z0; reflexivity).
  apply cong_0_iff in S. destruct S as [k K].
  assert (OD : forall z, 2 * z <> P) by (intros z E2; apply (f_equal Z.odd) in E2; rewrite Z.odd_mul in E2; discriminate).
  assert (O1 := OD (a mod P)). assert (PP := P_pos). set (p := P) in *. clearbody p. set (u := a mod p) in *. set (v := a' mod p) in *.
  assert (k = 1) by nia. subst k.
  destruct (Z.ltb_spec p (2 * u)), (Z.ltb_spec p (2 * v)); intros; try discriminate; lia.
Qed.
Section Alg.
Variable R : cring.
Add Ring Rr : (c_ring R) (setoid (c_equiv R) (c_ext R)).
Lemma roots (x y x' y' b : R) : is_field R -> y *! y =! x *! x *! x +! b -> y' *! y' =! x' *! x' *! x' +! b -> x =! x' -> y =! y' \/ y =! -! y'.
Proof.
  intros F A B X. assert (H : (y -! y') *! (y +! y') =! c0).
  { transitivity (y *! y -! y' *! y'); [ring|]. rewrite A, B, X. ring. }
  destruct (f_integral R F _ _ H) as [E|E]; [left|right].
  - transitivity (y -! y' +! y'); [ring|]. rewrite E. ring.
  - transitivity (y +! y' -! y'); [ring|]. rewrite E. ring.
Qed.
End Alg.
Lemma opp0 a a' : a ==[P] - a' -> a ==[P] 0 -> a' ==[P] 0.
Proof. intros H K. transitivity (- (- a')); [apply cong_eq; ring|]. rewrite <- H, K. reflexivity. Qed.
Lemma root_opp (y y' : gfp2) : fst y ==[P] - fst y' -> snd y ==[P] - snd y' -> root2 y = root2 y' -> fst y ==[P] fst y' /\ snd y ==[P] snd y'.
Proof.
  destruct y as [a c], y' as [a' c']. unfold root2. cbn [fst snd]. intros Y1 Y2 EB.
  destruct (Z.eqb_spec (a mod P) 0) as [F0|F0].
  - assert (Z0 : a ==[P] 0) by (rewrite <- (cong_mod P a), F0; reflexivity). assert (Z0' := opp0 _ _ Y1 Z0).
    assert (F0' := Z0'). apply cong_mod_iff in F0'; [|discriminate]. rewrite Z.mod_0_l in F0' by discriminate. rewrite F0' in EB. cbn [Z.eqb] in EB.
    destruct (cong_dec P c 0) as [Z1|Z1]; [|exfalso; exact (half_opp _ _ Y2 Z1 EB)].
    assert (Z1' := opp0 _ _ Y2 Z1). split; [now rewrite Z0, Z0'|now rewrite Z1, Z1'].
  - exfalso. assert (N0 : ~ a ==[P] 0) by (intros Z; apply cong_mod_iff in Z; [|discriminate]; apply F0; rewrite Z; reflexivity).
    destruct (Z.eqb_spec (a' mod P) 0) as [F0'|F0'].
    + apply N0. rewrite Y1, <- (cong_mod P a'), F0'. reflexivity.
    + exact (half_opp _ _ Y1 N0 EB).
Qed.
Lemma not_inf p u v (c : bool) : 0 <= u < p -> 0 <= v < p -> 2 * (p * u + v) + (if c then 1 else 0) = 2 * (p * p) -> False.
Proof. intros. assert (p * u <= p * (p - 1)) by nia. destruct c; lia. Qed.
Lemma code2_inj s t : E2 s -> E2 t -> code2 s = code2 t -> apoint_eq s t.
Proof.
  assert (PP := P_pos).
  assert (NE : forall (x y : gfp2), code2 (Some (x, y)) = 2 * (P * P) -> False).
  { intros x y E. exact (not_inf P _ _ (root2 y) (Z.mod_pos_bound (fst x) P P_pos) (Z.mod_pos_bound (snd x) P P_pos) E). }
  destruct s as [[x y]|], t as [[x' y']|]; intros O O' E.
  - cbn [code2] in E. destruct (half_eq _ _ _ _ E) as [EX EB]. clear E.
    destruct (digits_eq P _ _ _ _ (Z.mod_pos_bound (snd x) P P_pos) (Z.mod_pos_bound (snd x') P P_pos) EX) as [X1 X2].
    assert (X : x =[FP2]= x') by (split; apply cong_mod_iff; (discriminate || assumption)).
    split; [exact X|]. destruct (roots FP2 x y x' y' twistB FP2_field O O' X) as [Y|Y]; [exact Y|].
    exact (root_opp y y' (proj1 Y) (proj2 Y) EB).
  - exfalso. exact (NE x y E).
  - exfalso. exact (NE x' y' (eq_sym E)).
  - exact I.
Qed.

(** ** A point of order 10069. *)
Definition tor_x : gfp2 := (0x1f1939a35248c05963dc28c492bd5496d0ee07203ed62a4646610343b7f519d1, 0x163b1e6d53c2b9384d7a50f52db7a5f3089a85d87695f7b4f0dfb367204e3d74).
Definition tor_y : gfp2 := (0x5b7ee9fa25c610b779f046afe61bc518aac03cdfed3a82e1851d413bf4e56e1, 0x20616720904c4e3ec2056718d1a8fd28cb3978424461aec3ed1ee4534b60ca11).
Definition cert_tor : list (op gfp2) := [
  OD (C (0xbc325f286409e461d9aeef22561ef41dab472f9ffc8e0760398eaa98263942e, 0x135c792fcbcf0030b1594ddd46b57c60d8f403a1ebaa7842ba7ed4733b215b06) (0x8d0cc76aaf524be22560ec1044de9b0fd837eb6b241c121628d9bc847b4466e, 0x1022410bbb735546d88f7342adcd66e19b8528560a1089299c1975f5b43bd07f) (0x2f53c83992d9cadb0e245ce245a71e9f0ab1015a1a875a15d3eaaf03cf29186f, 0x3c14562c306444fd6004ba7e6fc9d9adcc2edff6cdf5496c918b8f4a0a9dd8c) ((-0x4166ee1a9aa3d083e6663bdc1ed3f02e4669953aca61ae4b8a2f0b199a575bf0), 0x34729cd6ab71343c692039f4534da05cb7d35fee1f207a75d60b7f6046bfc645) (0x9697a5fe2b5526d22958b3575d4523e2da7e381249ccccb5bc62188dc821f28, 0x4e32617cfe718460cec04f091aec9e81c75fe9a327f1f7c1b8c1689e5e5343f) (0xa65b0ad2ed0f3a048fd2c7be0baa809f1a3983ccc30bb0771b4f726ad4385b8, (-0x2fa0c633669d8592e0d1199a774d5dff0f7f77caa43f43719b25fd6adcb408f)));
  OD (C (0x2d91777c933261318ac6a00b2943c7e15e711212c5e6afc0205a920a13cf3f6c, 0x216d4d0302e7b872b2474fae2551487cbbb22c3833d5ea16e3c787aeb5dd3247) (0x140b54ba256a1f443226429b1db74548eba6e96f4e953482cafeca9a55fa5b18, 0xec604cde32a292c45a5aac1aa0f2b07adf31ba562a7b40b6bda9254b42ab1c0) (0x88dbcadc476b5ab5b149e8f580bce0c80ea6c736d9b604380a29d3ee5f1a873, 0x28b79048d9c267b2fdcb58c8f370f4fac5a06537dde3d5d160fe1035cb451279) (0x36d1fa70e01f45a37ed12d244ecd2defd6a6c5732bc3606f98b7e28e8d630c8a, (-0x5f4360c2dbbf148c220ef651f5b96450c5096041ba8469e957f92b55c20f8291)) (0x3ef3fd4f807a91c12138d49fc36f22bc2ebeb985980ca5acfe367958811b846c, (-0x13d1cb4e5955127b62a79824dbf54bc7a144a837adf957f06545e59017bf5cfb)) ((-0x679af5d062636511552cbf787de7b5d98eec3b270093a42f94931bfd06d7fec), 0xb835a6dc6c490795f92025a718b7c7ce14ad460e226d241904ab0224c891df4));
  OD (C (0xb4dad7ce676195c6555e460f74b6f1a56b1aa66a31732cf74ece9f85fc86dc2, 0x11a2a2ed076fddce29310d50864553b00961eead6cbf45da7bbda0f403e2120d) (0x1e073762875cc5dd606edef837f6dfe2804edcc94bb9802315cba9ced3270574, 0x1012751de29ce6b47e2f652153968e9ad47f42779738b5c98e4f47d32e9bf69c) (0x4e092c5cefd23c8f6461b5c0edcf59a9c6303e055d2ae1c8290cce979a64d0d, 0x117e9805be8b09143eff7cd0a4d4db4b7c6b7d0884f2964a963e9a62ba353b56) ((-0xb75bee293384d98354ea643a11aad01066e6ff53b15144e919eded05af5fca2), 0x250ec6a804d177bb43caae84d6be26a5742d37113cdb080c3356774e08630252) (0x83d11eb2fd11374d36f1f236f6ca1e2355f82637c88d6fc96139506fe7e8570, 0x3c958e95a3e12fd3b6e6e4ead9c2fb197e162eee081292d18b9ab832f1af0af) ((-0x3f115f51f1fca07e4afac04b8f26fbe7fc7ec322a69e8b5bb7edc9ecdfffbfc), 0x1dbdb852b456dcfe07774a4a48cb409dcd0f3fe16ce1519bbfc29eb0b1083db));
  OA 0 (C (0x2dbb86573bcd4b5a9e06ed4f7849c66bc21cf75d15790e68b07adae3a14c3562, 0x2b90450ad1e3c294fd6fbfa789a10d26494d3a983daefec7d3c1050f4ba878e8) (0x4de8dda4146a077ae5deeb1a324c7720176682ffacebe9c692495c88f1d90ac, 0x254db9bdea8e02b9cd4955cd4481bf2fc3264e5f5729b3f72cc3060f67b5199a) (0x30a67347c06412e432d872f24ac22bfa4762f205d87c951e0ff3e716eab4b78, 0x135e504028c6eef21b2ade668333d11c7a0879e8d241ec795c52504257d76495) (0x6c8b01b24ea28e3f561c6562890f37997efbf23c45b0fe8da213b17eacbdfbc, 0x48866577c6e6ccf5dd49aa7a0b1e8643e19436d3b35807b9ace6d186e26cdbd) (0x5256d347c42d32e7d253172737104d07c45732bbdf4d3410836a7f51e24bfc59, (-0x40098bbaad6d0d27451a8bbb22b86c3bf376c39323b2b6d2dc52b8fcf0d22a2)) (0x29577c6c5963823ac30fd650c1b79799ec03f76d8dd36b77b08c42db6391609, (-0x2ae3b12104b24c8977cb2cceb48b0074d0f0c0a1fbb0677b7e01426b4c60f17d)));
  OD (C (0x2c8bc17cca1a897b60e2c06348f6e81c02c9453ac226d97713d2516841b432c3, 0x2daf59025e1638ca498fd21a1229cd45ba07d6efaee605bdb34f6a1d21dfc28e) (0x22053078e7080a5eafe448f13872b80b4f67a2be94d601b0b4838e0528417e7d, 0x1dbd351fef4005800a9b8778343bdf57b9c1d9e349e6d9715ed6afc6cc001406) (0x14de6ae12ddc5958a1240502ca53d457077d1959a9ebb857df3b109e75b4eb25, 0x1e7c83130a93f7fa99ab3d197dc6fd0340a998c332f7a4410dadc414f396e998) (0x12e0ad585ff971443f135a4b1f57e64ec258225bc3203e0ad6a7571fe3fe8142, (-0x35d3895c554e67ced17eb8f1b4e5481dabdde6aa0912a8239d587fb45ac84340)) (0x541bbd21bfde32c8030dc04ac00fa93e90fb5ab9e3bba570f691f23307c38309, 0x21fb2f83852ad211ac7749e0565cb76dc0d92e689b4618d21631958c42ca577) ((-0x148e9628aff0c0576d14c6556c9278cc396ef1fde93aedb46407118d98f45a39), 0x21f9be89fb2138f7ed453d084b1ea967bf58bfb0faf95803254869f29cb81bf2));
  OA 0 (C (0x27b06bde889bcd86f992a43826c2e195335c58fcb93822bcbadd3d5763d40983, 0x1daffe14fe0a41aa624a555a1a69f3b1f58e58ec6fa5ad71cffd76b4939b9fd8) (0x2cbddf7a40b1f07336b1117dbf780798bcdea2f1652c3de8014a5aa7835c29b3, 0x16106df17641f8452f133f84e68e41addda9dabb517a77dc54ba627ff5aba699) (0x30050f7a15bfe9b31723863ed1c6ce41b7a67a94e43f46149969adc1e2df46a0, 0x2a44d57668722d6c64e065eea1a3ef098623ce1dd60feac66bc5e941c2499deb) ((-0x7f34958d7f714c70dc5f6cbe101e3f61fd30499b510b3b31c41db66ae38a4de), (-0x235b691ed54aadd14a4a22fbbd71fb84c1a59f52e3c641b061a840786f207b3)) (0x30b27439f13f2f43f451f03bd941b67ddf8a54fb62083940defe9c02c1fe7df9, (-0xe56bdf0a80681cf21a7ee84b5e7d669f073d975d1ae4ea0eb8226d274edbc44)) ((-0x485ff71fddc539ff6ffd769e03503e830906fb0e136be5703b1cd3d2200502), 0xd8070b19ae0759fb588f19ae383d235467e792d2b117f09ae61e457bcd1fcb1));
  OD (C (0xe19fe4dbf394fb5da2332591c313111bd70af6937d4fa9c9dcd69ca98b33adb, 0x2eaa89d7d6e0862ace42fa236a85434befca5af948990f7e59414d79660aefce) (0x278ef6025cdf49e21554d1fce1ac7d72820fcbc0cc04a3f4f47c5139e1f8df07, 0x24a2f26978074d766662090ed083a7eeebacfdcefc744089591db3a989d4413) (0x1ce690c0f20ca65912e7eefe033479e9c9d167cdcb1c3caf433365fc1d603d8e, 0x255d75092bd0311fc35655ea7fa41b7fec959140432458bfb395ea307e396624) ((-0x5266ca4f09248ff34709228b7d156a10044b46bf3fc831d3d4698e4e23a1730), 0x9375095a62930b69361f8829ad6d600f9246cf35d47201469d66238beaa23384) (0x1b32857d91debb14ab57e03a8488ac6574321f1ec38f0f0ec96fa1e20af55741, 0x28e48f5985446f4cf9d135abb404ee1cfb62c3c5ab094ea4a5188edab7aff0aa) (0xac2bfca21e2ab9070037c097b486a0210fcea8a46d3dd451e251ae591d95c44, 0x118f0f05e34d914feaf783c163949e1c1df2b5db1f775841805e64bab349c2d7));
  OA 0 (C (0x23fd37a2822612007fa0a76a578ebd9586bcf03df6f169444d5cf53ef87b9287, 0x1ba06bf330903dcc1d8a47a37e6fcc1289299366a3e3a27c21ebd0a07a77ff70) (0x1a358a7417c61a3d0c6f0cb81a804180993b84c88aad3e8c6a994616d05a8bd2, 0x2c25ceac518169855c35b2b9d6b3bc146005bf950d45894487a86ff214fb69da) (0x2ac44ff40e14407c76ff35876d3f8cf7a24012319be08354b09762d11ea89a11, 0x26027835ef2155b2b14a29302d6ce7ff9e9b75f2d3ff9506e15b5d0ca7be20d6) (0xa00256cdc07125f02aa0f7b46af4bc3949a93804b241fdbe69702f75fb6572c, 0x11ad0b8c517148066a52243f4e1d07490075d4473bc7515f820bcdd9f132819b) (0x29178f0217ad160dbebf4643f4cdf8801193862ab7072da0dfe53ad3325be3da, (-0xafe48f5ff7e5f4d9218e2469117b0386ee91826836e6086cdd1210033fff6de)) ((-0x17824010c98c32f84e11a92c2476583b65818b124f670527619772982447a5a0), (-0x21d30a37126df5f7f378dec116e2739e411466532fc9469be561ce82deadb89b)));
  OD (C (0x1fc6f309282a36e054b28ee4bd7a4974d8a8631b2dc03ed8e36b1b71b3b23d92, 0xec296d15c978f25756d2d3a669dc874ff84cf8e20ee815812e65192c322e287) (0xdcce8fbed7d54cea7382a3b4c93cae7eca3e19fdb1ace1c5a8358a2c2778760, 0x276a50bb51b455ce6f4b13f0dcdadf57092e1f71703633ab67fc806d18075061) (0x50cab58baa38004f7db1c90e980c6c3649c07b2d14a2e587203483320f5925d, 0x1d56331f93e2edda08ef969cc198f6615cd58803c6677fa19747aa4f9ab2c645) ((-0x4374811e0ffc8f709a4c1b0814d8b63542deec7beaa9b9dd5ba13f59f88dba7e), (-0x6f38f61bfbd9372ce15db5bccc18cbf9832d071cd7bd50787a1638135bb9edb0)) (0x136286077695915d547bc3408e91d007032306394a9daf20375a2de722bcbb48, (-0x105d6858e9a9221b7f3bb5bed6739148b08ddfb1494914be547582a1b3daca98)) (0x6e47474f64c5a1cf65d7ec7bdaef80d74f268f9ce9c48e3f4b18a9014a2c7be, (-0x6b47515fbf12877f167eaff24f175e656740b20d43dd2853d5df4d64cd24430)));
  OD (C (0x237015fac1db41ff6f035d9506d450cda42cd18755a10604186bca36552996f7, 0x157ddda91d5248fc0f3ea92d5853fddf5fbba702172091001258bbcf9b5a3290) (0x27ad04844550f2592b880822f9e265d9ef52e66ec0959ae1534aa97e58f70d14, 0x1ec1691c0b371aeb1a3a5b37ac53272dfd441ce7e92c699ca6fed3cda6800021) (0x29749e3e2e6e2d81475384f541de437285e849ab2034fa6e17ae2a13574f050a, 0x2c9ce681b4afd91600ddabdaaeca17edace7bf3d3dabbad213c0c57058bd92dc) ((-0x13fd9c312eb2b2957b988af812c3eebb3748ea6ef53f53b1a7d43283c20baeb6), (-0x41d7abdfc52b1551c811615ecd2fabaddc0a417112458d18c13330ddc68b5b9f)) (0x1f7a25b9f81882b7b51a24ed918a631006c97a6e4e867d7110048084a8ec6f94, (-0x10681b6af2a4980eb1cec41805b663ba9d8b198d08c4cfff849741e3fa3ac62c)) ((-0x5266bb8c54ea28f14aa8a1bc87a2228107fdb3f408264da7489c2fd6bcdf961), 0x16cb7834f76fef2bbcfe772e9a0bd753c31bfcde89b2ccf88d9b35df73b8999d));
  OA 0 (C (0x45bfcd323a1f8a0944c858f7cadf9107a6441d878740eac6c412b72fa2157bc, 0x1fd3507d3aa4a8ab127765deae5e62335904deda903026fa7def9541daf5113e) (0xe6ada9eb24cceceaceaa29e2e039af8e9c8236cd9ceed1b1457ab67509c88ca, 0x31b36e46bda7dbda047efefc7b70c22ab588a3f039590ebe5504345e7cc260e) (0xb8b924b9b57b6421bc06235adf2753cf972a3d11739771f6e426907322bd7af, 0x2d908ba9f664e85371256bd8026d312621a6948392b9734f3a1ac2ca5bc9e98) ((-0x668ad9413f82960cdf35ef5f67f4d2b4e598a514a5827f2edb620f083a0407b), (-0x4d5676b0aab65342af1b242973499522a46835cd62899c6646c2fe1dd1ac861)) (0x5bbe2720c185191c207e6996fee29340ef2f69eab6c2926fddab9082cb8ca17, 0x1489a4d6a883c7f76db67b0c35524e3877fe949601638b595469d0e9b9d2c4a7) (0x131a2e0fb5dd66c694a7c4da53e65a6cf69fc7f4ef726085f1528e85a8aa9421, 0xfe88f905cfc53e041be9055ba10b7038288b3531ba3eb5ef2185f6932f72ac2));
  OD (C (0xb7eb5776a1b5a8fabf58dea9ba8ee857d846e9001e5a2bb6a2434b5f6ab43ed, 0x11eb5ec690fb3b6d7e8f5e101a9db8814307ea91e16e6794e30b606a334cde35) (0x165f8007576066eb9e5a712a76bde8e968dbd10d215ebb7eeddc6171d889830f, 0x2c31722a4ababa541ac72c74202d70e8364810db27a4954817d1a74c166a6787) (0x60d4caf7d70c3ebc4c86264abea0e6f33544a4e513e4bb5ad91714bbc8c4d42, 0x124e46c795bd4aaebcd1945f95f6056bc90aaadbc542d89bec69d98ee1ee5789) (0x459b93e20c72dc2b731e7fef458bd2f6f40a577968bf9beae3c1dc02ccbec72, 0x8e982672e9d56d4367b7c4df93ff7b673c2a4667718ab926a22a0bc57540be6) (0x8835c5fe02f987e28c5f377b71f03be3ebc35703d74d55937541f9b1880d009, 0x3e7afe5a8fcbc4a8b8a5525db0e46bc0c600d20a3e12b1e1ebde488f242392b) ((-0xcb4a8d6255691fbbce9739e965b49f32d1b71f54bf1301b7a652965c0a65649), (-0xd5319e071aeb51daa3dac455c0809dc67c94b4bfe8ebb4a3ece41f4f26c56cb)));
  OD (C (0x20fcc7791249756e163528860e846dbd1266883343ca6be1038319541bfc1e85, 0x2da39802084140e19930e866f2dfb5435ff4fcbf43a413991a4854656517a3f3) (0x2b70337f12494bb807f705add327bb57a616f89959dc2fad788bf80a2027def7, 0x1614f59a53e333ed79566e45a509f508760044fea85247ace59c01a53e27a1a3) (0x1f1bb3f4975a1b3fca458da23f1d1811b8a4dd615176ecd1ef2ae988881ddced, 0x2592d30cf5d94a140d6819f075899282cdbd1354fdfe47c973a5b6cfd1c98baf) ((-0x5637ff453fb36182266b3226b541577a4942bfd0a128e0d50c9694210774adb0), (-0x3fc45e8aed8177fc95852539b8cd463c6e714b3b0afa87eb70f9926cdef3ce22)) (0x3e38ca654c3f46a4e49b0f44a320d43205b62c53f450bf65bf0dc8d1a593fbcf, 0x148e632e6849fcf255a61ec35623d57aca356bb73eb17d2ce103e33795d525a9) ((-0x4cb551486feb69386d213c680c3bccd892eefd1903d79a76c4052d5e283b5f5), 0x23368c8a74d5b70df587bbc303fd07c887c90c6fa339db3c4c5c9af9ade0e064));
  OA 0 (C (0x4dd63545e369e6c4d5ed7f780f5f7871373b0e98c2d9f801992e61b5f52868d, 0x219504a764da4f6e0266861c1e8768cb8622944c00bcfd1a8a9fb92780c494d0) (0x22ff4cbe5648b6395e378bd5ed48e540752a8ce82340eb1907660cd50bdc483b, 0x22c420cf97aa03fadc4f875a2fa9d7db5df781c134bbb7bed6bf13a74505d3ff) (0x38301aab322e813644fcc6890b9ae64122822330179c424239cad02597e4411, 0x24fcb907e7e4c704577d72c015668d3627a26ee785330a50aa327250157e1f7b) ((-0x88c5fcef3189d5cdf91df6db03a601d29e4b6ad0efc04ef5997a8ec315a3111), 0x1580d0a7724546f847f8decdfd59ee2e47ecb201a5262aaf5aa2a2ffd2ac9c4) (0x6c08137fca7b04ae1a0c35de06c18c12f526bc8b379b9ce0cb16471264ced7b, 0x16d0cf12e16e0fc92f07423f9a3d6ffbcc55d75af3f53dbbb9c8645f6db0ce37) (0x49526057a43210c3647ac1cec8869276bf567764b1b94c198f8bc668f42b73a, (-0x9a6a594e5bfd0ebf2e2f0efcd53cea644c4ce00a93f57a344bd3e9aa02bd3da)));
  OD (C (0x176526713cc0a0bc95e27cd7f7e51bfb41b80c6588f687250dca916a14c15fe7, 0x1b798168eed85ef5d5da198ff888af2587b655bae31719683cafa12cbec1afcc) (0x1a154b8251342ca3f160b0e52ed5c79e4bb62311f06686727775b88a6660d135, 0x118584d59bb9f25f9cd234e3912dcef9308581d366d09eeaadecf7be447f5330) (0xc600b9c5ef0427f8051a3b306c6b5c62033d461a9fb61a70910784cc26225c1, 0xfe8a0f24871affc69e41514682729a4d6e11e508932212baac56540dc1928fd) ((-0x6f1b980e17f8f493a6a70cf2ca1f103089f1bf98d757e8f9fa23d5168e225614), 0x279a7635616ef83391c859cc6ff2b012668ceb28366c3c24e06dabb9643fa5ce) (0x1a90b91ac9679fdcc60d950a808bbf6611fb0f0263a90866e4fc026c1247de1b, 0x449d502187128f11fa73a386fa95a4eb586c5603c12f89cc35a06377315a007) (0xd65de1dcdc7d1a907636038b141c5393f527a80b7cb0e80cd61e349611988c9, 0x57b2bb5cb505c042acda7026a01a0c572f0caac1f2b24cc6551fb1fa66b5b5e));
  OD (C (0x1b6214d81834c2a239b7d33f15b1def118ebbed5706c1ceaa19cdfb043c51eac, 0x25b1d9618ccd7876dcfa157bcb5079c5c33ec4dd1a1203faa8dfd0dc789bf409) (0x2e098acb64c723deedcfaaad133aae7990faf20067001226a87ec8288cd01e31, 0x11a0387ab1e8d7726d7a26877c45ce9ad6b28779eeb424d42f8cf194d2840c8) (0x2c449dd3f0c7ce22fce13e0fcc626d79f19383b7f7cd0009a5015c605b5abee3, 0x1d7128143fa5b2615640e8215bc28940c50e2b9ca0e89984329851a29e575f62) ((-0x1361942cd1826fcfa281e9196fdea412e2667dc4c5698a03742c6337226cbc3a), 0x21ec402a271d278748abdf4ca9ad49d21514a98502c2a43d22fb40d28bb7b13b) (0x2aa8fb13e2f98293eb1d9eddb1e387b83876e70ece44e5aee74292d1a86c671b, 0xdddfd16a4e8e17b54f71b52660cc6826d47de41a0a45ee23c77feba51c19e1f) ((-0x64073f69b1a3339a05d11e06d4ec6dfec00cb31668a5b229c0e100193d73760), 0x1814e1341d815304be37fd5d4d62265c478fef48cf11a47e8e0cccb32f7e151f));
  OA 0 (C (0x17f188d691d3c80d8a6febab9c3c24713b9265a6ede7390e8cefa789849e073, 0xd8c8168f39b6513eab1aa2c04607681a48307859fdf08337a517ccfda5163aa) (0x2e1fe8d1aa66cee36ee645d3d8d30b906f83ff7af1d5a4aba9e427a0169b210a, 0x2e20d1a8f0e7c4d61e42fc1c98b3e606c494c319f2e5c0de03f46543aa2bdec6) (0x109948dc2367373ead84fa1e85efb62e5229c8abfeef2daeb216162d07c8293a, 0x242734ec49624094f48d08978b4c15b41989274774e489ee3041340fcc7df276) ((-0x38778399ab52631924c4c135c9e67c08f8c594761980a145f026e45bf3402b6), 0x660b7650c3cbaa5db15ef044c774edf17a00d5029a790d1aa381f5cc4d4a08f) (0xd68524313bfd50f8322d0960c7cb36c33e0c47abd643cdbe55c55e2ecdd8d0, 0x3bf45e3d90e2a667e2de0dcf4d255aa88ef0ba7fa433b329144aca89959da7f) ((-0x16ab7a05803f4938bfd49dda984e669dc21a8abf2013e7e76e8b98fb1a111a7), (-0xc9a9bd9db70aec24be9a5a2a89ecd9b59f3f864e66d9b3831d466b4285d392f)));
  OD (C (0x1ab0e3749ed218c6390e09510dce7287e06a93756d86eedc73ede423bf8b385d, 0x2161dcdd24cca387bb6dd91a715784e10c42d856c85b5c9aa0963f64652f140e) (0x18a7a2cf8114cd17540bf505f955790d459a10e260ead9ca58b4c61138f45985, 0x2b3baadd7ab601ffc850081c50587234be64e726a66bf75f1dde8e75ea373b00) (0x690fdccf4b93dc8eeccd1679da5045fb88b1abb7522e9195d18db31d5f64517, 0x2662b3853f34b14da4eeb7c16057d59aa82eebe5a250624a9075f8db47417007) ((-0xc9053d187d4792e8774d7d23ec8205e63640aca10b8ee604c75ca6b6e8f8690c), 0x1f8c6cf9863d6112de5f02cd1f62dd41c6d5df0efc99220aedbcf4246cee835c) (0x24d31aa70867593b5735577ca1864a19ca39fc211ec5bca78d94d1923a231255, 0x84e7934e5b553b8ab630a14c5e3375afcf414a7678345afe570f54073524199) (0x10684cd22eacac144b523d0a1fab0777167f242c1c6db89b915aec80284c2885, (-0x9d8404ffa02b5e6c88d10ef6b71d99f770749eaaa9be8b4acc26c99d25f0436)));
  OD (C (0x12fc9f4d211725d4a500fa82c5367f248e79871ef82b30dd63c93b71f4aa938, 0x4a52a2e6b722b4a91863f636aeb9f81a77cc72ac5ca798fcafc1c39a2c5860c) (0x1f1939a35248c05963dc28c492bd5496d0ee07203ed62a4646610343b7f519d1, 0x163b1e6d53c2b9384d7a50f52db7a5f3089a85d87695f7b4f0dfb367204e3d74) (0x2aac5fd33ed53f1e40b1414b831f9c0c0cd566c3699e225f23ceb803192ea666, 0x1002e75250e551eaf64ade9dafd85b34cc47f24f24101bc94f01a7c38d1c3336) ((-0x810416dbbdeb4ab42a164c003837fbe714a9224c924f99cdab2d86604ce952f8), (-0x472450ac2dd39c3a7400d80206942ca42f3ab0e8947158a9b2dd0ea89771037b)) (0x3a526ad316a18e3aa35c7d1201474aec7863025c1c0243521e794b9c548af3, 0x6ab30d73301a7ab781a9c8365f91ac611bc57b803fc7dac469bfc9443a9644) ((-0x1a802782bd2bebe8c875948372dec9035ef3f71387821846c31341fada2aab), 0x22c8d272d27961a3ac550b0cec16f24820ab0fbaf2393e736a2e8fbc76129f5))].

Lemma cert_tor_ok : run gfp2 dbl2 add2 cert_tor (1%N, (tor_x, tor_y)) [(1%N, (tor_x, tor_y))] = Some (10068%N, (tor_x, neg2 tor_y)).
Proof. vm_cast_no_check (@eq_refl (option (entry gfp2)) (Some (10068%N, (tor_x, neg2 tor_y)))). Qed.
Definition tor : apoint FP2 := Some (tor_x, tor_y).
Lemma tor_on : E2 tor.
Proof.
  unfold E2, tor. cbn [on_curve]. rewrite <- (mul2_ok tor_y tor_y).
  assert (E : ((tor_x : FP2) *! tor_x *! tor_x) =[FP2]= mul2 (g2_mul tor_x tor_x) tor_x).
  { rewrite (mul2_ok _ _). apply (cmul_morph FP2); [|reflexivity]. symmetry. apply g2_mul_ok. }
  rewrite E. split.
  - change (fst (mul2 tor_y tor_y) ==[P] fst (mul2 (g2_mul tor_x tor_x) tor_x) + fst twistB).
    apply cong_mod_iff; [discriminate|]. vm_compute. reflexivity.
  - change (snd (mul2 tor_y tor_y) ==[P] snd (mul2 (g2_mul tor_x tor_x) tor_x) + snd twistB).
    apply cong_mod_iff; [discriminate|]. vm_compute. reflexivity.
Qed.
Lemma order_tor : multiple tor (Z.to_nat 10069) None.
Proof.
  apply (mult_pred FP2 tor 10069 (Some (tor_x, neg2 tor_y))); [reflexivity| |].
  - apply good2.
    apply (run_ok FP2 twistB FP2_field FP2_two FP2_three FP2_b dbl2 add2 dbl2_ok add2_ok tor tor_on cert_tor (1%N, (tor_x, tor_y)) [(1%N, (tor_x, tor_y))]).
    + apply good_1.
    + constructor; [apply good_1|constructor].
    + exact cert_tor_ok.
  - left. split; [reflexivity|]. split; [|reflexivity]. split; exists 1; reflexivity.
Qed.
Lemma nat_eq (u n v m : Z) : 0 <= u -> 0 <= n -> 0 <= v -> 0 <= m -> u * n = 1 + v * m -> (Z.to_nat u * Z.to_nat n = 1 + Z.to_nat v * Z.to_nat m)%nat.
Proof. intros. apply Nat2Z.inj. rewrite Nat2Z.inj_add, !Nat2Z.inj_mul, !Z2Nat.id by assumption. assumption. Qed.
Definition inv_v : Z := 20877414295475657884045533893877333394618978220438533502520364783779329108343.
Lemma tor_killed d t : (0 < d < 3)%nat -> multiple tor d t -> ~ multiple t (Z.to_nat Order) None.
Proof.
  intros D H K. assert (X := mult_mul FP2 FP2_field FP2_two FP2_three twistB FP2_b tor d (Z.to_nat Order) t None tor_on H K).
  rewrite Nat.mul_comm in X. assert (Y := mult_zero FP2 FP2_field FP2_two FP2_three twistB FP2_b tor _ (Z.to_nat (2 / Z.of_nat d)) tor_on X).
  assert (E : (Z.to_nat (2 / Z.of_nat d) * (d * Z.to_nat Order) = Z.to_nat (2 * Order))%nat).
  { rewrite Z2Nat.inj_mul by discriminate. rewrite Nat.mul_assoc. f_equal. assert (d = 1 \/ d = 2)%nat as [-> | ->] by lia; reflexivity. }
  rewrite E in Y.
  refine (coprime_zero FP2 FP2_field FP2_two FP2_three twistB FP2_b tor _ _ (Z.to_nat 4802) (Z.to_nat inv_v) tor_on Y order_tor _).
  apply nat_eq; [discriminate..|]. vm_compute. reflexivity.
Qed.
(** Every point of the twist killed by Order is a multiple of the generator. *)
Lemma room : 2 * (P * P) + 1 < 3 * (Order * Order). Proof. vm_compute. reflexivity. Qed.
Theorem in_G2_multiple s : in_G2 s <-> exists n, multiple G2 n s.
Proof.
  split.
  - intros [O K]. apply (no_room FP2 FP2_field FP2_two FP2_three twistB FP2_b code2 code2_inj code2_eq (2 * (P * P) + 1) code2_range G2 s tor Order
      prime_Order G2_on O tor_on ltac:(discriminate) order_G2 K tor_killed room).
  - intros [n H]. split; [exact (mult_on FP2 FP2_field twistB G2 n s G2_on H)|].
    destruct (mult_ex FP2 FP2_field FP2_two twistB s (Z.to_nat Order) (mult_on FP2 FP2_field twistB G2 n s G2_on H)) as [w W].
    apply (mult_eq FP2 s _ w); auto. assert (X := mult_mul FP2 FP2_field FP2_two FP2_three twistB FP2_b G2 n (Z.to_nat Order) s w G2_on H W).
    rewrite Nat.mul_comm in X. exact (mult_unique FP2 FP2_field G2 _ w None X (mult_zero FP2 FP2_field FP2_two FP2_three twistB FP2_b G2 _ n G2_on order_G2)).
Qed.
Print Assumptions in_G2_multiple.

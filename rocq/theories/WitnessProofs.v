Require Import ZArith Znumtheory NArith Bool Lia Setoid Morphisms Ascii String List.
Require Import Verif.Cong Verif.FqModel Verif.FqSpec Verif.FqProofs Verif.PolyModel Verif.PolyProofs.
Require Import Verif.AvlModel Verif.AvlSpec Verif.AvlProofs Verif.SparseModel Verif.SparseSpec Verif.SparseProofs Verif.SparseProofs2.
Require Import Verif.FactorModel Verif.FactorSpec Verif.FactorProofs Verif.R1csModel Verif.R1csSpec Verif.R1csProofs.
Require Import Verif.WitnessModel Verif.WitnessSpec.
Import ListNotations.
Open Scope Z_scope.

(** ** States *)
Definition W (s : state) (x : nat) : Z := nth x (wit s) 0.
Definition B (s : state) (x : nat) : bool := nth x (isset s) false.
(** Known wires stay known and keep their value. *)
Definition ext (s s' : state) : Prop :=
  List.length (wit s') = List.length (wit s) /\ List.length (isset s') = List.length (isset s) /\
  forall x, B s x = true -> B s' x = true /\ W s' x = W s x.
(** [w] agrees with the known wires of [s]. *)
Definition agrees (s : state) (w : list Z) : Prop := forall x, B s x = true -> nth x w 0 = W s x.

Lemma ext_refl s : ext s s.
Proof. repeat split; auto. Qed.
Lemma ext_trans a b c : ext a b -> ext b c -> ext a c.
Proof.
  intros [L1 [L2 H1]] [M1 [M2 H2]]. repeat split; try congruence.
  - intros. now apply H2, H1.
  - destruct (H1 x H) as [P Q]. destruct (H2 x P). congruence.
Qed.
Lemma agrees_ext s s' w : ext s s' -> agrees s' w -> agrees s w.
Proof. intros [_ [_ H]] A x Hx. destruct (H x Hx) as [P Q]. rewrite (A x P). auto. Qed.
Lemma agrees_self s : agrees s (wit s).
Proof. intros x _. reflexivity. Qed.

Lemma bset_spec l i l' : bset l i = Some l' -> (i < List.length l)%nat /\ List.length l' = List.length l /\
  forall j, nth j l' false = if Nat.eqb j i then true else nth j l false.
Proof.
  revert i l'. induction l as [|b l IH]; intros i l' E; [discriminate|].
  destruct i as [|i]; cbn [bset] in E.
  - injection E as <-. cbn [List.length]. repeat split; [lia|]. intros [|j]; reflexivity.
  - destruct (bset l i) as [r|] eqn:E1; [|discriminate]. injection E as <-.
    destruct (IH i r E1) as [P [L H]]. cbn [List.length]. repeat split; [lia|lia|]. intros [|j]; cbn; auto.
Qed.
Lemma array_set_some l i x l' : array_set l i x = Some l' -> (i < List.length l)%nat /\ List.length l' = List.length l /\
  forall j, nth j l' 0 = if Nat.eqb j i then x else nth j l 0.
Proof.
  intros E. destruct (Nat.lt_ge_cases i (List.length l)) as [H|H].
  - destruct (AvlProofs.array_set_spec l i x H) as [l2 [E2 [L2 C]]]. rewrite E in E2. injection E2 as <-. auto.
  - rewrite AvlProofs.array_set_none in E by auto. discriminate.
Qed.
Lemma assign_spec s i v s' : assign s i v = Some s' ->
  (i < List.length (wit s))%nat /\ (i < List.length (isset s))%nat /\
  List.length (wit s') = List.length (wit s) /\ List.length (isset s') = List.length (isset s) /\
  (forall x, W s' x = if Nat.eqb x i then v else W s x) /\ (forall x, B s' x = if Nat.eqb x i then true else B s x).
Proof.
  unfold assign. destruct (array_set _ i v) as [w|] eqn:E1; [|discriminate]. destruct (bset _ i) as [b|] eqn:E2; [|discriminate].
  intros E; injection E as <-. destruct (array_set_some _ _ _ _ E1) as [P1 [P2 P3]]. destruct (bset_spec _ _ _ E2) as [Q1 [Q2 Q3]].
  unfold W, B. cbn. repeat split; auto.
Qed.
Lemma assign_ext s i v s' : assign s i v = Some s' -> B s i = false -> ext s s'.
Proof.
  intros E Hi. destruct (assign_spec _ _ _ _ E) as [_ [_ [L1 [L2 [HW HB]]]]]. split; [auto|]. split; [auto|].
  intros x Hx. rewrite HW, HB. destruct (Nat.eqb_spec x i) as [->|]; auto. congruence.
Qed.
Lemma assign_ok s i v : (i < List.length (wit s))%nat -> (i < List.length (isset s))%nat -> exists s', assign s i v = Some s'.
Proof.
  intros H1 H2. unfold assign. destruct (AvlProofs.array_set_spec (wit s) i v H1) as [w [-> _]].
  assert (exists b, bset (isset s) i = Some b) as [b ->].
  { clear H1. revert i H2. induction (isset s) as [|b l IH]; intros i H; [cbn in H; lia|].
    destruct i; cbn; [eauto|]. destruct (IH i) as [r ->]; [cbn in H; lia|]. eauto. }
  eauto.
Qed.

Lemma bit_of_01 v i : bit_of v i = 0 \/ bit_of v i = 1.
Proof. unfold bit_of. destruct (Z.testbit _ _); auto. Qed.
Lemma bit_of_sq v i : bit_of v i * bit_of v i = bit_of v i.
Proof. destruct (bit_of_01 v i) as [-> | ->]; reflexivity. Qed.

Lemma nth_error_B s j b : nth_error (isset s) j = Some b -> B s j = b.
Proof. intros H. unfold B. now apply nth_error_nth. Qed.

Lemma skipn_cons (l : list Z) j x l' : skipn j l = x :: l' -> nth j l 0 = x /\ skipn (S j) l = l'.
Proof.
  revert j. induction l as [|y l IH]; intros j E; [destruct j; discriminate|].
  destruct j; [cbn in E; injection E as -> ->; auto|]. apply IH. exact E.
Qed.
Lemma dot_skip v k j w : dot (v :: k) (skipn j w) = v * nth j w 0 + dot k (skipn (S j) w).
Proof.
  destruct (skipn j w) as [|y l] eqn:E.
  - cbn [dot]. assert (L : (List.length w <= j)%nat).
    { assert (H := f_equal (@List.length Z) E). rewrite skipn_length in H. cbn in H. lia. }
    rewrite nth_overflow, (skipn_all2 (n := S j) w) by lia. destruct k; cbn; ring.
  - cbn [dot]. destruct (skipn_cons _ _ _ _ E) as [-> <-]. reflexivity.
Qed.

Section Scan.
Variable bm : bitmap.
Definition is_bit (j : nat) : Prop := bm_get bm j <> None.

(** What a scan of [arr] from index [j] on does to the state and to the sums. *)
Lemma scan_spec arr : forall j s k u s', scan bm j arr s = Some (k, u, s') ->
  ext s s' /\ List.length k = List.length arr /\
  (forall x, B s' x = true -> B s x = true \/ is_bit x) /\
  (forall x, In x u -> B s' x = false /\ ~ is_bit x /\ (j <= x < j + List.length arr)%nat /\ nth (x - j) arr 0 <> 0) /\
  (forall i, nth i arr 0 <> 0 -> is_bit (j + i) -> B s' (j + i) = true) /\
  (forall i, nth i arr 0 <> 0 -> B s' (j + i) = true \/ In (j + i)%nat u) /\
  (forall i, nth i k 0 <> 0 -> B s' (j + i) = true /\ nth i arr 0 <> 0) /\
  NoDup u /\
  ((forall i, nth i arr 0 <> 0 -> is_bit (j + i) -> B s (j + i) = false -> nth i arr 0 = 1) ->
   forall w, agrees s' w ->
     dot k (skipn j w) + zsum (map (fun x => nth (x - j) arr 0 * nth x w 0) u) = dot arr (skipn j w)) /\
  ((forall i, nth i arr 0 <> 0 -> B s (j + i) = true) -> k = arr /\ s' = s).
Proof.
  induction arr as [|v arr IH]; intros j s k u s' E; cbn [scan] in E.
  - injection E as <- <- <-. split; [apply ext_refl|]. split; [auto|]. split; [auto|].
    split; [intros x []|]. split; [intros i H; exfalso; destruct i; apply H; reflexivity|].
    split; [intros i H; exfalso; destruct i; apply H; reflexivity|].
    split; [intros i H; exfalso; destruct i; apply H; reflexivity|]. split; [constructor|].
    split; [intros _ w _; reflexivity|auto].
  - assert (KEY : forall s1 c k1 u1, scan bm (S j) arr s1 = Some (k1, u1, s') ->
      ext s s1 -> (forall x, B s1 x = true -> B s x = true \/ is_bit x) ->
      (forall x, x <> j -> B s1 x = B s x) ->
      (v <> 0 -> is_bit j -> B s1 j = true) -> (c <> 0 -> B s1 j = true /\ v <> 0) ->
      ((v <> 0 -> is_bit j -> B s j = false -> v = 1) -> forall w, agrees s' w -> B s1 j = true \/ v = 0 -> c * nth j w 0 = v * nth j w 0) ->
      (v <> 0 -> B s j = true -> c = v /\ s1 = s) -> (v = 0 -> c = v /\ s1 = s) ->
      k = c :: k1 -> u = u1 \/ (u = j :: u1 /\ c = 0 /\ v <> 0 /\ ~ is_bit j /\ s1 = s /\ B s j = false) -> (u = u1 -> v <> 0 -> B s1 j = true) ->
      ext s s' /\ List.length k = List.length (v :: arr) /\
      (forall x, B s' x = true -> B s x = true \/ is_bit x) /\
      (forall x, In x u -> B s' x = false /\ ~ is_bit x /\ (j <= x < j + List.length (v :: arr))%nat /\ nth (x - j) (v :: arr) 0 <> 0) /\
      (forall i, nth i (v :: arr) 0 <> 0 -> is_bit (j + i) -> B s' (j + i) = true) /\
      (forall i, nth i (v :: arr) 0 <> 0 -> B s' (j + i) = true \/ In (j + i)%nat u) /\
      (forall i, nth i k 0 <> 0 -> B s' (j + i) = true /\ nth i (v :: arr) 0 <> 0) /\
      NoDup u /\
      ((forall i, nth i (v :: arr) 0 <> 0 -> is_bit (j + i) -> B s (j + i) = false -> nth i (v :: arr) 0 = 1) ->
       forall w, agrees s' w ->
         dot k (skipn j w) + zsum (map (fun x => nth (x - j) (v :: arr) 0 * nth x w 0) u) = dot (v :: arr) (skipn j w)) /\
      ((forall i, nth i (v :: arr) 0 <> 0 -> B s (j + i) = true) -> k = v :: arr /\ s' = s)).
    { intros s1 c k1 u1 E1 X1 N1 O1 Z1 C1 D1 S1 S0 -> HU HB.
      destruct (IH (S j) s1 k1 u1 s' E1) as [X2 [L [N2 [U2 [Z2 [K2 [M2 [ND [D2 S2]]]]]]]]].
      assert (Uj : ~ In j u1) by (intros Hj; destruct (U2 _ Hj) as [_ [_ [? _]]]; lia).
      split; [eapply ext_trans; eauto|]. split; [cbn [List.length]; lia|].
      split; [intros x Hx; destruct (N2 x Hx); auto|].
      split.
      { assert (P : forall x, In x u1 -> B s' x = false /\ ~ is_bit x /\ (j <= x < j + List.length (v :: arr))%nat /\ nth (x - j) (v :: arr) 0 <> 0).
        { intros x Hx. destruct (U2 x Hx) as [P1 [P2 [P3 P4]]]. cbn [List.length].
          replace (x - j)%nat with (S (x - S j)) by lia. cbn [nth]. repeat split; auto; lia. }
        destruct HU as [-> | [-> [-> [Hv [Nb [-> Bj]]]]]]; [exact P|]. intros x [<-|Hx]; [|auto].
        repeat split; auto; try (cbn [List.length]; lia).
        - destruct (B s' j) eqn:Y; auto. destruct (N2 j Y); [congruence|easy].
        - replace (j - j)%nat with O by lia. exact Hv. }
      split.
      { intros [|i] Hi Hb.
        - rewrite Nat.add_0_r in *. cbn [nth] in Hi. apply X2. auto.
        - cbn [nth] in Hi. rewrite Nat.add_succ_r in *. apply (Z2 i Hi Hb). }
      split.
      { intros [|i] Hi.
        - rewrite Nat.add_0_r. cbn [nth] in Hi. destruct HU as [-> | [-> _]]; [|right; now left].
          left. apply X2. now apply HB.
        - cbn [nth] in Hi. rewrite Nat.add_succ_r. destruct (K2 i Hi) as [?|Hu]; [auto|]. right.
          destruct HU as [-> | [-> _]]; [exact Hu|now right]. }
      split.
      { intros [|i] Hi.
        - rewrite Nat.add_0_r. cbn [nth] in *. destruct (C1 Hi) as [P Q]. split; auto. apply X2; auto.
        - cbn [nth] in *. rewrite Nat.add_succ_r. apply (M2 i Hi). }
      split.
      { destruct HU as [-> | [-> _]]; [exact ND|]. constructor; auto. }
      split.
      { intros H1 w Hw. rewrite !dot_skip.
        assert (D3 : dot k1 (skipn (S j) w) + zsum (map (fun x => nth (x - S j) arr 0 * nth x w 0) u1) = dot arr (skipn (S j) w)).
        { apply D2; auto. intros i Hi Hb Hf. apply (H1 (S i)); auto; rewrite Nat.add_succ_r; auto.
          rewrite <- O1 by lia. exact Hf. }
        assert (D4 : zsum (map (fun x => nth (x - j) (v :: arr) 0 * nth x w 0) u1) = zsum (map (fun x => nth (x - S j) arr 0 * nth x w 0) u1)).
        { apply zsum_map_ext. intros x Hx. destruct (U2 x Hx) as [_ [_ [P3 _]]]. replace (x - j)%nat with (S (x - S j)) by lia. reflexivity. }
        assert (H1j : v <> 0 -> is_bit j -> B s j = false -> v = 1).
        { intros P Q R. apply (H1 O); rewrite ?Nat.add_0_r; auto. }
        destruct HU as [-> | [-> [-> [Hv [Nb [-> Bj]]]]]].
        - rewrite D4. rewrite <- D3. rewrite (D1 H1j w Hw); [ring|]. destruct (Z.eq_dec v 0); auto.
        - cbn [map zsum]. rewrite D4. replace (j - j)%nat with O by lia. cbn [nth]. rewrite <- D3. ring. }
      { intros Hall. destruct (Z.eq_dec v 0) as [Hv|Hv].
        - destruct (S0 Hv) as [-> ->]. destruct S2 as [-> ->]; [|auto]. intros i Hi. specialize (Hall (S i) Hi). now rewrite Nat.add_succ_r in Hall.
        - destruct (S1 Hv) as [-> ->]; [specialize (Hall O Hv); now rewrite Nat.add_0_r in Hall|].
          destruct S2 as [-> ->]; [|auto]. intros i Hi. specialize (Hall (S i) Hi). now rewrite Nat.add_succ_r in Hall. } }
    destruct (Z.eqb_spec v 0) as [Hv|Hv].
    { destruct (scan bm (S j) arr s) as [[[k1 u1] s2]|] eqn:E1; [|discriminate]. injection E as <- <- <-.
      apply (KEY s 0 k1 u1); auto using ext_refl; try (intros; easy). intros; subst; auto. }
    destruct (nth_error (isset s) j) as [[|]|] eqn:EB; [| |discriminate].
    { destruct (scan bm (S j) arr s) as [[[k1 u1] s2]|] eqn:E1; [|discriminate]. injection E as <- <- <-.
      apply nth_error_B in EB. apply (KEY s v k1 u1); auto using ext_refl. }
    apply nth_error_B in EB.
    destruct (bm_get bm j) as [[pos father]|] eqn:EM.
    + destruct (nth_error (wit s) father) as [f|]; [|discriminate].
      destruct (assign s j (bit_of f pos)) as [s1|] eqn:EA; [|discriminate].
      destruct (scan bm (S j) arr s1) as [[[k1 u1] s2]|] eqn:E1; [|discriminate]. injection E as <- <- <-.
      assert (X := assign_ext _ _ _ _ EA EB). destruct (assign_spec _ _ _ _ EA) as [_ [_ [_ [_ [HW HB]]]]].
      assert (Bj : B s1 j = true) by (rewrite HB, Nat.eqb_refl; auto).
      assert (Jb : is_bit j) by (unfold is_bit; rewrite EM; discriminate).
      assert (X2 : ext s1 s2) by apply (IH _ _ _ _ _ E1).
      apply (KEY s1 (bit_of f pos) k1 u1); auto; try (intros; congruence).
      * intros x. rewrite HB. destruct (Nat.eqb_spec x j) as [->|]; auto.
      * intros x Hx. rewrite HB. now rewrite (proj2 (Nat.eqb_neq x j)).
      * intros H1 w Hw _. rewrite (H1 Hv Jb EB). destruct X2 as [_ [_ X2]]. destruct (X2 j Bj) as [P Q].
        rewrite (Hw j P), Q, HW, Nat.eqb_refl, bit_of_sq. ring.
    + destruct (scan bm (S j) arr s) as [[[k1 u1] s2]|] eqn:E1; [|discriminate]. injection E as <- <- <-.
      assert (Nb : ~ is_bit j) by (unfold is_bit; rewrite EM; auto).
      apply (KEY s 0 k1 (u1)); auto using ext_refl; try (intros; easy); try congruence.
      * intros _ w _ [P|P]; [congruence|easy].
      * right. repeat split; auto.
      * intros A. exfalso. assert (L := f_equal (@List.length nat) A). cbn in L. lia.
Qed.
End Scan.

(** ** Arithmetic of one row *)
Lemma fdiv_ok q a b r : prime q -> b <> 0 -> fdiv q a b = Some r -> b * r ==[q] a.
Proof.
  intros Hq Hb E. destruct (cong_dec q b 0) as [C|C].
  - rewrite fdiv_multiple in E by auto. discriminate.
  - destruct (fdiv_prime q a b Hq C) as [r2 [E2 H]]. rewrite E in E2. injection E2 as <-. rewrite Z.mul_comm. apply H.
Qed.

Lemma dot_agree k w w' : (forall i, nth i k 0 <> 0 -> nth i w 0 = nth i w' 0) -> dot k w = dot k w'.
Proof.
  intros H. rewrite !dot_nth. apply zsum_map_ext. intros i _. destruct (Z.eq_dec (nth i k 0) 0) as [-> |E]; [ring|].
  now rewrite (H i E).
Qed.
Lemma dots_same a : forall w, List.length a = List.length w -> FqSpec.dot a w = dot a w.
Proof.
  induction a as [|x a IH]; intros [|y w] L; cbn in L; try discriminate; [reflexivity|].
  rewrite dot_cons. cbn [dot]. rewrite IH by lia. reflexivity.
Qed.
Lemma total_ok q k s r : 1 < q -> total q k s = Ok r -> List.length k = List.length (wit s) /\ r = dot k (wit s) mod q.
Proof.
  intros Hq. unfold total. destruct (Nat.eq_dec (List.length k) (List.length (wit s))) as [L|L].
  - destruct (proj1 (fscalar_product_spec q k (wit s) Hq) L) as [x [-> [H1 H2]]]. cbn. intros E; injection E as <-.
    split; auto. rewrite dots_same in H2 by auto. apply cong_canon_unique with q; auto; [apply Z.mod_pos_bound; lia|].
    rewrite H2. symmetry. apply cong_mod.
  - rewrite (proj2 (fscalar_product_spec q k (wit s) Hq) L). discriminate.
Qed.

Lemma bind_ok {A B} (x : solved A) (f : A -> solved B) b : bind x f = Ok b -> exists a, x = Ok a /\ f a = Ok b.
Proof. destruct x; cbn; try discriminate. eauto. Qed.
Lemma lift_ok {A} (x : option A) a : lift x = Ok a -> x = Some a.
Proof. destruct x; cbn; [|discriminate]. intros E; now injection E as ->. Qed.

Section Dense.
Variable q : Z.
Hypothesis Hq : prime q.
Variable gx : Z -> Z.
Variable bm : bitmap.

Local Lemma q1 : 1 < q.
Proof. destruct Hq; auto. Qed.

(** The bits still unknown are first met with coefficient one. *)
Definition ready (s : state) (vs : list (list Z)) : Prop :=
  forall j, is_bit bm j -> B s j = false -> first_coef j vs = 0 \/ first_coef j vs = 1.
(** The bits with a coefficient in [arr] are known. *)
Definition done (s : state) (arr : list Z) : Prop := forall i, nth i arr 0 <> 0 -> is_bit bm i -> B s i = true.

Lemma scan_ready arr vs s k u s' : scan bm 0 arr s = Some (k, u, s') -> ready s (arr :: vs) ->
  ready s' vs /\ (forall i, nth i arr 0 <> 0 -> is_bit bm (0 + i) -> B s (0 + i) = false -> nth i arr 0 = 1).
Proof.
  intros E R. destruct (scan_spec bm _ _ _ _ _ _ E) as [[_ [_ X]] [_ [_ [_ [Z _]]]]]. split.
  - intros j Hb Hf. assert (Bs : B s j = false) by (destruct (B s j) eqn:Y; auto; destruct (X j Y); congruence).
    specialize (R j Hb Bs). cbn [first_coef] in R. destruct (Z.eqb_spec (nth j arr 0) 0) as [|N]; auto.
    specialize (Z j N Hb). cbn in Z. congruence.
  - intros i Hi Hb Hf. specialize (R i Hb Hf). cbn [first_coef] in R. destruct (Z.eqb_spec (nth i arr 0) 0); [easy|]. destruct R; [easy|auto].
Qed.

Lemma scan_sum arr vs s k u s' s4 : scan bm 0 arr s = Some (k, u, s') -> ready s (arr :: vs) -> ext s' s4 ->
  forall w, agrees s4 w -> dot k w = dot k (wit s4) /\
    dot arr w = dot k (wit s4) + zsum (map (fun x => nth x arr 0 * nth x w 0) u).
Proof.
  intros E R X w A. destruct (scan_ready _ _ _ _ _ _ E R) as [_ H1].
  destruct (scan_spec bm _ _ _ _ _ _ E) as [_ [_ [_ [_ [_ [_ [M [_ [D _]]]]]]]]].
  assert (P : dot k w = dot k (wit s4)).
  { apply dot_agree. intros i Hi. apply A. apply X. apply (M i Hi). }
  split; auto. specialize (D H1 w (agrees_ext _ _ _ X A)). cbn [skipn] in D. rewrite <- D, P. f_equal. f_equal. apply map_ext.
  intros x. now rewrite Nat.sub_0_r.
Qed.

Lemma rescan arr s s4 k u s' k2 u2 s2 : scan bm 0 arr s = Some (k, u, s') -> u = [] -> ext s' s4 ->
  scan bm 0 arr s4 = Some (k2, u2, s2) -> k2 = arr /\ s2 = s4.
Proof.
  intros E U X E2. destruct (scan_spec bm _ _ _ _ _ _ E) as [_ [_ [_ [_ [_ [K _]]]]]].
  destruct (scan_spec bm _ _ _ _ _ _ E2) as [_ [_ [_ [_ [_ [_ [_ [_ [_ S]]]]]]]]]. apply S. intros i Hi.
  destruct (K i Hi) as [P|P]; [now apply X|]. subst. destruct P.
Qed.

Ltac hide := repeat match goal with |- context [gx ?e] => generalize (gx e); intros ? end.
Ltac go := repeat match goal with
  | H : bind ?x ?f = Ok _ |- _ => let a := fresh "a" in let E := fresh "E" in
      apply bind_ok in H; destruct H as [a [E H]]
  | H : lift _ = Ok _ |- _ => apply lift_ok in H
  | H : total q _ _ = Ok _ |- _ => apply total_ok in H; [destruct H as [_ ->]|apply q1]
  end.

Lemma solve_row_sound r vs s s' : solve_row q gx bm r s = Ok s' -> ready s (rl r :: rr r :: re r :: ro r :: vs) ->
  ext s s' /\ ready s' vs /\ forall w, agrees s' w -> row_ok q gx w r.
Proof.
  unfold solve_row. intros H R. assert (Q1 := q1).
  apply bind_ok in H; destruct H as [[[lk lu] s1] [EL H]]; apply lift_ok in EL.
  apply bind_ok in H; destruct H as [[[rk ru] s2] [ER H]]; apply lift_ok in ER.
  apply bind_ok in H; destruct H as [[[ek eu] s3] [EE H]]; apply lift_ok in EE.
  destruct eu as [|]; [|discriminate].
  apply bind_ok in H; destruct H as [[[ok ou] s4] [EO H]]; apply lift_ok in EO.
  assert (R1 := proj1 (scan_ready _ _ _ _ _ _ EL R)).
  assert (R2 := proj1 (scan_ready _ _ _ _ _ _ ER R1)).
  assert (R3 := proj1 (scan_ready _ _ _ _ _ _ EE R2)).
  assert (R4 := proj1 (scan_ready _ _ _ _ _ _ EO R3)).
  assert (X01 := proj1 (scan_spec bm _ _ _ _ _ _ EL)).
  assert (X12 := proj1 (scan_spec bm _ _ _ _ _ _ ER)).
  assert (X23 := proj1 (scan_spec bm _ _ _ _ _ _ EE)).
  assert (X34 := proj1 (scan_spec bm _ _ _ _ _ _ EO)).
  assert (X24 := ext_trans _ _ _ X23 X34). assert (X14 := ext_trans _ _ _ X12 X24). assert (X04 := ext_trans _ _ _ X01 X14).
  assert (SL := scan_sum _ _ _ _ _ _ _ EL R X14).
  assert (SR := scan_sum _ _ _ _ _ _ _ ER R1 X24).
  assert (SE := scan_sum _ _ _ _ _ _ _ EE R2 X34).
  assert (SO := scan_sum _ _ _ _ _ _ _ EO R3 (ext_refl s4)).
  destruct (scan_spec bm _ _ _ _ _ _ EL) as [_ [_ [NL [UL _]]]].
  destruct (scan_spec bm _ _ _ _ _ _ ER) as [_ [_ [NR [UR _]]]].
  destruct (scan_spec bm _ _ _ _ _ _ EE) as [_ [_ [NE _]]].
  destruct (scan_spec bm _ _ _ _ _ _ EO) as [_ [_ [NO [UO _]]]].
  destruct (Nat.ltb_spec 1 (List.length lu + List.length ru + List.length ou)) as [|LE]; [discriminate|].
  assert (FIN : forall x v, B s4 x = false -> assign s4 x v = Some s' ->
     (forall w, agrees s4 w -> nth x w 0 = v -> row_ok q gx w r) ->
     ext s s' /\ ready s' vs /\ forall w, agrees s' w -> row_ok q gx w r).
  { intros x v Bx EA HR. assert (X := assign_ext _ _ _ _ EA Bx). split; [eapply ext_trans; eauto|]. split.
    - intros j Hb Hf. apply R4; auto. destruct (B s4 j) eqn:Y; auto. destruct X as [_ [_ X]]. destruct (X j Y). congruence.
    - intros w A. apply HR; [eapply agrees_ext; eauto|]. destruct (assign_spec _ _ _ _ EA) as [_ [_ [_ [_ [HW HB]]]]].
      rewrite (A x); [|rewrite HB, Nat.eqb_refl; auto]. rewrite HW, Nat.eqb_refl. auto. }
  assert (UN : forall x, ~ is_bit bm x -> B s1 x = false \/ B s2 x = false \/ B s4 x = false -> B s4 x = false).
  { intros x Nb Hx. destruct (B s4 x) eqn:Y; auto. exfalso.
    destruct (NO x Y) as [Y3|]; [|easy]. destruct (NE x Y3) as [Y2|]; [|easy]. destruct (NR x Y2) as [Y1|]; [|easy].
    destruct Hx as [?|[?|?]]; congruence. }
  destruct lu as [|x [|? ?]]; [|destruct ru; [|cbn in LE; lia]; destruct ou; [|cbn in LE; lia]|cbn in LE; lia].
  1: destruct ru as [|x [|? ?]]; [|destruct ou; [|cbn in LE; lia]|cbn in LE; lia].
  1: destruct ou as [|x [|? ?]]; [| |cbn in LE; lia].
  - (* no unknown *)
    apply bind_ok in H; destruct H as [[[lk' lu'] s1'] [EL' H]]; apply lift_ok in EL'.
    destruct (rescan _ _ _ _ _ _ _ _ _ EL eq_refl X14 EL') as [-> ->].
    apply bind_ok in H; destruct H as [[[rk' ru'] s2'] [ER' H]]; apply lift_ok in ER'.
    destruct (rescan _ _ _ _ _ _ _ _ _ ER eq_refl X24 ER') as [-> ->].
    apply bind_ok in H; destruct H as [[[ek' eu'] s3'] [EE' H]]; apply lift_ok in EE'.
    destruct (rescan _ _ _ _ _ _ _ _ _ EE eq_refl X34 EE') as [-> ->].
    apply bind_ok in H; destruct H as [[[ok' ou'] s4'] [EO' H]]; apply lift_ok in EO'.
    destruct (rescan _ _ _ _ _ _ _ _ _ EO eq_refl (ext_refl _) EO') as [-> ->].
    destruct lu'; [|discriminate]. destruct ru'; [|discriminate]. destruct ou'; [|discriminate]. destruct eu'; [|discriminate].
    go. match type of H with (if ?b then _ else _) = _ => destruct b eqn:EQ; [|discriminate] end. apply Z.eqb_eq in EQ.
    injection H as <-.
    split; [auto|]. split; [auto|]. intros w A. unfold row_ok.
    assert (AS := agrees_self s4).
    destruct (SL w A) as [_ L1]. destruct (SR w A) as [_ L2]. destruct (SE w A) as [_ L3]. destruct (SO w A) as [_ L4].
    destruct (SL _ AS) as [_ M1]. destruct (SR _ AS) as [_ M2]. destruct (SE _ AS) as [_ M3]. destruct (SO _ AS) as [_ M4].
    cbn [map zsum] in *. rewrite L1, L2, L3, L4, <- M1, <- M2, <- M3, <- M4.
    rewrite <- (cong_mod q (dot (ro r) (wit s4))), <- EQ. hide. rewrite fadd_cong, fmul_cong, !cong_mod.
    apply cong_eq. ring.
  - (* unknown output *)
    destruct (UO x (or_introl eq_refl)) as [Bx [Nb [Hx Cx]]]. rewrite Nat.sub_0_r in Cx.
    go. apply (FIN x a4); auto. intros w A Wx. unfold row_ok.
    destruct (SL w A) as [_ L1]. destruct (SR w A) as [_ L2]. destruct (SE w A) as [_ L3]. destruct (SO w A) as [_ L4].
    cbn [map zsum] in *. rewrite Z.add_0_r in L1, L2, L3.
    apply nth_error_nth with (d := 0) in E3. rewrite E3 in *. apply fdiv_ok in E4; auto.
    rewrite L1, L2, L3, L4, Wx, Z.add_0_r, E4. hide. rewrite fsub_cong, fadd_cong, fmul_cong, !cong_mod.
    apply cong_eq. ring.
  - (* unknown on the right *)
    destruct (UR x (or_introl eq_refl)) as [Bx [Nb [Hx Cx]]]. rewrite Nat.sub_0_r in Cx.
    apply bind_ok in H; destruct H as [sl [EZ H]]. destruct (Z.eqb_spec sl 0) as [|NZ]; [discriminate|].
    go. apply (FIN x a4); auto. intros w A Wx. unfold row_ok.
    destruct (SL w A) as [_ L1]. destruct (SR w A) as [_ L2]. destruct (SE w A) as [_ L3]. destruct (SO w A) as [_ L4].
    cbn [map zsum] in *. rewrite Z.add_0_r in L1, L3, L4.
    apply nth_error_nth with (d := 0) in E3. rewrite E3 in *. apply fdiv_ok in E4; auto.
    apply fdiv_ok in E1; auto.
    rewrite L1, L2, L3, L4, Wx, Z.add_0_r, E4.
    transitivity (dot lk (wit s4) mod q * a1 + gx (dot ek (wit s4) mod q)).
    { hide. rewrite fsub_cong, !cong_mod. apply cong_eq. ring. }
    rewrite E1. hide. rewrite fsub_cong, cong_mod. apply cong_eq. ring.
  - (* unknown on the left *)
    destruct (UL x (or_introl eq_refl)) as [Bx [Nb [Hx Cx]]]. rewrite Nat.sub_0_r in Cx.
    apply bind_ok in H; destruct H as [sr [EZ H]]. destruct (Z.eqb_spec sr 0) as [|NZ]; [discriminate|].
    go. apply (FIN x a4); auto. intros w A Wx. unfold row_ok.
    destruct (SL w A) as [_ L1]. destruct (SR w A) as [_ L2]. destruct (SE w A) as [_ L3]. destruct (SO w A) as [_ L4].
    cbn [map zsum] in *. rewrite Z.add_0_r in L2, L3, L4.
    apply nth_error_nth with (d := 0) in E3. rewrite E3 in *. apply fdiv_ok in E4; auto.
    apply fdiv_ok in E1; auto.
    rewrite L1, L2, L3, L4, Wx, Z.add_0_r, E4.
    transitivity (dot rk (wit s4) mod q * a1 + gx (dot ek (wit s4) mod q)).
    { hide. rewrite fsub_cong, !cong_mod. apply cong_eq. ring. }
    rewrite E1. hide. rewrite fsub_cong, cong_mod. apply cong_eq. ring.
Qed.

Lemma solve_rows_sound rs : forall s s', solve_rows q gx bm rs s = Ok s' -> ready s (vectors rs) ->
  ext s s' /\ forall w, agrees s' w -> Forall (row_ok q gx w) rs.
Proof.
  induction rs as [|r rs IH]; intros s s' H R; cbn [solve_rows] in H.
  - injection H as <-. split; [apply ext_refl|]. intros; constructor.
  - apply bind_ok in H. destruct H as [s1 [E H]]. destruct (solve_row_sound r (vectors rs) s s1 E R) as [X [R1 S1]].
    destruct (IH s1 s' H R1) as [X2 S2]. split; [eapply ext_trans; eauto|]. intros w A. constructor; auto. apply S1. eapply agrees_ext; eauto.
Qed.
End Dense.

(** ** Sparse rows *)
Section SScan.
Variable bm : bitmap.
Definition keys (es : list (N * Z)) : list N := map fst es.

Lemma sscan_spec es : forall t0 s t u s', sscan bm es t0 s = Some (t, u, s') ->
  ext s s' /\ (forall x, B s' x = true -> B s x = true \/ is_bit bm x) /\
  (forall k, In k (keys es) -> is_bit bm (N.to_nat k) -> B s' (N.to_nat k) = true) /\
  (forall k, In k u -> In k (keys es) /\ B s' (N.to_nat k) = false /\ ~ is_bit bm (N.to_nat k)) /\
  (u = [] -> forall k, In k (keys es) -> B s' (N.to_nat k) = true).
Proof.
  induction es as [|[k v] es IH]; intros t0 s t u s' E; cbn [sscan] in E.
  - injection E as <- <- <-. split; [apply ext_refl|]. split; [auto|]. split; [intros ? []|]. split; [intros ? []|]. intros _ ? [].
  - destruct (nth_error (isset s) (N.to_nat k)) as [[|]|] eqn:EB; [| |discriminate]; apply nth_error_B in EB.
    + destruct (insert t0 k v) as [t1|]; [|discriminate]. destruct (IH _ _ _ _ _ E) as [X [N1 [Z1 [U1 A1]]]].
      split; [auto|]. split; [auto|]. assert (P : B s' (N.to_nat k) = true) by now apply X. cbn [keys map fst In].
      split; [intros k' [<-|H]; auto|]. split; [intros k' Hk; destruct (U1 k' Hk) as [? [? ?]]; auto|].
      intros Hu k' [<-|H]; auto.
    + destruct (bm_get bm (N.to_nat k)) as [[pos father]|] eqn:EM.
      * destruct (nth_error (wit s) father) as [f|]; [|discriminate].
        destruct (assign s (N.to_nat k) (bit_of f pos)) as [s1|] eqn:EA; [|discriminate].
        destruct (insert t0 k (bit_of f pos)) as [t1|]; [|discriminate]. destruct (IH _ _ _ _ _ E) as [X [N1 [Z1 [U1 A1]]]].
        assert (X0 := assign_ext _ _ _ _ EA EB). destruct (assign_spec _ _ _ _ EA) as [_ [_ [_ [_ [HW HB]]]]].
        assert (P1 : B s1 (N.to_nat k) = true) by (rewrite HB, Nat.eqb_refl; auto).
        assert (Jb : is_bit bm (N.to_nat k)) by (unfold is_bit; rewrite EM; discriminate).
        split; [eapply ext_trans; eauto|]. split.
        { intros x Hx. destruct (N1 x Hx) as [P|]; auto. rewrite HB in P. destruct (Nat.eqb_spec x (N.to_nat k)) as [->|]; auto. }
        assert (P : B s' (N.to_nat k) = true) by now apply X. cbn [keys map fst In].
        split; [intros k' [<-|H]; auto|]. split; [intros k' Hk; destruct (U1 k' Hk) as [? [? ?]]; auto|].
        intros Hu k' [<-|H]; auto.
      * destruct (sscan bm es t0 s) as [[[t1 u1] s2]|] eqn:E1; [|discriminate]. injection E as <- <- <-.
        destruct (IH _ _ _ _ _ E1) as [X [N1 [Z1 [U1 A1]]]].
        assert (Nb : ~ is_bit bm (N.to_nat k)) by (unfold is_bit; rewrite EM; auto).
        split; [auto|]. split; [auto|]. cbn [keys map fst In].
        split; [intros k' [<-|H]; auto; easy|]. split; [|discriminate].
        intros k' [<-|Hk]; [|destruct (U1 k' Hk) as [? [? ?]]; auto].
        repeat split; auto. destruct (B s2 (N.to_nat k)) eqn:Y; auto. destruct (N1 _ Y); [congruence|easy].
Qed.

Lemma sscan_known es : forall t0 s t u s', sscan bm es t0 s = Some (t, u, s') -> wf t0 -> NoDup (keys es) ->
  (forall k, In k (keys es) -> B s (N.to_nat k) = true) ->
  u = [] /\ s' = s /\ wf t /\ forall k, lookup t k = match assoc es k with Some v => v | None => lookup t0 k end.
Proof.
  induction es as [|[k v] es IH]; intros t0 s t u s' E W0 ND HA; cbn [sscan] in E.
  - injection E as <- <- <-. auto.
  - assert (Bk : B s (N.to_nat k) = true) by (apply HA; now left).
    destruct (nth_error (isset s) (N.to_nat k)) as [[|]|] eqn:EB; [|apply nth_error_B in EB; congruence|discriminate].
    destruct (insert_spec t0 (lookup t0) k v (wf_rep _ W0)) as [t1 [E1 [W1 L1]]]. rewrite E1 in E.
    inversion ND as [|? ? N1 N2]; subst.
    destruct (IH _ _ _ _ _ E W1 N2) as [-> [-> [W2 L2]]]; [intros k' H; apply HA; now right|].
    repeat split; try apply W2. intros k'. rewrite L2. cbn [assoc]. destruct (N.eqb_spec k k') as [->|Ne].
    + destruct (assoc es k') as [v'|] eqn:EA.
      * exfalso. apply N1. clear -EA. induction es as [|[a b] es IH]; [discriminate|]. cbn in EA. cbn.
        destruct (N.eqb_spec a k') as [->|]; auto.
      * rewrite L1. unfold aset. now rewrite N.eqb_refl.
    + destruct (assoc es k'); auto. rewrite L1. unfold aset. destruct (N.eqb_spec k' k); [congruence|auto].
Qed.
End SScan.

Lemma edot_agree es w w' : (forall k, In k (keys es) -> nth (N.to_nat k) w 0 = nth (N.to_nat k) w' 0) -> edot es w = edot es w'.
Proof.
  induction es as [|[k v] es IH]; intros H; [reflexivity|]. cbn [edot]. rewrite (H k) by now left. rewrite IH; auto.
  intros k' Hk. apply H. now right.
Qed.

Lemma stotal_ok q t s r : 0 < q -> stotal q t s = Ok r -> 0 <= r /\ r ==[q] edot (ascending t) (wit s).
Proof.
  intros Hq H. unfold stotal in H. apply lift_ok in H. unfold sparse_scalar_product in H.
  assert (G : forall es acc, 0 <= acc -> fold_left (fun acc e => match acc, nth_error (wit s) (N.to_nat (fst e)) with
     | Some res, Some w => Some (res + fmul q (snd e) w) | _, _ => None end) es (Some acc) = Some r ->
     0 <= r /\ r ==[q] acc + edot es (wit s)).
  { induction es as [|[k v] es IH]; intros acc Ha E; cbn [fold_left] in E.
    - injection E as <-. split; auto. cbn. apply cong_eq. ring.
    - cbn [fst snd] in E. destruct (nth_error (wit s) (N.to_nat k)) as [x|] eqn:EN.
      + assert (R := fmul_range q v x Hq). destruct (IH (acc + fmul q v x)) as [P Q]; [lia|exact E|]. split; auto. rewrite Q. cbn [edot].
        rewrite fmul_cong, (nth_error_nth _ _ 0 EN). apply cong_eq. ring.
      + exfalso. clear -E. induction es; [discriminate|]. cbn in E. auto. }
  destruct (G _ 0 ltac:(lia) H) as [P Q]. split; auto.
Qed.

Section Sparse.
Variable q : Z.
Hypothesis Hq : prime q.
Variable gx : Z -> Z.
Hypothesis gx_periodic : forall k, 0 <= k -> gx k = gx (k mod q).
Variable bm : bitmap.

Local Lemma q1' : 1 < q.
Proof. destruct Hq; auto. Qed.

Lemma srescan t s0 t0 u0 s1 s t1 s2 : wf t -> sscan bm (ascending t) Leaf s0 = Some (t0, u0, s1) -> ext s1 s ->
  sscan bm (ascending t) Leaf s = Some (t1, [], s2) ->
  s2 = s /\ ascending t1 = ascending t /\ forall k, In k (keys (ascending t)) -> B s (N.to_nat k) = true.
Proof.
  intros Wt E0 X E. destruct (sscan_spec bm _ _ _ _ _ _ E0) as [_ [_ [Z0 _]]].
  destruct (sscan_spec bm _ _ _ _ _ _ E) as [X2 [N2 [_ [_ A2]]]].
  assert (HA : forall k, In k (keys (ascending t)) -> B s (N.to_nat k) = true).
  { intros k Hk. destruct (N2 _ (A2 eq_refl k Hk)) as [P|P]; auto. apply X. now apply Z0. }
  destruct (sscan_known bm _ _ _ _ _ _ E wf_leaf (bst_NoDup t (proj1 Wt)) HA) as [_ [-> [W1 L1]]].
  split; auto. split; auto. apply clone_ascending; auto. intros k. rewrite L1, (lookup_assoc t) by apply Wt. reflexivity.
Qed.

Lemma ssolve_row_sound r s s' : ssolve_row q gx bm r s = Ok s' -> wf (rl r) -> wf (rr r) -> wf (re r) -> wf (ro r) ->
  ext s s' /\ forall w, agrees s' w -> srow_ok q gx w r.
Proof.
  unfold ssolve_row. intros H WL WR WE WO. assert (Q1 := q1').
  apply bind_ok in H; destruct H as [[[lk lu] s1] [EL H]]; apply lift_ok in EL.
  apply bind_ok in H; destruct H as [[[rk ru] s2] [ER H]]; apply lift_ok in ER.
  apply bind_ok in H; destruct H as [[[ek eu] s3] [EE H]]; apply lift_ok in EE.
  destruct eu as [|]; [|discriminate].
  apply bind_ok in H; destruct H as [[[ok ou] s4] [EO H]]; apply lift_ok in EO.
  assert (X01 := proj1 (sscan_spec bm _ _ _ _ _ _ EL)).
  assert (X12 := proj1 (sscan_spec bm _ _ _ _ _ _ ER)).
  assert (X23 := proj1 (sscan_spec bm _ _ _ _ _ _ EE)).
  assert (X34 := proj1 (sscan_spec bm _ _ _ _ _ _ EO)).
  assert (X24 := ext_trans _ _ _ X23 X34). assert (X14 := ext_trans _ _ _ X12 X24). assert (X04 := ext_trans _ _ _ X01 X14).
  destruct (sscan_spec bm _ _ _ _ _ _ EL) as [_ [NL [_ [UL _]]]].
  destruct (sscan_spec bm _ _ _ _ _ _ ER) as [_ [NR [_ [UR _]]]].
  destruct (sscan_spec bm _ _ _ _ _ _ EE) as [_ [NE [_ _]]].
  destruct (sscan_spec bm _ _ _ _ _ _ EO) as [_ [NO [_ [UO _]]]].
  destruct (Nat.ltb_spec 1 (List.length lu + List.length ru + List.length ou)) as [|LE]; [discriminate|].
  assert (UN : forall x, ~ is_bit bm x -> B s1 x = false \/ B s2 x = false \/ B s4 x = false -> B s4 x = false).
  { intros x Nb Hx. destruct (B s4 x) eqn:Y; auto. exfalso.
    destruct (NO x Y) as [Y3|]; [|easy]. destruct (NE x Y3) as [Y2|]; [|easy]. destruct (NR x Y2) as [Y1|]; [|easy].
    destruct Hx as [?|[?|?]]; congruence. }
  apply bind_ok in H; destruct H as [s5 [E5 H]].
  apply bind_ok in H; destruct H as [s6 [E6 H]].
  apply bind_ok in H; destruct H as [s7 [E7 H]].
  assert (X47 : ext s4 s7).
  { assert (ONE : forall u x a, u = x -> B s4 (N.to_nat u) = false -> lift (assign s4 (N.to_nat x) a) = Ok s7 -> ext s4 s7).
    { intros u x a -> P Q. apply lift_ok in Q. eapply assign_ext; eauto. }
    destruct lu as [|x [|? ?]]; [|destruct ru; [|cbn in LE; lia]; destruct ou; [|cbn in LE; lia]|cbn in LE; lia].
    1: destruct ru as [|x [|? ?]]; [|destruct ou; [|cbn in LE; lia]|cbn in LE; lia].
    1: destruct ou as [|x [|? ?]]; [| |cbn in LE; lia].
    - injection E5 as <-. injection E6 as <-. injection E7 as <-. apply ext_refl.
    - injection E5 as <-. injection E6 as <-. destruct (UO x (or_introl eq_refl)) as [_ [Bx Nb]].
      repeat (apply bind_ok in E7; destruct E7 as [? [_ E7]]). eapply ONE; eauto.
    - injection E5 as <-. injection E7 as <-. destruct (UR x (or_introl eq_refl)) as [_ [Bx Nb]].
      apply bind_ok in E6; destruct E6 as [sl [_ E6]]. destruct (sl =? 0); [discriminate|].
      repeat (apply bind_ok in E6; destruct E6 as [? [_ E6]]). eapply ONE; eauto.
    - injection E6 as <-. injection E7 as <-. destruct (UL x (or_introl eq_refl)) as [_ [Bx Nb]].
      apply bind_ok in E5; destruct E5 as [sl [_ E5]]. destruct (sl =? 0); [discriminate|].
      repeat (apply bind_ok in E5; destruct E5 as [? [_ E5]]). eapply ONE; eauto. }
  apply bind_ok in H; destruct H as [[[lk' lu'] s1'] [EL' H]]; apply lift_ok in EL'.
  apply bind_ok in H; destruct H as [[[rk' ru'] s2'] [ER' H]]; apply lift_ok in ER'.
  apply bind_ok in H; destruct H as [[[ek' eu'] s3'] [EE' H]]; apply lift_ok in EE'.
  apply bind_ok in H; destruct H as [[[ok' ou'] s4'] [EO' H]]; apply lift_ok in EO'.
  destruct lu'; [|discriminate]. destruct ru'; [|discriminate]. destruct ou'; [|discriminate]. destruct eu'; [|discriminate].
  destruct (srescan _ _ _ _ _ _ _ _ WL EL (ext_trans _ _ _ X14 X47) EL') as [-> [AL KL]].
  destruct (srescan _ _ _ _ _ _ _ _ WR ER (ext_trans _ _ _ X24 X47) ER') as [-> [AR KR]].
  destruct (srescan _ _ _ _ _ _ _ _ WE EE (ext_trans _ _ _ X34 X47) EE') as [-> [AE KE]].
  destruct (srescan _ _ _ _ _ _ _ _ WO EO X47 EO') as [-> [AO KO]].
  apply bind_ok in H; destruct H as [sr [Esr H]]. apply bind_ok in H; destruct H as [sl [Esl H]].
  apply bind_ok in H; destruct H as [se [Ese H]]. apply bind_ok in H; destruct H as [so [Eso H]].
  destruct (Z.eqb_spec (fadd q (fmul q sr sl) (gx se)) so) as [EQ|]; [|discriminate]. injection H as <-.
  apply stotal_ok in Esr; [|lia]. apply stotal_ok in Esl; [|lia]. apply stotal_ok in Ese; [|lia]. apply stotal_ok in Eso; [|lia].
  destruct Esr as [_ Esr]. destruct Esl as [_ Esl]. destruct Ese as [Pse Ese]. destruct Eso as [_ Eso].
  rewrite AL in Esl. rewrite AR in Esr. rewrite AE in Ese. rewrite AO in Eso.
  split; [eapply ext_trans; eauto|]. intros w A. unfold srow_ok.
  rewrite (edot_agree (ascending (rl r)) w (wit s7)) by (intros k Hk; apply A; auto).
  rewrite (edot_agree (ascending (rr r)) w (wit s7)) by (intros k Hk; apply A; auto).
  rewrite (edot_agree (ascending (re r)) w (wit s7)) by (intros k Hk; apply A; auto).
  rewrite (edot_agree (ascending (ro r)) w (wit s7)) by (intros k Hk; apply A; auto).
  apply cong_mod_iff in Ese; [|lia]. rewrite <- Ese, <- gx_periodic by auto. rewrite <- Esl, <- Esr, <- Eso, <- EQ.
  rewrite fadd_cong, fmul_cong. apply cong_eq. ring.
Qed.

Definition wf_row (r : row tree) : Prop := wf (rl r) /\ wf (rr r) /\ wf (re r) /\ wf (ro r).
Lemma ssolve_rows_sound rs : forall s s', ssolve_rows q gx bm rs s = Ok s' -> Forall wf_row rs ->
  ext s s' /\ forall w, agrees s' w -> Forall (srow_ok q gx w) rs.
Proof.
  induction rs as [|r rs IH]; intros s s' H F; cbn [ssolve_rows] in H.
  - injection H as <-. split; [apply ext_refl|]. intros; constructor.
  - apply bind_ok in H. destruct H as [s1 [E H]]. inversion F as [|? ? [W1 [W2 [W3 W4]]] F']; subst.
    destruct (ssolve_row_sound r s s1 E W1 W2 W3 W4) as [X S1].
    destruct (IH s1 s' H F') as [X2 S2]. split; [eapply ext_trans; eauto|]. intros w A. constructor; auto. apply S1. eapply agrees_ext; eauto.
Qed.
End Sparse.

(** ** Known wires are never overwritten *)
Section Extends.
Variables (q : Z) (gx : Z -> Z) (bm : bitmap).
Lemma solve_row_ext r s s' : solve_row q gx bm r s = Ok s' -> ext s s'.
Proof.
  unfold solve_row. intros H.
  apply bind_ok in H; destruct H as [[[lk lu] s1] [EL H]]; apply lift_ok in EL.
  apply bind_ok in H; destruct H as [[[rk ru] s2] [ER H]]; apply lift_ok in ER.
  apply bind_ok in H; destruct H as [[[ek eu] s3] [EE H]]; apply lift_ok in EE.
  destruct eu as [|]; [|discriminate].
  apply bind_ok in H; destruct H as [[[ok ou] s4] [EO H]]; apply lift_ok in EO.
  destruct (scan_spec bm _ _ _ _ _ _ EL) as [X01 [_ [NL [UL _]]]].
  destruct (scan_spec bm _ _ _ _ _ _ ER) as [X12 [_ [NR [UR _]]]].
  destruct (scan_spec bm _ _ _ _ _ _ EE) as [X23 [_ [NE _]]].
  destruct (scan_spec bm _ _ _ _ _ _ EO) as [X34 [_ [NO [UO _]]]].
  assert (X04 : ext s s4) by (repeat (eapply ext_trans; [eassumption|]); apply ext_refl).
  destruct (Nat.ltb_spec 1 (List.length lu + List.length ru + List.length ou)) as [|LE]; [discriminate|].
  assert (FIN : forall x v, ~ is_bit bm x -> B s1 x = false \/ B s2 x = false \/ B s4 x = false -> lift (assign s4 x v) = Ok s' -> ext s s').
  { intros x v Nb Hx EA. apply lift_ok in EA. eapply ext_trans; [exact X04|]. eapply assign_ext; [exact EA|].
    destruct (B s4 x) eqn:Y; auto. exfalso.
    destruct (NO x Y) as [Y3|]; [|easy]. destruct (NE x Y3) as [Y2|]; [|easy]. destruct (NR x Y2) as [Y1|]; [|easy].
    destruct Hx as [?|[?|?]]; congruence. }
  destruct lu as [|x [|? ?]]; [|destruct ru; [|cbn in LE; lia]; destruct ou; [|cbn in LE; lia]|cbn in LE; lia].
  1: destruct ru as [|x [|? ?]]; [|destruct ou; [|cbn in LE; lia]|cbn in LE; lia].
  1: destruct ou as [|x [|? ?]]; [| |cbn in LE; lia].
  - apply bind_ok in H; destruct H as [[[lk' lu'] s1'] [EL' H]]; apply lift_ok in EL'.
    apply bind_ok in H; destruct H as [[[rk' ru'] s2'] [ER' H]]; apply lift_ok in ER'.
    apply bind_ok in H; destruct H as [[[ek' eu'] s3'] [EE' H]]; apply lift_ok in EE'.
    apply bind_ok in H; destruct H as [[[ok' ou'] s4'] [EO' H]]; apply lift_ok in EO'.
    assert (X1 := proj1 (scan_spec bm _ _ _ _ _ _ EL')). assert (X2 := proj1 (scan_spec bm _ _ _ _ _ _ ER')).
    assert (X3 := proj1 (scan_spec bm _ _ _ _ _ _ EE')). assert (X4 := proj1 (scan_spec bm _ _ _ _ _ _ EO')).
    destruct lu'; [|discriminate]. destruct ru'; [|discriminate]. destruct ou'; [|discriminate]. destruct eu'; [|discriminate].
    do 4 (apply bind_ok in H; destruct H as [? [_ H]]). destruct (_ =? _); [|discriminate]. injection H as <-.
    repeat (eapply ext_trans; [eassumption|]). apply ext_refl.
  - destruct (UO x (or_introl eq_refl)) as [Bx [Nb _]]. repeat (apply bind_ok in H; destruct H as [? [_ H]]). eapply FIN; eauto.
  - destruct (UR x (or_introl eq_refl)) as [Bx [Nb _]]. apply bind_ok in H; destruct H as [? [_ H]].
    destruct (_ =? _); [discriminate|]. repeat (apply bind_ok in H; destruct H as [? [_ H]]). eapply FIN; eauto.
  - destruct (UL x (or_introl eq_refl)) as [Bx [Nb _]]. apply bind_ok in H; destruct H as [? [_ H]].
    destruct (_ =? _); [discriminate|]. repeat (apply bind_ok in H; destruct H as [? [_ H]]). eapply FIN; eauto.
Qed.
Lemma solve_rows_ext rs : forall s s', solve_rows q gx bm rs s = Ok s' -> ext s s'.
Proof.
  induction rs as [|r rs IH]; intros s s' H; cbn [solve_rows] in H; [injection H as <-; apply ext_refl|].
  apply bind_ok in H. destruct H as [s1 [E H]]. eapply ext_trans; [eapply solve_row_ext; eauto|auto].
Qed.
Lemma ssolve_row_ext r s s' : ssolve_row q gx bm r s = Ok s' -> ext s s'.
Proof.
  unfold ssolve_row. intros H.
  apply bind_ok in H; destruct H as [[[lk lu] s1] [EL H]]; apply lift_ok in EL.
  apply bind_ok in H; destruct H as [[[rk ru] s2] [ER H]]; apply lift_ok in ER.
  apply bind_ok in H; destruct H as [[[ek eu] s3] [EE H]]; apply lift_ok in EE.
  destruct eu as [|]; [|discriminate].
  apply bind_ok in H; destruct H as [[[ok ou] s4] [EO H]]; apply lift_ok in EO.
  destruct (sscan_spec bm _ _ _ _ _ _ EL) as [X01 [NL [_ [UL _]]]].
  destruct (sscan_spec bm _ _ _ _ _ _ ER) as [X12 [NR [_ [UR _]]]].
  destruct (sscan_spec bm _ _ _ _ _ _ EE) as [X23 [NE [_ _]]].
  destruct (sscan_spec bm _ _ _ _ _ _ EO) as [X34 [NO [_ [UO _]]]].
  assert (X04 : ext s s4) by (repeat (eapply ext_trans; [eassumption|]); apply ext_refl).
  destruct (Nat.ltb_spec 1 (List.length lu + List.length ru + List.length ou)) as [|LE]; [discriminate|].
  apply bind_ok in H; destruct H as [s5 [E5 H]].
  apply bind_ok in H; destruct H as [s6 [E6 H]].
  apply bind_ok in H; destruct H as [s7 [E7 H]].
  assert (X47 : ext s4 s7).
  { assert (FIN : forall x v, ~ is_bit bm x -> B s1 x = false \/ B s2 x = false \/ B s4 x = false -> lift (assign s4 x v) = Ok s7 -> ext s4 s7).
    { intros x v Nb Hx EA. apply lift_ok in EA. eapply assign_ext; [exact EA|].
      destruct (B s4 x) eqn:Y; auto. exfalso.
      destruct (NO x Y) as [Y3|]; [|easy]. destruct (NE x Y3) as [Y2|]; [|easy]. destruct (NR x Y2) as [Y1|]; [|easy].
      destruct Hx as [?|[?|?]]; congruence. }
    destruct lu as [|x [|? ?]]; [|destruct ru; [|cbn in LE; lia]; destruct ou; [|cbn in LE; lia]|cbn in LE; lia].
    1: destruct ru as [|x [|? ?]]; [|destruct ou; [|cbn in LE; lia]|cbn in LE; lia].
    1: destruct ou as [|x [|? ?]]; [| |cbn in LE; lia].
    - injection E5 as <-. injection E6 as <-. injection E7 as <-. apply ext_refl.
    - injection E5 as <-. injection E6 as <-. destruct (UO x (or_introl eq_refl)) as [_ [Bx Nb]].
      repeat (apply bind_ok in E7; destruct E7 as [? [_ E7]]). eapply FIN; eauto.
    - injection E5 as <-. injection E7 as <-. destruct (UR x (or_introl eq_refl)) as [_ [Bx Nb]].
      apply bind_ok in E6; destruct E6 as [sl [_ E6]]. destruct (sl =? 0); [discriminate|].
      repeat (apply bind_ok in E6; destruct E6 as [? [_ E6]]). eapply FIN; eauto.
    - injection E6 as <-. injection E7 as <-. destruct (UL x (or_introl eq_refl)) as [_ [Bx Nb]].
      apply bind_ok in E5; destruct E5 as [sl [_ E5]]. destruct (sl =? 0); [discriminate|].
      repeat (apply bind_ok in E5; destruct E5 as [? [_ E5]]). eapply FIN; eauto. }
  apply bind_ok in H; destruct H as [[[lk' lu'] s1'] [EL' H]]; apply lift_ok in EL'.
  apply bind_ok in H; destruct H as [[[rk' ru'] s2'] [ER' H]]; apply lift_ok in ER'.
  apply bind_ok in H; destruct H as [[[ek' eu'] s3'] [EE' H]]; apply lift_ok in EE'.
  apply bind_ok in H; destruct H as [[[ok' ou'] s4'] [EO' H]]; apply lift_ok in EO'.
  assert (X1 := proj1 (sscan_spec bm _ _ _ _ _ _ EL')). assert (X2 := proj1 (sscan_spec bm _ _ _ _ _ _ ER')).
  assert (X3 := proj1 (sscan_spec bm _ _ _ _ _ _ EE')). assert (X4 := proj1 (sscan_spec bm _ _ _ _ _ _ EO')).
  destruct lu'; [|discriminate]. destruct ru'; [|discriminate]. destruct ou'; [|discriminate]. destruct eu'; [|discriminate].
  do 4 (apply bind_ok in H; destruct H as [? [_ H]]). destruct (_ =? _); [|discriminate]. injection H as <-.
  repeat (eapply ext_trans; [eassumption|]). apply ext_refl.
Qed.
Lemma ssolve_rows_ext rs : forall s s', ssolve_rows q gx bm rs s = Ok s' -> ext s s'.
Proof.
  induction rs as [|r rs IH]; intros s s' H; cbn [ssolve_rows] in H; [injection H as <-; apply ext_refl|].
  apply bind_ok in H. destruct H as [s1 [E H]]. eapply ext_trans; [eapply ssolve_row_ext; eauto|auto].
Qed.
End Extends.

(** ** Start of the solver *)
Lemma note_bits_get zs : forall b father pos j, bm_get (note_bits b father pos zs) j <> None -> bm_get b j <> None \/ In j zs.
Proof.
  induction zs as [|z zs IH]; intros b father pos j H; cbn [note_bits] in H; [auto|].
  destruct (IH _ _ _ _ H) as [P|P]; [|right; now right]. cbn [bm_get] in P. destruct (Nat.eqb_spec z j) as [->|]; [right; now left|auto].
Qed.
Lemma put_splits_bits m sp : forall s b s' b', put_splits m s b sp = Some (s', b') ->
  forall j, bm_get b' j <> None -> bm_get b j <> None \/ In j (bit_indices sp).
Proof.
  induction sp as [|[k zs] sp IH]; intros s b s' b' E j Hj; cbn [put_splits] in E.
  - injection E as <- <-. auto.
  - destruct (nth_error _ _) as [kn|]; [|discriminate]. destruct (if kn then _ else _) as [s1|]; [|discriminate].
    destruct (IH _ _ _ _ E j Hj) as [P|P]; [|right; cbn; apply in_app_iff; auto].
    destruct (note_bits_get _ _ _ _ _ P); auto. right. cbn. apply in_app_iff. auto.
Qed.
Lemma start_bits m sp rnd inp s b : start m sp rnd inp = Some (s, b) -> forall j, is_bit b j -> In j (bit_indices sp).
Proof.
  unfold start. destruct (assign _ 0 1) as [s0|]; [|discriminate]. destruct (if Nat.eqb _ 0 then _ else _) as [s1|]; [|discriminate].
  destruct (put_inputs m s1 inp) as [s2|]; [|discriminate]. intros E j Hj.
  destruct (put_splits_bits _ _ _ _ _ _ E j Hj) as [P|P]; auto. easy.
Qed.

(** Wires outside [F] keep knowledge and value. *)
Definition keeps (F : list nat) (s s' : state) : Prop :=
  List.length (wit s') = List.length (wit s) /\ List.length (isset s') = List.length (isset s) /\
  forall x, (~ In x F -> B s' x = B s x /\ W s' x = W s x) /\ (B s x = true -> B s' x = true).
Lemma keeps_refl F s : keeps F s s.
Proof. repeat split; auto. Qed.
Lemma keeps_trans F a b c : keeps F a b -> keeps F b c -> keeps F a c.
Proof.
  intros [L1 [L2 H1]] [M1 [M2 H2]]. split; [congruence|]. split; [congruence|]. intros x. destruct (H1 x) as [P P']. destruct (H2 x) as [Q Q'].
  split; [|auto]. intros Hx. destruct (P Hx), (Q Hx). split; congruence.
Qed.
Lemma assign_keeps F s i v s' : In i F -> assign s i v = Some s' -> keeps F s s'.
Proof.
  intros Hi E. destruct (assign_spec _ _ _ _ E) as [_ [_ [L1 [L2 [HW HB]]]]]. split; [auto|]. split; [auto|].
  intros x. rewrite HW, HB. destruct (Nat.eqb_spec x i) as [->|]; split; auto; easy.
Qed.
Lemma put_bits_keeps zs : forall F s father pos s', incl zs F -> put_bits s father pos zs = Some s' -> keeps F s s'.
Proof.
  induction zs as [|z zs IH]; intros F s father pos s' HI E; cbn [put_bits] in E.
  - injection E as <-. apply keeps_refl.
  - destruct (nth_error (wit s) father) as [v|]; [|discriminate]. destruct (assign s z _) as [s1|] eqn:EA; [|discriminate].
    eapply keeps_trans; [eapply assign_keeps; [|exact EA]; apply HI; now left|]. eapply IH; [|exact E]. intros y Hy. apply HI. now right.
Qed.
Lemma put_splits_keeps m sp : forall F s b s' b', incl (bit_indices sp) F -> put_splits m s b sp = Some (s', b') -> keeps F s s'.
Proof.
  induction sp as [|[k zs] sp IH]; intros F s b s' b' HI E; cbn [put_splits] in E.
  - injection E as <- <-. apply keeps_refl.
  - destruct (nth_error _ _) as [kn|]; [|discriminate]. destruct (if kn then _ else _) as [s1|] eqn:E1; [|discriminate].
    cbn in HI. eapply keeps_trans; [|eapply IH; [|exact E]; intros y Hy; apply HI, in_app_iff; auto].
    destruct kn; [|injection E1 as <-; apply keeps_refl]. eapply put_bits_keeps; [|exact E1]. intros y Hy. apply HI, in_app_iff. auto.
Qed.
Lemma put_inputs_spec m inp : forall s s', put_inputs m s inp = Some s' -> NoDup (map (fun e => im_idx m (fst e)) inp) ->
  keeps (map (fun e => im_idx m (fst e)) inp) s s' /\
  forall x v, In (x, v) inp -> B s' (im_idx m x) = true /\ W s' (im_idx m x) = v.
Proof.
  induction inp as [|[y u] inp IH]; intros s s' E ND; cbn [put_inputs] in E.
  - injection E as <-. split; [apply keeps_refl|]. intros ? ? [].
  - destruct (assign s (im_idx m y) u) as [s1|] eqn:EA; [|discriminate]. cbn [map fst] in *.
    inversion ND as [|? ? N1 N2]; subst. destruct (IH s1 s' E N2) as [K H]. split.
    + eapply keeps_trans; [eapply assign_keeps; [|exact EA]; now left|]. destruct K as [L1 [L2 K]]. split; [auto|]. split; [auto|].
      intros x. split; [|apply K]. intros Hx. apply K. intros Hi. apply Hx. now right.
    + intros x v [Ex|Hx]; [|auto]. injection Ex as -> ->. destruct (assign_spec _ _ _ _ EA) as [_ [_ [_ [_ [HW HB]]]]].
      destruct K as [_ [_ K]]. destruct (K (im_idx m x)) as [K1 _]. destruct (K1 N1) as [-> ->].
      rewrite HW, HB, Nat.eqb_refl. auto.
Qed.

(** Index 0 and the inputs after the start. *)
Lemma start_inputs m sp rnd inp s b : start m sp rnd inp = Some (s, b) ->
  NoDup (map (fun e => im_idx m (fst e)) inp) ->
  (forall x, In x (map (fun e => im_idx m (fst e)) inp) -> x <> O /\ ~ In x (bit_indices sp)) -> ~ In O (bit_indices sp) ->
  B s 0 = true /\ W s 0 = 1 /\ forall x v, In (x, v) inp -> B s (im_idx m x) = true /\ W s (im_idx m x) = v.
Proof.
  unfold start. destruct (assign _ 0 1) as [s0|] eqn:E0; [|discriminate].
  destruct (if Nat.eqb _ 0 then _ else _) as [s1|] eqn:E1; [|discriminate].
  destruct (put_inputs m s1 inp) as [s2|] eqn:E2; [|discriminate]. intros E3 ND HI H0.
  destruct (put_inputs_spec _ _ _ _ E2 ND) as [K2 I2].
  assert (K3 := put_splits_keeps _ _ _ _ _ _ _ (incl_refl _) E3).
  destruct (assign_spec _ _ _ _ E0) as [_ [_ [_ [_ [HW HB]]]]].
  assert (P1 : B s1 0 = true /\ W s1 0 = 1).
  { destruct (Nat.eqb_spec (im_idx m rand_in) 0) as [|N]; [injection E1 as <-; rewrite HW, HB; auto|].
    destruct (assign_spec _ _ _ _ E1) as [_ [_ [_ [_ [HW1 HB1]]]]]. rewrite HW1, HB1.
    rewrite (proj2 (Nat.eqb_neq 0 (im_idx m rand_in))) by auto. rewrite HW, HB. auto. }
  assert (P2 : B s2 0 = true /\ W s2 0 = 1).
  { destruct K2 as [_ [_ K2]]. destruct (K2 O) as [K _]. destruct K as [-> ->]; auto. intros C. now destruct (HI _ C). }
  destruct K3 as [_ [_ K3]]. split; [|split].
  - apply K3. apply P2.
  - destruct (K3 O) as [K _]. destruct K as [_ ->]; auto. apply P2.
  - intros x v Hx. destruct (K3 (im_idx m x)) as [K _]. destruct K as [-> ->]; auto.
    apply (HI (im_idx m x)). apply in_map_iff. exists (x, v). auto.
Qed.

Lemma put_inputs_len m inp : forall s s', put_inputs m s inp = Some s' ->
  List.length (wit s') = List.length (wit s) /\ List.length (isset s') = List.length (isset s).
Proof.
  induction inp as [|[y u] inp IH]; intros s s' E; cbn [put_inputs] in E; [injection E as <-; auto|].
  destruct (assign s (im_idx m y) u) as [s1|] eqn:EA; [|discriminate]. destruct (IH _ _ E) as [-> ->].
  destruct (assign_spec _ _ _ _ EA) as [_ [_ [L1 [L2 _]]]]. auto.
Qed.
Lemma start_len m sp rnd inp s b : start m sp rnd inp = Some (s, b) ->
  List.length (wit s) = List.length m /\ List.length (isset s) = List.length m.
Proof.
  unfold start. destruct (assign _ 0 1) as [s0|] eqn:E0; [|discriminate].
  destruct (if Nat.eqb _ 0 then _ else _) as [s1|] eqn:E1; [|discriminate].
  destruct (put_inputs m s1 inp) as [s2|] eqn:E2; [|discriminate]. intros E3.
  destruct (put_splits_keeps _ _ _ _ _ _ _ (incl_refl _) E3) as [-> [-> _]]. destruct (put_inputs_len _ _ _ _ E2) as [-> ->].
  assert (List.length (wit s1) = List.length (wit s0) /\ List.length (isset s1) = List.length (isset s0)) as [-> ->].
  { destruct (Nat.eqb _ 0); [injection E1 as <-; auto|]. destruct (assign_spec _ _ _ _ E1) as [_ [_ [L1 [L2 _]]]]. auto. }
  destruct (assign_spec _ _ _ _ E0) as [_ [_ [-> [-> _]]]]. cbn. unfold zeros. rewrite !repeat_length. auto.
Qed.

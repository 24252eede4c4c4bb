(** Every point of y^2 = x^3 + 3 over Z/P is a multiple of the generator (1, 2).  Three cosets of
    the multiples of the generator would be more points than the curve can have. *)
Require Import ZArith Znumtheory Bool List Lia Setoid Morphisms.
Require Import Verif.Cong Verif.Ext Verif.FqModel Verif.Pocklington Verif.TowerModel Verif.TowerSpec Verif.TowerProofs Verif.FieldProofs
  Verif.FrobProofs Verif.CurveModel Verif.CurveSpec Verif.JacProofs Verif.AssocProofs Verif.CurveGroup Verif.CurveProofs Verif.OrderProofs.
Import ListNotations.
Open Scope Z_scope.
Local Existing Instance apoint_equiv.

Definition enc (s : apoint FP) : Z :=
  match s with
  | None => 2 * P
  | Some (x, y) => 2 * ((x : Z) mod P) + (if P <? 2 * ((y : Z) mod P) then 1 else 0)
  end.
Lemma enc_range s : 0 <= enc s < 2 * P + 1.
Proof.
  destruct s as [[x y]|]; cbn [enc].
  - change Z in (type of x). change Z in (type of y). assert (H := Z.mod_pos_bound x P P_pos). destruct (P <? _); lia.
  - assert (H := P_pos). lia.
Qed.
Lemma half_eq a a' (c c' : bool) : 2 * a + (if c then 1 else 0) = 2 * a' + (if c' then 1 else 0) -> a = a' /\ c = c'.
Proof. destruct c, c'; intros; split; lia || reflexivity. Qed.
Lemma enc_inj s t : E1 s -> E1 t -> enc s = enc t -> apoint_eq s t.
Proof.
  destruct s as [[x y]|], t as [[x' y']|]; cbn [enc apoint_eq]; auto; try exact (fun _ _ _ => I).
  - change Z in (type of x). change Z in (type of y). change Z in (type of x'). change Z in (type of y').
    intros O O' E. change (y * y ==[P] x * x * x + 3) in O. change (y' * y' ==[P] x' * x' * x' + 3) in O'.
    change (x ==[P] x' /\ y ==[P] y').
    assert (Hx := Z.mod_pos_bound x P P_pos). assert (Hx' := Z.mod_pos_bound x' P P_pos).
    assert (Hy := Z.mod_pos_bound y P P_pos). assert (Hy' := Z.mod_pos_bound y' P P_pos).
    destruct (half_eq _ _ _ _ E) as [EX EB].
    assert (X : x ==[P] x') by (rewrite <- (cong_mod P x), <- (cong_mod P x'), EX; reflexivity). split; [exact X|].
    assert (Q : (y - y') * (y + y') ==[P] 0).
    { transitivity (y * y - y' * y'); [apply cong_eq; ring|]. rewrite O, O', X. apply cong_eq. ring. }
    apply (cong_integral P prime_P) in Q. destruct Q as [Q|Q]; [now apply cong_sub_0|].
    assert (S : y mod P + y' mod P ==[P] 0) by (rewrite !cong_mod; exact Q).
    apply cong_0_iff in S. destruct S as [k K].
    rewrite <- (cong_mod P y), <- (cong_mod P y').
    destruct (Z.ltb_spec P (2 * (y mod P))), (Z.ltb_spec P (2 * (y' mod P))); try discriminate.
    + exfalso. assert (k < 2) by nia. assert (1 < k) by nia. lia.
    + assert (k <= 1) by nia. assert (0 <= k) by nia. assert (k = 0 \/ k = 1) as [->| ->] by lia.
      * apply cong_eq. lia.
      * exfalso. assert (E2 : 2 * (y mod P) = P) by lia. apply (f_equal Z.odd) in E2. rewrite Z.odd_mul in E2. discriminate.
  - change Z in (type of x). assert (H := Z.mod_pos_bound x P P_pos). intros _ _ E. destruct (P <? _); lia.
  - change Z in (type of x'). assert (H := Z.mod_pos_bound x' P P_pos). intros _ _ E. destruct (P <? _); lia.
Qed.

(** ** Cosets. *)
Definition in_G (s : apoint FP) : Prop := exists n, multiple G1 n s.
Lemma G1_nz : G1 <> None. Proof. discriminate. Qed.
Local Notation SC := (sum_cancel FP FP_field FP_two FP_three 3 FP_b).
Local Notation MS := (mult_sum FP FP_field FP_two FP_three 3 FP_b).
Local Notation MA := (mult_add FP FP_field FP_two FP_three 3 FP_b).
Local Notation MAI := (mult_add_inv FP FP_field FP_two FP_three 3 FP_b).
Local Notation AR := (assoc_r FP FP_field FP_two FP_three 3 FP_b).
Local Notation MC := (mult_cong FP FP_field FP_two FP_three 3 FP_b G1 G1_on Order prime_Order order_G1 G1_nz).
Local Notation OD := (order_div FP FP_field FP_two FP_three 3 FP_b G1 G1_on Order prime_Order order_G1 G1_nz).
Local Notation EX := (sum_ex FP FP_field FP_two 3).
Local Notation CL := (cancel_l FP FP_field FP_two FP_three 3 FP_b).
Lemma in_G_on s : in_G s -> E1 s.
Proof. intros [n H]. exact (mult_on FP FP_field 3 G1 n s G1_on H). Qed.
Lemma Order_pos : 0 < Order. Proof. reflexivity. Qed.
Lemma in_G_opp s : in_G s -> in_G (opposite s).
Proof.
  intros [n H]. exists (n * Z.to_nat (Order - 1))%nat.
  destruct (mult_ex FP FP_field FP_two 3 G1 (n * Z.to_nat (Order - 1)) G1_on) as [v V].
  apply (mult_eq FP G1 _ v); auto. apply opp_unique.
  apply (MAI G1 n (n * Z.to_nat (Order - 1)) s v None G1_on H V). apply OD.
  exists (Z.of_nat n). rewrite Nat2Z.inj_add, Nat2Z.inj_mul, Z2Nat.id by (pose proof Order_pos; lia). ring.
Qed.
Lemma in_G_sum s t u : in_G s -> in_G t -> ct_sum s t u -> in_G u.
Proof. intros [n H] [m H'] S. exists (n + m)%nat. now apply (MA G1 n m s t u G1_on). Qed.
Lemma in_G_eq s t : in_G s -> apoint_eq s t -> in_G t.
Proof. intros [n H] E. exists n. now apply (mult_eq FP G1 n s). Qed.
(** If two cosets meet, the difference is a multiple. *)
Lemma coset_meet x y u1 u2 s s' : E1 x -> E1 y -> in_G u1 -> in_G u2 -> ct_sum x u1 s -> ct_sum y u2 s' -> apoint_eq s s' ->
  exists w, in_G w /\ ct_sum x w y.
Proof.
  intros Ox Oy I1 I2 S1 S2 E. assert (O1 := in_G_on _ I1). assert (O2 := in_G_on _ I2).
  assert (I3 := in_G_opp _ I2). assert (O3 := in_G_on _ I3).
  assert (C : ct_sum s (opposite u2) y).
  { apply (sum_m FP s' s (opposite u2) (opposite u2) y y); try reflexivity; [now symmetry|]. now apply SC. }
  destruct (EX u1 (opposite u2) O1 O3) as (w & W & Ow). exists w. split; [now apply (in_G_sum u1 (opposite u2))|].
  exact (AR x u1 (opposite u2) s w y Ox O1 O3 S1 W C).
Qed.
Lemma coset_list x n : E1 x -> Z.of_nat n <= Order -> exists l, length l = n /\ NoDup l /\
  forall e, In e l -> exists i u s, (i < n)%nat /\ multiple G1 i u /\ ct_sum x u s /\ enc s = e.
Proof.
  intros Ox. induction n as [|n IH]; intros L.
  - exists []. split; [reflexivity|]. split; [constructor|]. intros e [].
  - destruct IH as (l & Ll & Nl & Hl); [lia|].
    destruct (mult_ex FP FP_field FP_two 3 G1 n G1_on) as [u U].
    assert (Ou := mult_on FP FP_field 3 G1 n u G1_on U).
    destruct (EX x u Ox Ou) as (s & S & Os).
    exists (enc s :: l). split; [cbn; lia|]. split.
    + constructor; auto. intros I. destruct (Hl _ I) as (i & v & t & Li & V & T & E).
      assert (Ov := mult_on FP FP_field 3 G1 i v G1_on V).
      assert (Ot := sum_on_curve FP FP_field 3 x v t Ox Ov T).
      assert (E' := enc_inj t s Ot Os E).
      assert (UV : apoint_eq v u).
      { apply (CL x v u s); auto. apply (sum_eq FP x v t s); auto. }
      apply (MC i n v u V U) in UV. apply cong_sym in UV. destruct UV as [k K].
      assert (0 < k * Order < Order) by lia. assert (Q := Order_pos). set (o := Order) in *. assert (k <= 0 \/ 1 <= k) as [|] by lia; nia.
    + intros e [<-|I].
      * exists n, u, s. auto.
      * destruct (Hl e I) as (i & v & t & Li & R). exists i, v, t. split; [lia|exact R].
Qed.
Lemma NoDup_app3 (A : Type) (l1 l2 : list A) : NoDup l1 -> NoDup l2 -> (forall e, In e l1 -> In e l2 -> False) -> NoDup (l1 ++ l2).
Proof.
  intros N1 N2 D. induction N1 as [|a l H N IH]; [exact N2|]. cbn. constructor.
  - rewrite in_app_iff. intros [I|I]; [auto|]. apply (D a); [now left|exact I].
  - apply IH. intros e I1 I2. apply (D e); [now right|exact I2].
Qed.
Lemma NoDup_bound (l : list Z) m : 0 <= m -> NoDup l -> (forall e, In e l -> 0 <= e < m) -> Z.of_nat (length l) <= m.
Proof.
  intros M N B.
  assert (H : (length l <= length (map Z.of_nat (seq 0 (Z.to_nat m))))%nat).
  { apply NoDup_incl_length; auto. intros e I. apply B in I. apply in_map_iff. exists (Z.to_nat e). split; [lia|]. apply in_seq. lia. }
  rewrite map_length, seq_length in H. lia.
Qed.
Lemma three_cosets a b : E1 a -> E1 b -> ~ in_G a -> ~ in_G b -> ~ (exists w, in_G w /\ ct_sum a w b) -> False.
Proof.
  intros Oa Ob Na Nb Nab. assert (Q := Order_pos).
  assert (QQ : 2 * P + 1 < 3 * Order) by reflexivity.
  set (o := Order) in *.
  destruct (coset_list None (Z.to_nat o) I ltac:(unfold o in *; lia)) as (l0 & L0 & N0 & H0).
  destruct (coset_list a (Z.to_nat o) Oa ltac:(unfold o in *; lia)) as (l1 & L1 & N1 & H1).
  destruct (coset_list b (Z.to_nat o) Ob ltac:(unfold o in *; lia)) as (l2 & L2 & N2 & H2).
  assert (MEET : forall x y n l l', E1 x -> E1 y ->
    (forall e, In e l -> exists i u s, (i < n)%nat /\ multiple G1 i u /\ ct_sum x u s /\ enc s = e) ->
    (forall e, In e l' -> exists i u s, (i < n)%nat /\ multiple G1 i u /\ ct_sum y u s /\ enc s = e) ->
    forall e, In e l -> In e l' -> exists w, in_G w /\ ct_sum x w y).
  { intros x y n l l' Ox Oy H H' e I I'. destruct (H e I) as (i & u & s & _ & U & S & E). destruct (H' e I') as (i' & u' & s' & _ & U' & S' & E').
    assert (Ou := mult_on FP FP_field 3 G1 i u G1_on U). assert (Ou' := mult_on FP FP_field 3 G1 i' u' G1_on U').
    apply (coset_meet x y u u' s s'); auto; [now exists i|now exists i'|].
    apply enc_inj; [exact (sum_on_curve FP FP_field 3 _ _ _ Ox Ou S)|exact (sum_on_curve FP FP_field 3 _ _ _ Oy Ou' S')|congruence]. }
  assert (N : NoDup (l0 ++ l1 ++ l2)).
  { apply NoDup_app3; auto; [apply NoDup_app3; auto|].
    - intros e I1 I2. apply Nab. exact (MEET a b _ l1 l2 Oa Ob H1 H2 e I1 I2).
    - intros e I0 I12. apply in_app_iff in I12. destruct I12 as [I1|I2].
      + destruct (MEET None a _ l0 l1 I Oa H0 H1 e I0 I1) as (w & W & S). apply Na. cbn in S. apply (in_G_eq w); auto. now symmetry.
      + destruct (MEET None b _ l0 l2 I Ob H0 H2 e I0 I2) as (w & W & S). apply Nb. cbn in S. apply (in_G_eq w); auto. now symmetry. }
  apply (NoDup_bound _ (2 * P + 1)) in N.
  - rewrite !app_length, L0, L1, L2 in N. assert (Z.of_nat (Z.to_nat o) = o) by (apply Z2Nat.id; lia). lia.
  - assert (PP := P_pos). lia.
  - intros e I. assert (R : exists s, enc s = e).
    { apply in_app_iff in I. destruct I as [I|I]; [|apply in_app_iff in I; destruct I as [I|I]].
      - destruct (H0 e I) as (_ & _ & s & _ & _ & _ & E). eauto.
      - destruct (H1 e I) as (_ & _ & s & _ & _ & _ & E). eauto.
      - destruct (H2 e I) as (_ & _ & s & _ & _ & _ & E). eauto. }
    destruct R as [s <-]. apply enc_range.
Qed.
(** Being a multiple is decidable: n runs below Order. *)
Lemma in_G_small s : in_G s -> exists n, (n < Z.to_nat Order)%nat /\ multiple G1 n s.
Proof.
  intros [n H]. assert (Q := Order_pos). assert (B := Z.mod_pos_bound (Z.of_nat n) Order Q).
  exists (Z.to_nat (Z.of_nat n mod Order)). split; [apply Z2Nat.inj_lt; lia|].
  destruct (mult_ex FP FP_field FP_two 3 G1 (Z.to_nat (Z.of_nat n mod Order)) G1_on) as [v V].
  apply (mult_eq FP G1 _ v); auto. apply (MC _ n v s V H). rewrite Z2Nat.id by lia. apply cong_mod.
Qed.
Lemma ap_dec (s t : apoint FP) : apoint_eq s t \/ ~ apoint_eq s t.
Proof.
  destruct s as [[x y]|], t as [[x' y']|]; cbn [apoint_eq]; auto.
  destruct (f_eq_dec FP FP_field x x'), (f_eq_dec FP FP_field y y'); tauto.
Qed.
Lemma in_G_dec s : in_G s \/ ~ in_G s.
Proof.
  assert (D : forall k, (exists n, (n < k)%nat /\ multiple G1 n s) \/ ~ (exists n, (n < k)%nat /\ multiple G1 n s)).
  { induction k as [|k IH]; [right; intros (n & L & _); lia|].
    destruct IH as [(n & L & H)|IH]; [left; exists n; split; [lia|exact H]|].
    destruct (mult_ex FP FP_field FP_two 3 G1 k G1_on) as [v V]. destruct (ap_dec v s) as [E|E].
    - left. exists k. split; [lia|]. now apply (mult_eq FP G1 k v).
    - right. intros (n & L & H). assert (n < k \/ n = k)%nat as [L'| ->] by lia; [apply IH; eauto|].
      apply E. exact (mult_unique FP FP_field G1 k v s V H). }
  destruct (D (Z.to_nat Order)) as [(n & _ & H)|N]; [left; now exists n|right]. intros I. apply N. now apply in_G_small.
Qed.
(** No multiple of the generator has order 2. *)
Lemma two_tors s : in_G s -> ct_sum s s None -> s = None.
Proof.
  intros [n H] S. assert (M := MA G1 n n s s None G1_on H H S). apply OD in M.
  rewrite Nat2Z.inj_add in M. replace (Z.of_nat n + Z.of_nat n) with (2 * Z.of_nat n) in M by lia.
  apply (prime_mult _ prime_Order) in M. destruct M as [M|M].
  - exfalso. apply Z.divide_pos_le in M; [|lia]. revert M. apply Z.lt_nge. reflexivity.
  - apply OD in M. assert (E := mult_unique FP FP_field G1 n s None H M). destruct s as [[? ?]|]; [contradiction|reflexivity].
Qed.
Definition beta : Z := xiToPSquaredMinus1Over3.
Lemma beta_ok : beta * beta + beta + 1 ==[P] 0.
Proof. apply cong_mod_iff; [discriminate|]. vm_compute. reflexivity. Qed.
Lemma beta_cube : beta * beta * beta ==[P] 1.
Proof.
  transitivity ((beta - 1) * (beta * beta + beta + 1) + 1); [apply cong_eq; ring|]. rewrite beta_ok. apply cong_eq. ring.
Qed.
Lemma beta_1 : ~ beta ==[P] 1.
Proof. intros E. assert (H := beta_ok). rewrite E in H. revert H. change (~ 3 ==[P] 0). apply small_nz. split; reflexivity. Qed.
Theorem all_in_G q : E1 q -> in_G q.
Proof.
  intros Oq. destruct (in_G_dec q) as [I|N]; auto. exfalso.
  destruct (EX q q Oq Oq) as (d & D & Od).
  destruct (in_G_dec d) as [[i HI]|Nd].
  2:{ apply (three_cosets q d); auto. intros (w & W & S). apply N. assert (Ow := in_G_on w W). apply (in_G_eq w); auto. exact (CL q w q d Oq Ow Oq S D). }
  (* t = q - j G with 2 j = i *)
  set (h := (Order + 1) / 2). assert (Hh : 2 * h = Order + 1) by reflexivity. assert (Q := Order_pos). assert (Ph : 0 <= h) by lia.
  set (j := (i * Z.to_nat h)%nat).
  destruct (mult_ex FP FP_field FP_two 3 G1 j G1_on) as [gj J]. assert (Ij : in_G gj) by now exists j. assert (Oj := in_G_on gj Ij).
  assert (Inj := in_G_opp gj Ij). assert (Onj := in_G_on _ Inj).
  destruct (EX q (opposite gj) Oq Onj) as (t & T & Ot).
  assert (TJ : ct_sum t gj q).
  { assert (C := SC q (opposite gj) t Oq Onj T). apply (sum_m FP t t (opposite (opposite gj)) gj q q); auto; try reflexivity. apply opp_opp. }
  assert (Nt : ~ in_G t) by (intros It; apply N; exact (in_G_sum t gj q It Ij TJ)).
  destruct (EX t t Ot Ot) as (v & V & Ov). destruct (EX gj gj Oj Oj) as (w & W & Ow).
  assert (M2 : forall (s s2 : apoint FP), ct_sum s s s2 -> multiple s 2 s2) by (intros s s2 S; exact (multiple_S s 1 s s2 (mult_1 FP s) S)).
  destruct (EX v w Ov Ow) as (x & X & Ox).
  assert (E1' : multiple q 2 x) by exact (MS t gj q 2 v w x Ot Oj TJ (M2 t v V) (M2 gj w W) X).
  assert (E2' : apoint_eq x d) by exact (mult_unique FP FP_field q 2 x d E1' (M2 q d D)).
  assert (WD : apoint_eq w d).
  { assert (MW := MA G1 j j gj gj w G1_on J J W). apply (MC (j + j)%nat i w d MW HI).
    unfold j. rewrite Nat2Z.inj_add, Nat2Z.inj_mul, Z2Nat.id by exact Ph. exists (Z.of_nat i). 
    transitivity (Z.of_nat i * (2 * h) - Z.of_nat i); [ring|]. rewrite Hh. ring. }
  assert (V0 : apoint_eq v None).
  { apply (CL w v None w); auto; [exact I| |apply (sum_inf_r FP); reflexivity]. apply sum_comm. apply (sum_m FP v v w w x w); auto; try reflexivity.
    transitivity d; auto. now symmetry. }
  destruct v as [[? ?]|]; [contradiction|].
  (* t = (x, 0) and (beta x, 0) *)
  destruct t as [[tx ty]|]; [|apply Nt; exists 0%nat; constructor].
  change Z in (type of tx). change Z in (type of ty).
  assert (TY : ty ==[P] - ty).
  { destruct V as [(_ & Y & _)|(m & x3 & y3 & _ & C & _)]; [exact Y|discriminate]. }
  change (ty * ty ==[P] tx * tx * tx + 3) in Ot.
  set (t' := Some (beta * tx, ty) : apoint FP).
  assert (Ot' : E1 t').
  { change (ty * ty ==[P] (beta * tx) * (beta * tx) * (beta * tx) + 3). rewrite Ot.
    transitivity ((beta * beta * beta) * (tx * tx * tx) + 3); [|apply cong_eq; ring]. rewrite beta_cube. apply cong_eq. ring. }
  assert (S2 : ct_sum t' t' None) by (left; split; [reflexivity|]; split; [exact TY|reflexivity]).
  assert (S1 : ct_sum (Some (tx, ty) : apoint FP) (Some (tx, ty)) None) by (left; split; [reflexivity|]; split; [exact TY|reflexivity]).
  apply (three_cosets (Some (tx, ty)) t'); auto.
  - intros It. apply two_tors in It; auto. discriminate.
  - intros (u & Iu & U).
    assert (Ou := in_G_on u Iu).
    (* 2 u = 0, so u = 0 and t = t' *)
    assert (U0 : u = None).
    { apply two_tors; auto. destruct (EX u u Ou Ou) as (z & Z & Oz).
      assert (A := MS (Some (tx, ty)) u t' 2 None z z Ot Ou U (M2 _ None S1) (M2 u z Z) ltac:(cbn; reflexivity)).
      assert (B := mult_unique FP FP_field t' 2 z None A (M2 t' None S2)). destruct z as [[? ?]|]; [contradiction|exact Z]. }
    subst u. destruct U as [U _]. change (beta * tx ==[P] tx) in U.
    assert (TX : tx ==[P] 0).
    { assert (A : (beta - 1) * tx ==[P] 0) by (transitivity (beta * tx - tx); [apply cong_eq; ring|]; rewrite U; apply cong_eq; ring).
      apply (cong_integral P prime_P) in A. destruct A as [A|A]; auto. exfalso. apply beta_1. now apply cong_sub_0. }
    assert (TY0 : ty ==[P] 0).
    { assert (A : 2 * ty ==[P] 0) by (transitivity (ty + ty); [apply cong_eq; ring|]; rewrite TY at 1; apply cong_eq; ring).
      apply (cong_integral P prime_P) in A. destruct A as [A|A]; auto. exfalso. revert A. apply small_nz. split; reflexivity. }
    rewrite TX, TY0 in Ot. apply FP_b. change (3 ==[P] 0). symmetry. exact Ot.
Qed.

(** C102, C103: the printed form of sparse arrays and of group elements. *)
Require Import ZArith NArith Lia Bool Ascii String List Sorted DecimalString.
Require Import Verif.Cong Verif.FqModel Verif.Ext Verif.TowerModel Verif.TowerSpec Verif.TowerProofs Verif.FieldProofs Verif.CurveModel Verif.CurveSpec Verif.JacProofs Verif.CurveProofs Verif.SerialProofs Verif.PropsCurve Verif.PairProofs Verif.BnGroups Verif.PropsKeys.
Require Import Verif.FactorModel Verif.SplitProofs Verif.AvlModel Verif.AvlSpec Verif.AvlProofs Verif.PropsAvl Verif.PrintModel.
Import ListNotations.
Local Open Scope string_scope.
Local Open Scope list_scope.

(** A list of entries written out, in the order of the list. *)
Fixpoint written (l : list (N * Z)) : string :=
  match l with [] => "" | (k, v) :: l' => "(" ++ dec (Z.of_N k) ++ "," ++ dec v ++ ")" ++ written l' end%string.

Lemma append_assoc a b c : ((a ++ b) ++ c = a ++ (b ++ c))%string.
Proof. induction a as [|x a IH]; [reflexivity|]. cbn. now rewrite IH. Qed.
Lemma written_app l l' : written (l ++ l') = (written l ++ written l')%string.
Proof. induction l as [|[k v] l IH]; [reflexivity|]. cbn [app written]. rewrite IH, !append_assoc. reflexivity. Qed.
Lemma print_written t : print t = written (descending t).
Proof.
  induction t as [|l IHl k v h r IHr]; [reflexivity|]. cbn [print descending]. rewrite written_app, IHl, IHr. cbn [written]. unfold node_string. rewrite !append_assoc. reflexivity.
Qed.
Fixpoint free (c : ascii) (s : string) : Prop := match s with EmptyString => True | String d s' => d <> c /\ free c s' end.
Lemma cut c : forall a b x y, free c a -> free c b -> (a ++ String c x = b ++ String c y)%string -> a = b /\ x = y.
Proof.
  induction a as [|d a IH]; intros [|e b] x y A B H; cbn in *.
  - injection H as ->. auto.
  - injection H as H1 _. destruct B as [B _]. congruence.
  - injection H as H1 _. destruct A as [A _]. congruence.
  - injection H as -> H. destruct A as [_ A], B as [_ B]. destruct (IH b x y A B H) as [-> ->]. auto.
Qed.
Lemma dec_free c z : c = ","%char \/ c = ")"%char -> free c (dec z).
Proof.
  intros Hc. assert (U : forall u, free c (NilEmpty.string_of_uint u)) by (induction u; cbn; auto; split; auto; destruct Hc as [->| ->]; discriminate).
  assert (V : forall u, free c (NilZero.string_of_uint u)) by (intros []; [cbn; split; auto; destruct Hc as [->| ->]; discriminate|apply U..]).
  unfold dec. destruct (Z.to_int z) as [u|u]; cbn; [apply V|]. split; [destruct Hc as [->| ->]; discriminate|apply V].
Qed.
Lemma written_inj : forall l l', written l = written l' -> l = l'.
Proof.
  induction l as [|[k v] l IH]; intros [|[k' v'] l'] H; cbn [written] in H; auto; try discriminate.
  cbn in H. injection H as H. apply cut in H; [|apply dec_free; auto..]. destruct H as [A H]. apply cut in H; [|apply dec_free; auto..]. destruct H as [B H].
  apply dec_inj in A. apply dec_inj in B. apply IH in H. subst. f_equal. f_equal. lia.
Qed.
(** A tree prints the present entries in descending order of their keys; a nil pointer prints "empty", which no tree does. *)
Theorem C102_print : forall os m, removes_present aempty os -> arun aempty os = Some m ->
  exists t l, run Leaf os = Some t /\ entries_of m l /\ tree_string (Some t) = written (rev l) /\ tree_string (Some t) <> tree_string None.
Proof.
  intros os m H E. destruct (C17_traversal os m H E) as (t & E' & En & D & _). exists t, (ascending t). split; [exact E'|]. split; [exact En|]. cbn [tree_string]. rewrite print_written, D. split; [reflexivity|].
  destruct (rev (ascending t)) as [|[k v] l]; discriminate.
Qed.
Print Assumptions C102_print.
(** Two trees print the same exactly if they have the same entries, whatever their history. *)
Theorem C102_equal : forall os1 os2 m1 m2 t1 t2, removes_present aempty os1 -> removes_present aempty os2 ->
  arun aempty os1 = Some m1 -> arun aempty os2 = Some m2 -> run Leaf os1 = Some t1 -> run Leaf os2 = Some t2 ->
  (tree_string (Some t1) = tree_string (Some t2) <-> forall k, m1 k = m2 k).
Proof.
  intros os1 os2 m1 m2 t1 t2 H1 H2 A1 A2 E1 E2. cbn [tree_string]. rewrite !print_written. split.
  - intros H. apply written_inj in H.
    destruct (C17_traversal os1 m1 H1 A1) as (u1 & F1 & [_ N1] & D1 & _). rewrite E1 in F1. injection F1 as <-.
    destruct (C17_traversal os2 m2 H2 A2) as (u2 & F2 & [_ N2] & D2 & _). rewrite E2 in F2. injection F2 as <-.
    rewrite D1, D2 in H. apply (f_equal (@rev _)) in H. rewrite !rev_involutive in H. rewrite <- H in N2. intros k.
    destruct (Z.eq_dec (m1 k) 0) as [Z1|Z1]; [destruct (Z.eq_dec (m2 k) 0) as [Z2|Z2]; [congruence|]|].
    + exfalso. assert (K := proj1 (N1 k (m2 k)) (proj2 (N2 k (m2 k)) (conj eq_refl Z2))). destruct K as [K _]. congruence.
    + assert (K := proj1 (N2 k (m1 k)) (proj2 (N1 k (m1 k)) (conj eq_refl Z1))). destruct K as [K _]. congruence.
  - intros H. destruct (C17_shape_independent os1 os2 m1 m2 t1 t2 H1 H2 A1 A2 H E1 E2) as (_ & D & _). now rewrite D.
Qed.
Print Assumptions C102_equal.
Definition C102_os : list op := [OpPut 4 7 set_insert; OpPut 2 (-5) set_insert; OpPut 12 1 set_insert; OpRemove 4; OpPut 3 10 set_insert]%N%Z.
Example C102_case : removes_present aempty C102_os /\ (exists m, arun aempty C102_os = Some m) /\
  exists t, run Leaf C102_os = Some t /\ tree_string (Some t) = "(12,1)(3,10)(2,-5)".
Proof.
  split; [cbn; repeat split; discriminate|]. split; [eexists; reflexivity|]. eexists. split; vm_compute; reflexivity.
Qed.

(** * Group elements *)
Local Open Scope Z_scope.
Lemma pre_inj s x y : (s ++ x = s ++ y)%string -> x = y.
Proof. induction s as [|c s IH]; intros H; [exact H|]. cbn in H. injection H as H. auto. Qed.
Lemma cut_inj c s a b x y : free c a -> free c b -> (a ++ (String c s ++ x) = b ++ (String c s ++ y))%string -> a = b /\ x = y.
Proof. intros A B H. apply (cut c a b (s ++ x) (s ++ y) A B) in H. destruct H as [E H]. split; [exact E|]. exact (pre_inj s x y H). Qed.
Lemma dec_cut c s a b x y : c = ","%char \/ c = ")"%char -> (dec a ++ (String c s ++ x) = dec b ++ (String c s ++ y))%string -> a = b /\ x = y.
Proof. intros Hc H. apply cut_inj in H; [|apply dec_free; exact Hc..]. destruct H as [E H]. split; [exact (dec_inj _ _ E)|exact H]. Qed.
Lemma gfp2_inj a b x y : (gfp2_string a ++ x = gfp2_string b ++ y)%string -> a =[FP2]= b /\ x = y.
Proof.
  unfold gfp2_string. rewrite !append_assoc. intros H. apply pre_inj in H. apply dec_cut in H; [|auto]. destruct H as [A H]. apply dec_cut in H; [|auto]. destruct H as [B E]. split; [|exact E].
  split; apply cong_mod_iff; [discriminate|exact A|discriminate|exact B].
Qed.
Lemma gfp2_same a b : a =[FP2]= b -> gfp2_string a = gfp2_string b.
Proof.
  destruct a as [a1 a2], b as [b1 b2]. intros [A B]. change (a1 ==[P] b1) in A. change (a2 ==[P] b2) in B. unfold gfp2_string. cbn [fst snd].
  apply cong_mod_iff in A; [|discriminate]. apply cong_mod_iff in B; [|discriminate]. rewrite A, B. reflexivity.
Qed.
Local Opaque gfp2_string.
Lemma gfp6_inj a b x y : (gfp6_string a ++ x = gfp6_string b ++ y)%string -> a =[FP6]= b /\ x = y.
Proof.
  destruct a as [[a1 a2] a3], b as [[b1 b2] b3]. unfold gfp6_string, g6x, g6y, g6z. cbn [fst snd]. rewrite !append_assoc. intros H. apply pre_inj, gfp2_inj in H. destruct H as [A H]. apply pre_inj, gfp2_inj in H. destruct H as [B H].
  apply pre_inj, gfp2_inj in H. destruct H as [C H]. apply pre_inj in H. split; [|exact H]. split; [exact A|]. split; [exact B|exact C].
Qed.
Lemma gfp6_same a b : a =[FP6]= b -> gfp6_string a = gfp6_string b.
Proof.
  destruct a as [[a1 a2] a3], b as [[b1 b2] b3]. intros (A & B & C). unfold gfp6_string, g6x, g6y, g6z. cbn [fst snd]. rewrite (gfp2_same a1 b1 A), (gfp2_same a2 b2 B), (gfp2_same a3 b3 C). reflexivity.
Qed.
Local Opaque gfp6_string.
(** Elements of GT print the same exactly if they are equal. *)
Theorem C103_gt : forall a b : gfp12, gt_string a = gt_string b <-> a =[FP12]= b.
Proof.
  intros [a1 a2] [b1 b2]. unfold gt_string, gfp12_string. cbn [fst snd]. split.
  - intros H. apply pre_inj, pre_inj, gfp6_inj in H. destruct H as [A H]. apply pre_inj, gfp6_inj in H. destruct H as [B _]. split; [exact A|exact B].
  - intros [A B]. rewrite (gfp6_same a1 b1 A), (gfp6_same a2 b2 B). reflexivity.
Qed.
Print Assumptions C103_gt.
(** Elements of G1 that print the same are equal. *)
Theorem C103_g1 : forall a b n m, at1 a n -> at1 b m -> g1_string a = g1_string b -> n = m.
Proof.
  intros a b n m Ha Hb H. assert (Ha' := Ha). assert (Hb' := Hb). destruct Ha as (_ & p & A & _), Hb as (_ & r & B & _). apply (eq1_at _ _ _ _ _ _ Ha' Hb' A B).
  assert (XY : cx (c_make_affine 0 a) = cx (c_make_affine 0 b) /\ cy (c_make_affine 0 a) = cy (c_make_affine 0 b)).
  { unfold g1_string in H. cbv zeta in H. apply pre_inj in H. apply dec_cut in H; [|auto]. destruct H as [X H]. split; [exact X|].
    apply (f_equal (fun u => append u "")) in H. rewrite !append_assoc in H. apply dec_cut in H; [|auto]. apply H. }
  destruct XY as [X Y].
  assert (Inf : forall e s, c_is e s -> s = None -> cx (c_make_affine 0 e) = 0).
  { intros e s Es Hs. assert (I := proj2 (inf_none e s Es) Hs). unfold c_make_affine. unfold c_is_infinity in *. apply Z.eqb_eq in I. rewrite I. reflexivity. }
  assert (NZ : forall e x y, c_is e (Some (x, y)) -> cx (c_make_affine 0 e) <> 0).
  { intros e x y Es E0. destruct (c_make_affine_ok 0 e _ Es) as (_ & _ & F). destruct (F x y eq_refl) as (_ & Fx & _). rewrite E0 in Fx. apply (x_zero x y (c_is_on _ _ Es)). apply cong_sym in Fx. apply cong_mod_iff in Fx; [|discriminate]. exact Fx. }
  destruct p as [[x y]|], r as [[x' y']|].
  - destruct (c_make_affine_ok 0 a _ A) as (_ & _ & F). destruct (F x y eq_refl) as (_ & Fx & Fy). destruct (c_make_affine_ok 0 b _ B) as (_ & _ & F'). destruct (F' x' y' eq_refl) as (_ & Fx' & Fy').
    rewrite X in Fx. rewrite Y in Fy. split; (eapply cong_trans; [apply cong_sym; eassumption|eassumption]).
  - apply (NZ a x y A). rewrite X. apply (Inf b None B eq_refl).
  - apply (NZ b x' y' B). rewrite <- X. apply (Inf a None A eq_refl).
  - exact I.
Qed.
Print Assumptions C103_g1.
(** The converse holds for points that MakeAffine changes. *)
Theorem C103_g1_same : forall a b n, at1 a n -> at1 b n -> cz a <> 1 -> cz b <> 1 -> g1_string a = g1_string b.
Proof.
  intros a b n Ha Hb Za Zb. assert (Ha' := Ha). assert (Hb' := Hb). destruct Ha as (_ & p & A & _), Hb as (_ & r & B & _). assert (E := proj2 (eq1_at _ _ _ _ _ _ Ha' Hb' A B) eq_refl).
  assert (K : forall e s, c_is e s -> cz e <> 1 -> g1_string e = ("bn256.G1(" ++ dec (match s with Some (x, _) => x mod P | None => 0 end) ++ ", " ++ dec (match s with Some (_, y) => y mod P | None => 1 end) ++ ")")%string).
  { intros e s Es Ze. unfold g1_string. cbv zeta. destruct (c_make_affine_ok 0 e s Es) as (_ & _ & F). assert (N := inf_none e s Es). assert (Zp : 0 <= cz e) by (destruct Es as (_ & [Z0 _] & _); exact Z0).
    destruct s as [[x y]|].
    - destruct (F x y eq_refl) as (_ & Fx & Fy). assert (R : cx (c_make_affine 0 e) = cx (c_make_affine 0 e) mod P /\ cy (c_make_affine 0 e) = cy (c_make_affine 0 e) mod P).
      { unfold c_make_affine. destruct (Z.eqb_spec (Z.abs (cz e)) 1) as [E1|_]; [exfalso; lia|]. destruct (c_is_infinity e); [discriminate (proj1 N eq_refl)|]. cbv zeta. cbn [cx cy]. split; symmetry; apply Z.mod_mod; discriminate. }
      destruct R as [Rx Ry]. apply cong_mod_iff in Fx; [|discriminate]. apply cong_mod_iff in Fy; [|discriminate]. rewrite Rx, Ry, Fx, Fy. reflexivity.
    - assert (I := proj2 N eq_refl). unfold c_is_infinity in I. apply Z.eqb_eq in I. unfold c_make_affine, c_is_infinity. rewrite I. reflexivity. }
  rewrite (K a p A Za), (K b r B Zb). destruct p as [[x y]|], r as [[x' y']|]; try contradiction; [|reflexivity].
  destruct E as [Ex Ey]. apply cong_mod_iff in Ex; [|discriminate]. apply cong_mod_iff in Ey; [|discriminate]. rewrite Ex, Ey. reflexivity.
Qed.
Print Assumptions C103_g1_same.
(** It fails for others: the negative of the generator prints a negative number, until it has been written out and read
    back. *)
Theorem C103_g1_refuted : exists a b, at1 a (Order - 1) /\ at1 b (Order - 1) /\ g1_unmarshal (g1_marshal a) = Some b /\
  g1_string a = "bn256.G1(1, -2)" /\ g1_string b <> g1_string a.
Proof.
  exists (c_negative curveGen), (CP 1 (P - 2) 1).
  assert (A : at1 (c_negative curveGen) (Order - 1)).
  { assert (N := neg1_at _ _ (base1_at 1 ltac:(lia))). replace (g1_base 1) with curveGen in N by (vm_compute; reflexivity). exact N. }
  split; [exact A|]. split.
  - destruct A as (R & p & (H & Z & O) & M). split; [exact R|]. exists p. split; [|exact M]. split; [|split; [exact Z|exact O]].
    destruct p as [[x y]|]; [|exact H]. destruct H as (H1 & H2 & H3). split; [exact H1|]. split; [exact H2|]. eapply cong_trans; [|exact H3]. exists 1. reflexivity.
  - split; [vm_compute; reflexivity|]. split; [vm_compute; reflexivity|]. vm_compute. discriminate.
Qed.
Print Assumptions C103_g1_refuted.
(** Elements of G2 that print the same are equal. *)
Theorem C103_g2 : forall a b n m, at2 a n -> at2 b m -> g2_string a = g2_string b -> n = m.
Proof.
  intros a b n m Ha Hb H. assert (Ha' := Ha). assert (Hb' := Hb). destruct Ha as (_ & p & A & _), Hb as (_ & r & B & _). apply (eq2_at _ _ _ _ _ _ Ha' Hb' A B).
  unfold g2_string in H. apply pre_inj, gfp2_inj in H. destruct H as [X H]. apply pre_inj, gfp2_inj in H. destruct H as [Y H]. apply pre_inj, gfp2_inj in H. destruct H as [Z _].
  apply (t_is_fun b); [|exact B]. destruct A as (R & _ & O), B as (_ & Z2 & _). split; [|split; [exact Z2|exact O]]. exact (proj1 (CurveGroup.represents_m FP2 _ _ X _ _ Y _ _ Z p p eq_refl) R).
Qed.
Print Assumptions C103_g2.
(** The converse fails: String does not make its receiver affine, Marshal does. *)
Theorem C103_g2_refuted : exists a, at2 a 2 /\ at2 (g2_marshalled a) 2 /\ g2_string (g2_marshalled a) <> g2_string a.
Proof.
  exists (g2_base 2). assert (A := base2_at 2 ltac:(lia)). change (2 mod Order) with 2 in A. split; [exact A|]. split.
  - destruct A as (R & p & A & M). split; [exact R|]. exists p. split; [|exact M]. unfold g2_marshalled. destruct (t_is_infinity (g2_base 2)); [exact A|]. apply t_make_affine_ok. exact A.
  - vm_compute. discriminate.
Qed.
Print Assumptions C103_g2_refuted.
Local Transparent gfp2_string gfp6_string.
Example C103_case : g1_string (g1_base 0) = "bn256.G1(0, 1)" /\ g1_string (g1_base 1) = "bn256.G1(1, 2)" /\ (exists n, at1 (g1_base 2) n /\ cz (g1_base 2) <> 1) /\
  gt_string g12_one = "bn256.GT(((0,0),(0,0),(0,0)),((0,0),(0,0),(0,1)))".
Proof.
  split; [vm_compute; reflexivity|]. split; [vm_compute; reflexivity|]. split; [|vm_compute; reflexivity]. eexists. split; [apply base1_at; lia|]. vm_compute. discriminate.
Qed.

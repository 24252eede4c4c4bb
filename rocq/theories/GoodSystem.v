(** The constraint system of any collector that satisfies [Good] and [Ordered]: it exists, its solutions are
    the assignments satisfying the gates, the dense solver finds them. *)
Require Import ZArith Znumtheory NArith Lia Bool Permutation Ascii String List.
Require Import Verif.Cong Verif.FqModel Verif.FqProofs Verif.FactorModel Verif.FactorSpec Verif.FactorProofs.
Require Import Verif.ExprModel Verif.ExprSpec Verif.ExprProofs Verif.ExprProofs2 Verif.AvlModel Verif.PolyModel.
Require Import Verif.R1csModel Verif.R1csSpec Verif.R1csProofs Verif.EndProofs.
Require Import Verif.WitnessModel Verif.WitnessSpec Verif.WitnessProofs Verif.SolveProofs Verif.SolveProofs2.
Require Import Verif.PropsFactor Verif.PropsExpr Verif.PropsR1cs Verif.PropsEnd Verif.PropsWitness Verif.PropsSolve.
Import ListNotations.
Open Scope Z_scope.

Section P.
Variable q : Z.
Hypothesis Hq : prime q.
Variable gx : Z -> Z.
Hypothesis G0 : gx 0 ==[q] 0.
Variable V : string -> Prop.
Variables (c : collector) (tr : list gate) (pubs ins : list string).
Hypothesis HG : Good V c tr.
Hypothesis D1 : NoDup pubs.
Hypothesis D2 : nth_error pubs 0 = Some "1"%string.
Hypothesis D3 : forall x, V x -> In x (pubs ++ ins) /\ x <> "1"%string.
Hypothesis D4 : forall x, In x (pubs ++ ins) -> ~ In x (known c).

Notation names := (wire_names pubs ins (gates c) false).
Lemma sys_ok : names_ok pubs ins (gates c) false.
Proof. split; auto. split; auto. discriminate. Qed.
Lemma q0 : q <> 0.
Proof. destruct Hq; lia. Qed.
Lemma sys_exists :
  (exists s, gates_to_r1cs pubs ins (gates c) false = Some s /\ List.length (rows s) = List.length (gates c)) /\
  (exists s, gates_to_sparse_r1cs q pubs ins (gates c) false = Some s /\ List.length (rows s) = List.length (gates c)).
Proof.
  destruct (good_r1cs q V pubs ins D1 (fun x Hx => proj1 (D3 x Hx)) false c tr HG sys_ok D4) as [[s E] [s' E']].
  split; [exists s|exists s']; split; auto.
  - unfold gates_to_r1cs in E. destruct (build_index _ _ _ _) as [[m sp]|]; [|discriminate]. unfold with_rand in E.
    destruct (all_some _ _) eqn:A; [|discriminate]. injection E as <-. apply all_some_Forall2 in A. cbn. symmetry. now apply Forall2_len in A.
  - unfold gates_to_sparse_r1cs in E'. destruct (build_index _ _ _ _) as [[m sp]|]; [|discriminate]. unfold with_rand in E'.
    destruct (all_some _ _) eqn:A; [|discriminate]. injection E' as <-. apply all_some_Forall2 in A. cbn. symmetry. now apply Forall2_len in A.
Qed.

Variable s : er1cs (list Z).
Hypothesis E : gates_to_r1cs pubs ins (gates c) false = Some s.
Lemma sys_num : numbers_names (index_map s) names.
Proof. exact (proj1 (C27_numbering q pubs ins (gates c) false sys_ok) s E). Qed.
Lemma sys_one : nth_error names 0 = Some "1"%string.
Proof. destruct pubs; [discriminate|]. exact D2. Qed.
Lemma sys_in x : In x (pubs ++ ins) -> In x names.
Proof. intros Hx. unfold wire_names. rewrite !in_app_iff in *. destruct Hx as [Hx|Hx]; auto. destruct (fresh_in ins pubs x Hx); auto. Qed.
Lemma sys_get x : In x names -> exists i, im_get (index_map s) x = Some i /\ nth_error names i = Some x.
Proof. intros Hx. apply In_nth_error in Hx. destruct Hx as [i Hi]. exists i. split; auto. now apply sys_num. Qed.
Lemma sys_read W : List.length W = List.length (index_map s) -> map (read (index_map s) W) names = W.
Proof.
  intros L. destruct sys_num as [N1 [N2 N3]]. apply (nth_ext _ _ 0 0); [rewrite map_length; congruence|]. rewrite map_length. intros i Hi.
  destruct (nth_error names i) as [x|] eqn:Ex; [|apply nth_error_None in Ex; lia].
  rewrite (nth_indep _ 0 (read (index_map s) W x)) by now rewrite map_length.
  rewrite map_nth. rewrite (nth_error_nth _ _ _ Ex). unfold read. apply N3 in Ex. now rewrite Ex.
Qed.
Lemma sys_first W : read (index_map s) W "1"%string = nth 0 W 0.
Proof. unfold read. assert (X := sys_one). apply sys_num in X. now rewrite X. Qed.
Lemma sys_shape : Forall (gate_shape names) (gates c).
Proof. eapply wf_shape; eauto. Qed.
Lemma sys_distinct : Forall gate_distinct (gates c).
Proof. eapply good_distinct; eauto. Qed.

(** The rows hold exactly if the gates do. *)
Lemma sys_holds W : List.length W = List.length (index_map s) -> nth 0 W 0 = 1 ->
  (Forall (row_ok q gx W) (rows s) <-> all_hold q gx (read (index_map s) W) (gates c)).
Proof.
  intros L W0. rewrite <- (sys_read W L) at 1. apply C28_system; auto; [exact q0|now rewrite sys_first|exact sys_ok|exact sys_shape|exact sys_distinct].
Qed.
Lemma sys_wire W x : List.length W = List.length (index_map s) -> Ko V c x -> exists i, (i < List.length W)%nat /\ nth i W 0 = read (index_map s) W x.
Proof.
  intros L Hx. assert (In x names).
  { destruct Hx as [Hx|Hx]; [apply sys_in, (D3 x Hx)|]. unfold wire_names. rewrite !in_app_iff. auto. }
  destruct (sys_get x H) as [i [Gi Ni]]. exists i. unfold read. rewrite Gi. split; auto.
  rewrite L. destruct sys_num as [N1 [N2 N3]]. rewrite N2. apply nth_error_Some. congruence.
Qed.
Lemma sys_outs x : In x (out_names (gates c)) -> In x (known c).
Proof. intros Hx. apply in_rev. destruct HG as [_ [_ [HM _]]]. rewrite <- HM. now apply out_names_incl. Qed.

(** An assignment satisfying the gates gives a solution. *)
Lemma sys_build w w' : w "1"%string = 1 -> all_hold q gx w' (gates c) -> (forall x, V x -> w' x = w x) ->
  exists W, List.length W = List.length (index_map s) /\ nth 0 W 0 = 1 /\
    (forall x, In x (pubs ++ ins) -> read (index_map s) W x = w x) /\ (forall x, Ko V c x -> read (index_map s) W x = w' x) /\
    Forall (row_ok q gx W) (rows s).
Proof.
  intros W1 HA HV.
  set (a := fun x => if existsb (String.eqb x) (out_names (gates c)) then w' x else w x).
  assert (Op : forall x, In x (pubs ++ ins) -> existsb (String.eqb x) (out_names (gates c)) = false).
  { intros x Hx. destruct (existsb _ _) eqn:X; auto. apply existsb_eqb in X. destruct (D4 x Hx). now apply sys_outs. }
  assert (Ain : forall x, In x (pubs ++ ins) -> a x = w x) by (intros x Hx; unfold a; now rewrite Op).
  assert (I1 : In "1"%string (pubs ++ ins)). { apply in_app_iff. left. destruct pubs; [discriminate|]. injection D2 as ->. now left. }
  assert (X : forall x, Ko V c x -> a x = w' x).
  { intros x [Hx|Hx]; unfold a.
    - rewrite Op by (apply (D3 x); auto). symmetry. now apply HV.
    - apply existsb_eqb in Hx. now rewrite Hx. }
  assert (HA' : all_hold q gx a (gates c)).
  { unfold all_hold in *. rewrite Forall_forall in *. intros g Hg. specialize (HA g Hg).
    assert (HG' := HG). destruct HG' as [HI [_ [_ [_ [_ [HL HN]]]]]]. assert (Lg := proj1 (Forall_forall _ _) HL g Hg). assert (Ng := proj1 (Forall_forall _ _) HN g Hg). cbn in Ng.
    assert (KK := proj1 (Forall_forall _ _) (Inv_kinds c tr HI) g Hg). cbn in KK.
    destruct Lg as [L1 [L2 [L3 L4]]]. unfold gate_holds in *.
    rewrite (lin_ext _ a w' (gleft g) X L1), (lin_ext _ a w' (gright g) X L2), (lin_ext _ a w' (gexp g) X L3), (lin_ext _ a w' (gout g) X L4).
    destruct (gtyp g); auto; try contradiction. rewrite X; auto. right. now apply out_names_in. }
  set (W := map a names). destruct sys_num as [N1 [N2 N3]].
  assert (LW : List.length W = List.length (index_map s)) by (unfold W; rewrite map_length; auto).
  assert (Rd : forall x, In x names -> read (index_map s) W x = a x).
  { intros x Hx. destruct (sys_get x Hx) as [i [Gi Ni]]. unfold read. rewrite Gi. unfold W. rewrite (nth_indep _ 0 (a x)) by (rewrite map_length; apply nth_error_Some; congruence).
    rewrite map_nth. f_equal. now apply nth_error_nth. }
  exists W. split; auto. split; [rewrite <- sys_first, Rd by (eapply nth_error_In; exact sys_one); rewrite Ain; auto|].
  split; [intros x Hx; rewrite Rd by (now apply sys_in); auto|]. split.
  - intros x Hx. rewrite Rd; auto. destruct Hx as [Hx|Hx]; [apply sys_in, (D3 x Hx)|]. unfold wire_names. rewrite !in_app_iff. auto.
  - unfold W. apply C28_system; auto; [exact q0|rewrite Ain; auto|exact sys_ok|exact sys_shape|exact sys_distinct].
Qed.

Lemma sys_split : split_map s = [].
Proof.
  destruct (C27_split_map pubs ins (gates c) s sys_ok E) as [_ [_ C]]. destruct (split_map s) as [|[k l] sp]; auto.
  exfalso. destruct (C k) as [C' _]. apply C'; [now left|]. unfold bit_names.
  assert (K := Inv_kinds c tr (proj1 HG)). clear - K. induction K as [|g gs Kg _ IH]; cbn; auto.
  destruct (gtyp g); auto; contradiction.
Qed.

Hypothesis HO : Ordered V (gates c).
Hypothesis Hr : ~ In rand_in names.

(** The solver finds the solution. *)
Lemma sys_finds W : List.length W = List.length (index_map s) -> nth 0 W 0 = 1 -> Forall (row_ok q gx W) (rows s) ->
  Forall (div_ok q (read (index_map s) W)) (gates c) ->
  forall rnd inp, supplied pubs ins inp -> (forall x v, In (x, v) inp -> v ==[q] read (index_map s) W x) ->
  exists W', calculate_witness q gx (index_map s) (split_map s) (rows s) rnd inp = Ok W' /\
    List.length W' = List.length W /\ forall i, nth i W' 0 ==[q] nth i W 0.
Proof.
  intros L W0 HW HV rnd inp [IN IE] IV.
  assert (HA := proj1 (sys_holds W L W0) HW). assert (X0 := sys_one). assert (SP := sys_split).
  assert (Ha := eq_trans (sys_first W) W0). assert (Sh := sys_shape). assert (Ds := sys_distinct). assert (Hok := sys_ok).
  set (a := read (index_map s) W) in *. clear HW.
  assert (E' := E). unfold gates_to_r1cs in E'. destruct (build_index pubs ins (gates c) false) as [[m sp]|] eqn:EI; [|discriminate].
  destruct (system_names _ _ _ _ _ _ Hok EI) as [Hm [H1 _]]. set (nm := wire_names pubs ins (gates c) false) in *.
  unfold with_rand in E'. destruct (all_some _ _) as [rs|] eqn:Ers; [|discriminate].
  assert (Em : index_map s = m) by now injection E' as <-. assert (Er : rows s = rs) by now injection E' as <-.
  assert (Ea : a = read m W) by (unfold a; now rewrite Em). rewrite Em, SP, Er. rewrite Em in L. rewrite (numbered_length _ _ Hm) in Ers.
  destruct (start_matches q nm m Hm H1 a Ha rnd inp Hr) as [s0 [ES M0]].
  { intros x v Hx. split; auto. apply sys_in. apply IE. change x with (fst (x, v)). now apply in_map. }
  destruct (gates_step q Hq gx G0 nm m Hm H1 a Ha [] V (gates c)) with
    (D := fun x => x = "1"%string \/ In x (map fst inp)) (pre := @nil gate) (post := gates c) (s := s0) (rs := rs) as [s' [RS M]]; auto.
  - apply HG.
  - intros x Hx. unfold nm, wire_names. rewrite !in_app_iff. auto.
  - destruct Hm as [ND _]. unfold nm, wire_names in ND. rewrite app_nil_r in ND.
    exact (NoDup_tail _ _ (NoDup_tail _ _ ND)).
  - intros x Hx. right. apply IE. destruct (D3 x Hx). auto.
  - intros x [->|Hx] C; apply sys_outs in C.
    + apply (D4 "1"%string); auto. apply in_app_iff. left. destruct pubs; [discriminate|]. injection D2 as ->. now left.
    + apply IE in Hx. now apply (D4 x (proj1 Hx)).
  - eapply matches_iff; [|exact M0]. cbn. tauto.
  - exists (wit s'). split; [unfold calculate_witness; rewrite ES; cbn [lift bind]; rewrite RS; reflexivity|].
    destruct M as [[S1 S2] M]. split; [rewrite L, (numbered_length _ _ Hm); auto|]. intros i.
    destruct (nth_error nm i) as [x|] eqn:Ex.
    + assert (Dx : (x = "1"%string \/ In x (map fst inp)) \/ In x (out_names (gates c))).
      { assert (Ix := nth_error_In _ _ Ex). unfold nm, wire_names in Ix. rewrite !in_app_iff in Ix. cbn [In] in Ix.
        assert (Fr := fresh_sub ins pubs x).
        destruct (string_dec x "1") as [->|Nx]; [auto|]. destruct Ix as [Ix|[Ix|[Ix|[]]]]; auto; left; right; apply IE; rewrite in_app_iff; auto. }
      destruct (M i x Ex) as [_ C]. specialize (C Dx). unfold WitnessProofs.W in C. rewrite C. rewrite Ea. unfold read.
      apply (numbered_get _ _ _ _ Hm) in Ex. rewrite Ex. reflexivity.
    + apply nth_error_None in Ex. rewrite !nth_overflow; [reflexivity| |]; [rewrite L, (numbered_length _ _ Hm)|rewrite S1]; auto.
Qed.

(** What the solver returns is a solution with the inputs given. *)
Lemma sys_solved rnd inp W : supplied pubs ins inp -> calculate_witness q gx (index_map s) (split_map s) (rows s) rnd inp = Ok W ->
  Forall (row_ok q gx W) (rows s) /\ nth 0 W 0 = 1 /\ List.length W = List.length (index_map s) /\
  (forall x v, In (x, v) inp -> read (index_map s) W x = v).
Proof.
  intros [S1 S2] HW. destruct sys_num as [N1 [N2 N3]]. assert (SP : bit_indices (split_map s) = []) by now rewrite sys_split.
  assert (Gi : forall x, In x (pubs ++ ins) -> exists i, im_get (index_map s) x = Some i /\ im_idx (index_map s) x = i).
  { intros x Hx. apply sys_in, In_nth_error in Hx. destruct Hx as [i Hi]. apply N3 in Hi. exists i. unfold im_idx. now rewrite Hi. }
  assert (HI : inputs_ok (index_map s) (split_map s) inp).
  { split; [|rewrite SP; split; [easy|]].
    - assert (G : forall l, incl l inp -> NoDup (map fst l) -> NoDup (map (fun e => im_idx (index_map s) (fst e)) l)); [|apply G; auto; apply incl_refl].
      induction l as [|[x v] l IH]; intros HI ND; [constructor|]. cbn [map fst] in *. inversion ND as [|? ? M1 M2]; subst.
      constructor; [|apply IH; auto; intros y Hy; apply HI; now right]. intros C. apply M1. apply in_map_iff in C. destruct C as [[y u] [Ey Hy]]. cbn [fst] in Ey.
      assert (Ix : In x (pubs ++ ins)). { apply S2. change x with (fst (x, v)). apply in_map, HI. now left. }
      assert (Iy : In y (pubs ++ ins)). { apply S2. change y with (fst (y, u)). apply in_map, HI. now right. }
      destruct (Gi x Ix) as [i [Gx Ei]], (Gi y Iy) as [j [Gy Ej]]. apply N3 in Gx, Gy. apply in_map_iff. exists (y, u). split; auto. cbn. congruence.
    - intros x v Hx. split; [|easy]. assert (Ix : In x (pubs ++ ins) /\ x <> "1"%string). { apply S2. change x with (fst (x, v)). now apply in_map. }
      destruct (Gi x (proj1 Ix)) as [i [Gx Ei]]. intros C. apply (proj2 Ix). apply N3 in Gx. assert (X := sys_one). congruence. }
  destruct (C32_dense _ _ _ _ _ _ _ _ HI HW) as [L [W0 WI]]. split.
  - eapply C30_sound; eauto. rewrite SP. intros j [].
  - split; auto. split; auto. intros x v Hx. assert (Ix : In x (pubs ++ ins) /\ x <> "1"%string). { apply S2. change x with (fst (x, v)). now apply in_map. }
    destruct (Gi x (proj1 Ix)) as [i [Gx Ei]]. unfold read. rewrite Gx, <- Ei. now apply WI.
Qed.
End P.

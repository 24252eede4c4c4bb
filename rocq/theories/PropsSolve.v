(** C59: the dense solver on the constraint system of an arithmetic program. *)
Require Import ZArith Znumtheory NArith Lia Bool Permutation Ascii String List.
Require Import Verif.Cong Verif.FqModel Verif.FqProofs Verif.Pocklington Verif.FactorModel Verif.FactorSpec Verif.FactorProofs.
Require Import Verif.ExprModel Verif.ExprSpec Verif.ExprProofs Verif.ExprProofs2 Verif.AvlModel Verif.PolyModel.
Require Import Verif.R1csModel Verif.R1csSpec Verif.R1csProofs Verif.EndProofs.
Require Import Verif.WitnessModel Verif.WitnessSpec Verif.WitnessProofs Verif.SolveProofs Verif.SolveProofs2.
Require Import Verif.PropsFactor Verif.PropsExpr Verif.PropsR1cs Verif.PropsEnd Verif.PropsWitness.
Import ListNotations.
Open Scope Z_scope.

(** Every declared name except the constant is supplied once. *)
Definition supplied (pubs ins : list string) (inp : list input_arg) : Prop :=
  NoDup (map fst inp) /\ forall x, In x (map fst inp) <-> In x (pubs ++ ins) /\ x <> "1"%string.

Lemma NoDup_tail {A} (l l' : list A) : NoDup (l ++ l') -> NoDup l'.
Proof. induction l as [|x l IH]; cbn; auto. intros H. inversion H; auto. Qed.

Section Start.
Variable q : Z.
Variables (names : list string) (m : imap).
Hypothesis Hm : numbered names m.
Hypothesis H1 : nth_error names 0 = Some "1"%string.
Variable a : assignment.
Hypothesis Ha : a "1"%string = 1.

Lemma put_inputs_matches inp : forall D s, matches q names a D s ->
  (forall x v, In (x, v) inp -> In x names /\ v ==[q] a x) ->
  exists s', put_inputs m s inp = Some s' /\ matches q names a (fun x => D x \/ In x (map fst inp)) s'.
Proof.
  induction inp as [|[x v] inp IH]; intros D s M H; cbn [put_inputs].
  - exists s. split; auto. eapply matches_iff; [|exact M]. cbn. tauto.
  - destruct (H x v (or_introl eq_refl)) as [Ix Ev]. destruct (idx_get names m Hm x Ix) as [_ Lx].
    destruct (assign_ok s (im_idx m x) v) as [s1 E]; [destruct M as [[-> _] _]; auto|destruct M as [[_ ->] _]; auto|].
    rewrite E. destruct (IH _ _ (matches_assign q names m Hm a D s x v s1 M Ix E Ev)) as [s' [E' M']].
    + intros y u Hy. apply H. now right.
    + exists s'. split; auto. eapply matches_iff; [|exact M']. cbn. intros y _. intuition.
Qed.
Lemma start_matches rnd inp : ~ In rand_in names -> (forall x v, In (x, v) inp -> In x names /\ v ==[q] a x) ->
  exists s, start m [] rnd inp = Some (s, []) /\ matches q names a (fun x => x = "1"%string \/ In x (map fst inp)) s.
Proof.
  intros Hr HI. unfold start. rewrite (numbered_length _ _ Hm).
  assert (I1 : In "1"%string names) by (eapply nth_error_In; eauto).
  destruct (idx_get names m Hm _ I1) as [_ L1]. rewrite (idx_one names m Hm H1) in L1.
  set (s := St (zeros (List.length names)) (repeat false (List.length names))).
  assert (M : matches q names a (fun _ => False) s).
  { split; [split; [apply zeros_length|apply repeat_length]|]. intros i x _. split; [|easy]. unfold B, s. cbn [isset]. rewrite nth_repeat. split; easy. }
  destruct (assign_ok s 0 1) as [s0 E0]; [cbn; rewrite zeros_length; auto|cbn; rewrite repeat_length; auto|].
  rewrite E0. assert (M0 : matches q names a (fun y => False \/ y = "1"%string) s0).
  { apply (matches_assign q names m Hm a (fun _ => False) s "1"%string 1 s0 M I1).
    - now rewrite (idx_one names m Hm H1).
    - rewrite Ha. reflexivity. }
  replace (im_idx m rand_in) with O; [cbn [Nat.eqb]|unfold im_idx; apply (numbered_none _ _ _ Hm) in Hr; now rewrite Hr].
  destruct (put_inputs_matches inp _ s0 M0 HI) as [s2 [-> M2]]. cbn [put_splits]. exists s2. split; auto.
  eapply matches_iff; [|exact M2]. cbn. tauto.
Qed.
End Start.

(** The solver finds every solution that extends the inputs: there is only one, modulo q. *)
Theorem C59_finds : forall sort hash q gx, (forall l, Permutation (sort l) l) -> prime q -> gx 0 ==[q] 0 ->
  forall p c f tr pubs ins s, execute sort hash q p = Some (c, f, tr) -> no_collision tr -> declared p pubs ins c ->
  gates_to_r1cs pubs ins (gates c) false = Some s -> ~ In rand_in (wire_names pubs ins (gates c) false) ->
  forall W, List.length W = List.length (index_map s) -> nth 0 W 0 = 1 -> Forall (row_ok q gx W) (rows s) ->
  no_zero_divisor q gx (read (index_map s) W) p ->
  forall rnd inp, supplied pubs ins inp -> (forall x v, In (x, v) inp -> v ==[q] read (index_map s) W x) ->
  exists W', calculate_witness q gx (index_map s) (split_map s) (rows s) rnd inp = Ok W' /\
    List.length W' = List.length W /\ forall i, nth i W' 0 ==[q] nth i W 0.
Proof.
  intros sort hash q gx HS Hq G0 p c f tr pubs ins s HX NC HD E Hr W L W0 HW [Z1 Z2] rnd inp [IN IE] IV.
  assert (Hq0 : q <> 0) by (destruct Hq; lia).
  destruct (good_exec sort HS hash q Hq gx p c f tr pubs ins HX NC HD) as [HG Hf].
  assert (R := read_names q p c pubs ins HD s W E L).
  assert (Hok := declared_names _ _ _ _ HD).
  set (a := read (index_map s) W) in *.
  assert (N := proj1 (C27_numbering q pubs ins (gates c) false Hok) s E).
  assert (X0 : nth_error (wire_names pubs ins (gates c) false) 0 = Some "1"%string).
  { destruct HD as [_ [D2 _]]. destruct pubs; [discriminate|]. exact D2. }
  assert (Ha : a "1"%string = 1). { destruct N as [_ [_ N3]]. unfold a, read. apply N3 in X0. now rewrite X0. }
  assert (Sh := wf_shape (fun x => In x (prog_names p)) (wire_names pubs ins (gates c) false) c tr HG).
  assert (Ds := good_distinct _ c tr HG).
  assert (HA : all_hold q gx a (gates c)).
  { apply (C28_system q gx a pubs ins (gates c) s Hq0 G0 Ha Hok); auto. now rewrite R. }
  assert (HD' := HD). destruct HD' as [D1 [D2 [D3 D4]]].
  assert (N1 : ~ In "1"%string (known c)). { apply D4, in_app_iff. left. destruct pubs; [discriminate|]. injection D2 as ->. now left. }
  assert (V1 : ~ In "1"%string (prog_names p)) by (intros C; now apply (proj2 (D3 _ C))).
  destruct (execute_slv sort HS hash q Hq gx (fun x => In x (prog_names p)) V1 p c f tr HX NC) as [HO HV]; auto.
  { intros x Hx. now apply prog_inputs. }
  assert (HV' : Forall (div_ok q a) (gates c)) by (apply HV; auto).
  assert (SP : split_map s = []).
  { destruct (C27_split_map pubs ins (gates c) s Hok E) as [_ [_ C]]. destruct (split_map s) as [|[k l] sp]; auto.
    exfalso. destruct (C k) as [C' _]. apply C'; [now left|]. unfold bit_names.
    assert (K := Inv_kinds c tr (proj1 HG)). clear - K. induction K as [|g gs Kg _ IH]; cbn; auto.
    destruct (gtyp g); auto; contradiction. }
  unfold gates_to_r1cs in E. destruct (build_index pubs ins (gates c) false) as [[m sp]|] eqn:EI; [|discriminate].
  destruct (system_names _ _ _ _ _ _ Hok EI) as [Hm [H1 _]]. set (names := wire_names pubs ins (gates c) false) in *.
  unfold with_rand in E. destruct (all_some _ _) as [rs|] eqn:Ers; [|discriminate]. injection E as <-.
  cbn [index_map split_map rows] in *. subst sp. rewrite (numbered_length _ _ Hm) in Ers.
  assert (In' : forall x, In x (pubs ++ ins) -> In x names).
  { intros x Hx. unfold names, wire_names. rewrite !in_app_iff in *. destruct Hx as [Hx|Hx]; auto. destruct (fresh_in ins pubs x Hx); auto. }
  destruct (start_matches q names m Hm H1 a Ha rnd inp Hr) as [s0 [ES M0]].
  { intros x v Hx. split; auto. apply In'. apply IE. change x with (fst (x, v)). now apply in_map. }
  assert (Out : forall x, In x (out_names (gates c)) -> In x (known c)).
  { intros x Hx. apply in_rev. destruct HG as [_ [_ [HM _]]]. rewrite <- HM. now apply out_names_incl. }
  destruct (gates_step q Hq gx G0 names m Hm H1 a Ha [] (fun x => In x (prog_names p)) (gates c)) with
    (D := fun x => x = "1"%string \/ In x (map fst inp)) (pre := @nil gate) (post := gates c) (s := s0) (rs := rs) as [s' [RS M]]; auto.
  - apply HG.
  - intros x Hx. unfold names, wire_names. rewrite !in_app_iff. auto.
  - destruct Hm as [ND _]. unfold names, wire_names in ND. rewrite app_nil_r in ND.
    exact (NoDup_tail _ _ (NoDup_tail _ _ ND)).
  - intros x Hx. right. apply IE. destruct (D3 x Hx). auto.
  - intros x [->|Hx] C; apply Out in C; [auto|]. apply IE in Hx. now apply (D4 x (proj1 Hx)).
  - eapply matches_iff; [|exact M0]. cbn. tauto.
  - exists (wit s'). split; [unfold calculate_witness; rewrite ES; cbn [lift bind]; rewrite RS; reflexivity|].
    destruct M as [[S1 S2] M]. split; [rewrite L, (numbered_length _ _ Hm); auto|]. intros i.
    destruct (nth_error names i) as [x|] eqn:Ex.
    + assert (Dx : (x = "1"%string \/ In x (map fst inp)) \/ In x (out_names (gates c))).
      { assert (Ix := nth_error_In _ _ Ex). unfold names, wire_names in Ix. rewrite !in_app_iff in Ix. cbn [In] in Ix.
        assert (Fr : In x (fresh pubs ins) -> In x ins).
        { clear. generalize pubs. induction ins as [|y l IH]; intros seen; cbn; auto. destruct (existsb _ _); cbn; [eauto|]. intros [C|C]; eauto. }
        destruct (string_dec x "1") as [->|Nx]; [auto|]. destruct Ix as [Ix|[Ix|[Ix|[]]]]; auto; left; right; apply IE; rewrite in_app_iff; auto. }
      destruct (M i x Ex) as [_ C]. specialize (C Dx). unfold WitnessProofs.W in C. rewrite C. unfold a, read.
      apply (numbered_get _ _ _ _ Hm) in Ex. rewrite Ex. reflexivity.
    + apply nth_error_None in Ex. rewrite !nth_overflow; [reflexivity| |]; [rewrite L, (numbered_length _ _ Hm)|rewrite S1]; auto.
Qed.
Print Assumptions C59_finds.

(** An expression without zero divisors has one value. *)
Lemma means_unique q gx w (Hq : prime q) : forall e a b, divisors_ok q gx w e -> means q gx w e a -> means q gx w e b -> a ==[q] b.
Proof.
  induction e as [s|x|op l IHl r IHr|e IH]; intros a b D Ma Mb.
  - inversion Ma as [? z1 ? S1 X1| | | | | |]; inversion Mb as [? z2 ? S2 X2| | | | | |]; subst. rewrite X1, X2. rewrite S1 in S2. injection S2 as ->. reflexivity.
  - inversion Ma as [|? ? X1| | | | |]; inversion Mb as [|? ? X2| | | | |]; subst. now rewrite X1, X2.
  - destruct D as [D1 [D2 D3]].
    inversion Ma as [| |? ? a1 a2 ? A1 A2 X1|? ? a1 a2 ? A1 A2 X1|? ? a1 a2 ? A1 A2 X1|? ? a1 a2 ? A1 A2 X1|]; subst;
    inversion Mb as [| |? ? b1 b2 ? B1 B2 X2|? ? b1 b2 ? B1 B2 X2|? ? b1 b2 ? B1 B2 X2|? ? b1 b2 ? B1 B2 X2|]; subst;
    assert (E1 := IHl _ _ D1 A1 B1); assert (E2 := IHr _ _ D2 A2 B2).
    + now rewrite X1, X2, E1, E2.
    + now rewrite X1, X2, E1, E2.
    + now rewrite X1, X2, E1, E2.
    + apply (cong_cancel q Hq b2).
      * intros Z0. apply (D3 eq_refl). eapply means_cong; [exact Z0|exact B2].
      * rewrite !(Z.mul_comm b2), X2, <- E1, <- X1, E2. reflexivity.
  - inversion Ma as [| | | | | |? a1 ? A1 X1]; inversion Mb as [| | | | | |? b1 ? B1 X2]; subst. assert (E := IH _ _ D A1 B1).
    apply cong_mod_iff in E; [|destruct Hq; lia]. rewrite X1, X2, E. reflexivity.
Qed.

(** Inputs with no zero divisor are accepted exactly if the equalities hold; the result then
    satisfies the system, keeps the inputs and carries the result of the program. *)
Theorem C59_accepts : forall sort hash q gx, (forall l, Permutation (sort l) l) -> prime q -> gx 0 ==[q] 0 ->
  forall p c f tr pubs ins s, execute sort hash q p = Some (c, f, tr) -> no_collision tr -> declared p pubs ins c ->
  gates_to_r1cs pubs ins (gates c) false = Some s -> ~ In rand_in (wire_names pubs ins (gates c) false) ->
  forall w rnd inp, supplied pubs ins inp -> (forall x v, In (x, v) inp -> v = w x) -> no_zero_divisor q gx w p ->
  ((exists W, calculate_witness q gx (index_map s) (split_map s) (rows s) rnd inp = Ok W) <->
   Forall (fun e => exists a b, means q gx w (fst e) a /\ means q gx w (snd e) b /\ a ==[q] b) (equalities p)) /\
  forall W, calculate_witness q gx (index_map s) (split_map s) (rows s) rnd inp = Ok W ->
    Forall (row_ok q gx W) (rows s) /\ nth 0 W 0 = 1 /\
    (forall x, In x (pubs ++ ins) -> x <> "1"%string -> read (index_map s) W x = w x) /\
    means q gx w (result p) (lin (read (index_map s) W) f).
Proof.
  intros sort hash q gx HS Hq G0 p c f tr pubs ins s HX NC HD E Hr w rnd inp SI IV HZ.
  assert (HD' := HD). destruct HD' as [D1 [D2 [D3 D4]]]. assert (Hok := declared_names _ _ _ _ HD).
  assert (N := proj1 (C27_numbering q pubs ins (gates c) false Hok) s E). destruct N as [N1 [N2 N3]].
  assert (X0 : nth_error (wire_names pubs ins (gates c) false) 0 = Some "1"%string).
  { destruct pubs; [discriminate|]. exact D2. }
  assert (In' : forall x, In x (pubs ++ ins) -> In x (wire_names pubs ins (gates c) false)).
  { intros x Hx. unfold wire_names. rewrite !in_app_iff in *. destruct Hx as [Hx|Hx]; auto. destruct (fresh_in ins pubs x Hx); auto. }
  assert (Gi : forall x, In x (pubs ++ ins) -> exists i, im_get (index_map s) x = Some i /\ im_idx (index_map s) x = i).
  { intros x Hx. apply In', In_nth_error in Hx. destruct Hx as [i Hi]. apply N3 in Hi. exists i. unfold im_idx. now rewrite Hi. }
  destruct (good_exec sort HS hash q Hq gx p c f tr pubs ins HX NC HD) as [HG Hf].
  assert (SP : bit_indices (split_map s) = []).
  { destruct (C27_split_map pubs ins (gates c) s Hok E) as [_ [_ C]]. destruct (split_map s) as [|[k l] sp]; auto.
    exfalso. destruct (C k) as [C' _]. apply C'; [now left|]. unfold bit_names.
    assert (K := Inv_kinds c tr (proj1 HG)). clear - K. induction K as [|g gs Kg _ IH]; cbn; auto.
    destruct (gtyp g); auto; contradiction. }
  assert (HI : inputs_ok (index_map s) (split_map s) inp).
  { destruct SI as [S1 S2]. split; [|rewrite SP; split; [easy|]].
    - assert (G : forall l, incl l inp -> NoDup (map fst l) -> NoDup (map (fun e => im_idx (index_map s) (fst e)) l)); [|apply G; auto; apply incl_refl].
      induction l as [|[x v] l IH]; intros HI ND; [constructor|]. cbn [map fst] in *. inversion ND as [|? ? M1 M2]; subst.
      constructor; [|apply IH; auto; intros y Hy; apply HI; now right]. intros C. apply M1. apply in_map_iff in C. destruct C as [[y u] [Ey Hy]]. cbn [fst] in Ey.
      assert (Ix : In x (pubs ++ ins)). { apply S2. change x with (fst (x, v)). apply in_map, HI. now left. }
      assert (Iy : In y (pubs ++ ins)). { apply S2. change y with (fst (y, u)). apply in_map, HI. now right. }
      destruct (Gi x Ix) as [i [Gx Ei]], (Gi y Iy) as [j [Gy Ej]]. apply N3 in Gx, Gy. apply in_map_iff. exists (y, u). split; auto. cbn. congruence.
    - intros x v Hx. split; [|easy]. assert (Ix : In x (pubs ++ ins) /\ x <> "1"%string). { apply S2. change x with (fst (x, v)). now apply in_map. }
      destruct (Gi x (proj1 Ix)) as [i [Gx Ei]]. intros C. apply (proj2 Ix). apply N3 in Gx. congruence. }
  assert (OK : forall W, calculate_witness q gx (index_map s) (split_map s) (rows s) rnd inp = Ok W ->
    Forall (row_ok q gx W) (rows s) /\ nth 0 W 0 = 1 /\ List.length W = List.length (index_map s) /\
    (forall x, In x (pubs ++ ins) -> x <> "1"%string -> read (index_map s) W x = w x)).
  { intros W HW. destruct (C32_dense _ _ _ _ _ _ _ _ HI HW) as [L [W0 WI]]. split.
    - eapply C30_sound; eauto. rewrite SP. intros j [].
    - split; auto. split; auto. intros x Hx Nx. destruct SI as [S1 S2].
      assert (Hi := proj2 (S2 x) (conj Hx Nx)). apply in_map_iff in Hi. destruct Hi as [[y v] [Ey Hy]]. cbn in Ey. subst y.
        destruct (Gi x Hx) as [i [Gx Ei]]. unfold read. rewrite Gx, <- Ei, (WI x v Hy). auto. }
  assert (SAT : forall W, calculate_witness q gx (index_map s) (split_map s) (rows s) rnd inp = Ok W ->
    Forall (fun e => exists a b, means q gx w (fst e) a /\ means q gx w (snd e) b /\ a ==[q] b) (equalities p) /\
    means q gx w (result p) (lin (read (index_map s) W) f)).
  { intros W HW. destruct (OK W HW) as [R [W0 [L WI]]].
    assert (Ev : forall x, In x (prog_names p) -> read (index_map s) W x = w x) by (intros x Hx; destruct (D3 x Hx); auto).
    assert (Er : forall x, In x (vars (result p)) -> read (index_map s) W x = w x) by (intros x Hx; apply Ev; unfold prog_names; rewrite in_app_iff; auto).
    assert (Ee : forall e x, In e (equalities p) -> In x (vars (fst e)) \/ In x (vars (snd e)) -> read (index_map s) W x = w x).
    { intros e x He Hx. apply Ev. unfold prog_names. rewrite in_app_iff. left. apply in_flat_map. exists e. split; auto. now rewrite in_app_iff. }
    destruct (C58_sound sort hash q gx HS Hq G0 p c f tr pubs ins s HX NC HD E W L W0 R) as [S1 [S2 _]].
    { destruct HZ as [Z1 Z2]. split; [|eapply divisors_ext; [|exact Z2]; intros; symmetry; auto].
      rewrite Forall_forall in *. intros e He. destruct (Z1 e He) as [Y1 Y2].
      split; (eapply divisors_ext; [|eassumption]); intros; symmetry; eauto. }
    split; [|eapply means_ext; eauto]. rewrite Forall_forall in *. intros e He. destruct (S1 e He) as [x [y [M1 [M2 M3]]]].
    exists x, y. split; [eapply means_ext; [|exact M1]; eauto|]. split; auto. eapply means_ext; [|exact M2]; eauto. }
  split; [split|].
  - intros [W HW]. now apply (SAT W).
  - intros HE. set (w1 := fun x => if String.eqb x "1" then 1 else w x).
    assert (Wx : forall x, In x (prog_names p) -> w x = w1 x).
    { intros x Hx. unfold w1. destruct (String.eqb_spec x "1"); auto. now destruct (D3 x Hx). }
    assert (Er : forall x, In x (vars (result p)) -> w x = w1 x) by (intros x Hx; apply Wx; unfold prog_names; rewrite in_app_iff; auto).
    assert (Ee : forall e x, In e (equalities p) -> In x (vars (fst e)) \/ In x (vars (snd e)) -> w x = w1 x).
    { intros e x He Hx. apply Wx. unfold prog_names. rewrite in_app_iff. left. apply in_flat_map. exists e. split; auto. now rewrite in_app_iff. }
    assert (HZ1 : no_zero_divisor q gx w1 p).
    { destruct HZ as [Z1 Z2]. split; [|eapply divisors_ext; eauto]. rewrite Forall_forall in *. intros e He. destruct (Z1 e He) as [Y1 Y2].
      split; (eapply divisors_ext; [|eassumption]); eauto. }
    destruct (C58_complete sort hash q gx HS Hq G0 p c f tr pubs ins s HX NC HD E w1 eq_refl HZ1) as [W [L [W0 [WI R]]]].
    { destruct HZ as [Z1 _]. rewrite Forall_forall in *. intros e He x y Mx My. destruct (HE e He) as [x0 [y0 [M1 [M2 M3]]]].
      destruct (Z1 e He) as [Y1 Y2].
      assert (Mx' : means q gx w (fst e) x) by (eapply means_ext; [|exact Mx]; intros; symmetry; eauto).
      assert (My' : means q gx w (snd e) y) by (eapply means_ext; [|exact My]; intros; symmetry; eauto).
      rewrite (means_unique q gx w Hq _ _ _ Y1 Mx' M1), M3. now apply (means_unique q gx w Hq _ _ _ Y2). }
    destruct (C59_finds sort hash q gx HS Hq G0 p c f tr pubs ins s HX NC HD E Hr W L W0 R) with (rnd := rnd) (inp := inp) as [W' [HW _]]; auto.
    + destruct HZ1 as [Z1 Z2]. split.
      * rewrite Forall_forall in *. intros e He. destruct (Z1 e He) as [Y1 Y2].
        assert (Y : forall x, In x (vars (fst e)) \/ In x (vars (snd e)) -> w1 x = read (index_map s) W x).
        { intros x Hx. symmetry. apply WI. apply (D3 x). unfold prog_names. rewrite in_app_iff. left. apply in_flat_map. exists e. split; auto. now rewrite in_app_iff. }
        split; (eapply divisors_ext; [|eassumption]); auto.
      * eapply divisors_ext; [|exact Z2]. intros x Hx. symmetry. apply WI. apply (D3 x). unfold prog_names. rewrite in_app_iff. auto.
    + intros x v Hx. destruct SI as [S1 S2]. assert (Ix : In x (pubs ++ ins) /\ x <> "1"%string). { apply S2. change x with (fst (x, v)). now apply in_map. }
      rewrite WI by apply Ix. unfold w1. destruct (String.eqb_spec x "1"); [now destruct Ix|]. rewrite (IV x v Hx). reflexivity.
    + eauto.
  - intros W HW. destruct (OK W HW) as [R [W0 [L WI]]]. split; auto. split; auto. split; auto. now apply (SAT W).
Qed.
Print Assumptions C59_accepts.

(** equal(x + y, z + u); return x*y *)
Definition C59_prog : prog := Prog [(EBin "+" (EVar "x") (EVar "y"), EBin "+" (EVar "z") (EVar "u"))] (EBin "*" (EVar "x") (EVar "y")).
(** The sparse solver rejects inputs of this program for which the equality holds and which the
    dense solver accepts. *)
Theorem C59_sparse_refuted : exists sort hash q gx p c f tr pubs ins s d inp W,
  (forall l, Permutation (sort l) l) /\ prime q /\ (forall k, 0 <= k -> gx k = gx (k mod q)) /\ gx 0 ==[q] 0 /\
  execute sort hash q p = Some (c, f, tr) /\ no_collision tr /\ declared p pubs ins c /\
  gates_to_r1cs pubs ins (gates c) false = Some d /\ gates_to_sparse_r1cs q pubs ins (gates c) false = Some s /\
  supplied pubs ins inp /\
  calculate_witness q gx (index_map d) (split_map d) (rows d) 0 inp = Ok W /\ Forall (srow_ok q gx W) (rows s) /\
  calculate_sparse_witness q gx (index_map s) (split_map s) (rows s) 0 inp = Err.
Proof.
  exists sort_factors, toy_hash, 101, (fun _ => 0), C59_prog.
  destruct (execute sort_factors toy_hash 101 C59_prog) as [[[c f] tr]|] eqn:E; [|vm_compute in E; discriminate].
  exists c, f, tr, ["1"]%string, ["x"; "y"; "z"; "u"]%string.
  destruct (gates_to_r1cs ["1"]%string ["x"; "y"; "z"; "u"]%string (gates c) false) as [d|] eqn:Ed; [|vm_compute in E; injection E as <- _ _; vm_compute in Ed; discriminate].
  destruct (gates_to_sparse_r1cs 101 ["1"]%string ["x"; "y"; "z"; "u"]%string (gates c) false) as [s|] eqn:Es; [|vm_compute in E; injection E as <- _ _; vm_compute in Es; discriminate].
  exists s, d, [("x", 60); ("y", 50); ("z", 100); ("u", 10)]%string, [1; 60; 50; 100; 10; 71].
  split; [exact sort_factors_perm|]. split; [exact prime_101|]. split; [auto|]. split; [apply cong_eq; reflexivity|]. split; [reflexivity|].
  split. { apply no_collisionb_ok. vm_compute in E. injection E as _ _ <-. vm_compute. reflexivity. }
  split.
  { split; [repeat constructor; cbn; intros H; nope H|]. split; [reflexivity|]. split.
    - intros x Hx. cbn in Hx. decompose [or] Hx; try contradiction; subst; (split; [cbn; auto 10|discriminate]).
    - intros x Hx. vm_compute in E. injection E as <- _ _. cbn in Hx. intros H. cbn in H. decompose [or] Hx; try contradiction; subst; nope H. }
  split; auto. split; auto. split.
  { split; [cbn; repeat constructor; cbn; intros H; nope H|]. intros x. cbn. split.
    - intros [<-|[<-|[<-|[<-|[]]]]]; (split; [auto 10|discriminate]).
    - intros [H N]. decompose [or] H; try contradiction; subst; auto; elim N; reflexivity. }
  vm_compute in E. injection E as <- _ _. vm_compute in Ed. injection Ed as <-. vm_compute in Es. injection Es as <-.
  split; [vm_compute; reflexivity|]. split; [|vm_compute; reflexivity].
  cbn [rows]. repeat (apply Forall_cons; [unfold srow_ok; apply cong_mod_iff; [lia|vm_compute; reflexivity]|]). constructor.
Qed.
Print Assumptions C59_sparse_refuted.

(** The program of C58_case with inputs satisfying its equality, and with inputs violating it. *)
Example C59_case : exists c f tr s, execute sort_factors toy_hash 101 C56_prog = Some (c, f, tr) /\ no_collision tr /\
  declared C56_prog ["1"; "z"]%string ["x"; "y"; "z"]%string c /\
  gates_to_r1cs ["1"; "z"]%string ["x"; "y"; "z"]%string (gates c) false = Some s /\
  ~ In rand_in (wire_names ["1"; "z"]%string ["x"; "y"; "z"]%string (gates c) false) /\
  supplied ["1"; "z"]%string ["x"; "y"; "z"]%string [("x", 2); ("y", 3); ("z", 18)]%string /\
  no_zero_divisor 101 C58_gx C56_in C56_prog /\ (forall x v, In (x, v) [("x", 2); ("y", 3); ("z", 18)]%string -> v = C56_in x) /\
  calculate_witness 101 C58_gx (index_map s) (split_map s) (rows s) 0 [("x", 2); ("y", 3); ("z", 18)]%string = Ok [1; 18; 2; 3; 6; 6; 14; 32] /\
  calculate_witness 101 C58_gx (index_map s) (split_map s) (rows s) 0 [("x", 2); ("y", 3); ("z", 19)]%string = Err.
Proof.
  destruct (execute sort_factors toy_hash 101 C56_prog) as [[[c f] tr]|] eqn:E; [|vm_compute in E; discriminate].
  exists c, f, tr.
  destruct (gates_to_r1cs ["1"; "z"]%string ["x"; "y"; "z"]%string (gates c) false) as [s|] eqn:Es; [|vm_compute in E; injection E as <- _ _; vm_compute in Es; discriminate].
  exists s. split; auto. split. { apply no_collisionb_ok. vm_compute in E. injection E as _ _ <-. vm_compute. reflexivity. }
  split.
  { split; [repeat constructor; cbn; intros H; nope H|]. split; [reflexivity|]. split.
    - intros x Hx. cbn in Hx. decompose [or] Hx; try contradiction; subst; (split; [cbn; auto 10|discriminate]).
    - intros x Hx. vm_compute in E. injection E as <- _ _. cbn in Hx. intros H. cbn in H. decompose [or] Hx; try contradiction; subst; nope H. }
  split; auto. split. { vm_compute in E. injection E as <- _ _. intros H. cbn in H. nope H. }
  split.
  { split; [cbn; repeat constructor; cbn; intros H; nope H|]. intros x. cbn. split.
    - intros [<-|[<-|[<-|[]]]]; (split; [auto 10|discriminate]).
    - intros [H N]. decompose [or] H; try contradiction; subst; auto; elim N; reflexivity. }
  split.
  { clear E Es. split; [constructor; [|constructor]|]; cbn [fst snd divisors_ok C56_prog equalities result]; repeat (split; try exact I); try discriminate;
      intros _ M; inversion M as [|? ? X| | | | |]; subst; destruct X as [k X]; cbn in X; lia. }
  split. { intros x v H. cbn in H. decompose [or] H; try contradiction; match goal with X : (_, _) = _ |- _ => injection X as <- <- end; reflexivity. }
  vm_compute in E. injection E as <- _ _. vm_compute in Es. injection Es as <-. split; vm_compute; reflexivity.
Qed.

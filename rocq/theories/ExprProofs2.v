(** The expression theorems lifted to whole programs. *)
Require Import ZArith Znumtheory Lia Bool Permutation Ascii String List.
Require Import Verif.Cong Verif.FqModel Verif.FqProofs Verif.FactorModel Verif.FactorSpec Verif.FactorProofs
  Verif.ExprModel Verif.ExprSpec Verif.ExprProofs.
Import ListNotations.
Open Scope Z_scope.

Section P.
Variable sort : factors -> factors.
Hypothesis sort_perm : forall l, Permutation (sort l) l.
Variable hash : string -> Z.
Variable q : Z.
Hypothesis Hq : prime q.
Variable gx : Z -> Z.

Notation means := (means q gx).
Notation divisors_ok := (divisors_ok q gx).
Notation gate_holds := (gate_holds q gx).
Notation all_hold := (all_hold q gx).
Notation compile_sound := (compile_sound sort sort_perm hash q Hq gx).
Notation compile_complete := (compile_complete sort sort_perm hash q Hq gx).

Definition pair_ok (w : assignment) (p : expr * expr) : Prop := divisors_ok w (fst p) /\ divisors_ok w (snd p).
Definition pair_vars (p : expr * expr) : list string := vars (fst p) ++ vars (snd p).

Lemma equal_step c1 tr1 l r c2 g : Inv c1 tr1 -> compile_equal sort hash c1 l r = Some c2 ->
  with_id sort hash (Gate GEqual "" l r [] [] true no_token) = Some g ->
  grows c1 tr1 c2 (tr1 ++ [g]) /\
  (forall w, no_collision (tr1 ++ [g]) -> all_hold w (gates c2) -> lin w l ==[q] lin w r) /\
  (forall V, Closed V c1 -> Forall (fac_in (K V c1)) l -> Forall (fac_in (K V c1)) r -> apart V c2 -> Closed V c2 /\
     forall w, all_hold w (gates c1) -> lin w l ==[q] lin w r ->
     exists w', extends V c1 w w' /\ all_hold w' (gates c2)).
Proof.
  intros HI H EG. unfold compile_equal in H. destruct (collect _ _ _ _ _) as [[c3 i]|] eqn:EC; [|discriminate]. injection H as <-.
  destruct (equal_gate sort sort_perm hash q gx g l r EG) as [Wg [Fg Hg]].
  destruct (collect_Inv sort hash q gx c1 tr1 _ g _ c3 i HI EC EG (eq_sym Fg) Wg) as [HI' [Ei [Hi _]]].
  split; [exact (step_grows sort hash q gx c1 tr1 _ g _ c3 i HI EC EG (eq_sym Fg) Wg)|]. split.
  - intros w NC HA. apply Hg. apply (Inv_holds q gx w c3 (tr1 ++ [g])); auto. apply last_in.
  - intros V HC Nl Nr AP. destruct (with_id_sorted sort sort_perm hash (K V c1) _ _ EG eq_refl) as [SL [SR [SE [SO _]]]]. cbn [gleft gright gexp gout] in SL, SR, SE, SO.
    split; [apply (step_closed sort hash q gx V c1 tr1 _ g _ c3 i HI HC EC EG (eq_sym Fg) Wg)|].
    { rewrite Fg. repeat split; try (eapply fac_in_mono; [|first [exact (SL Nl)|exact (SR Nr)|apply SE; constructor|apply SO; constructor]]; auto). now right. }
    intros w HW HE. apply (step_complete sort hash q gx V c1 tr1 _ g _ c3 i HI HC EC EG (eq_sym Fg) Wg AP w 0 HW).
    intros w' EX _. apply Hg. rewrite (lin_ext (K V c1) w' w l), (lin_ext (K V c1) w' w r) by auto. exact HE.
Qed.

Lemma equalities_sound : forall es c tr c' tr', compile_equalities sort hash q c es tr = Some (c', tr') -> Inv c tr ->
  grows c tr c' tr' /\
  forall w, no_collision tr' -> all_hold w (gates c') -> Forall (pair_ok w) es ->
  Forall (fun p => exists a b, means w (fst p) a /\ means w (snd p) b /\ a ==[q] b) es.
Proof.
  induction es as [|[l r] es IH]; intros c tr c' tr' H HI; cbn [compile_equalities] in H.
  - injection H as <- <-. split; [now apply grows_refl|]. constructor.
  - destruct (compile_expr sort hash q c l tr) as [[[c1 fl] tr1]|] eqn:El; [|discriminate].
    destruct (compile_expr sort hash q c1 r tr1) as [[[c2 fr] tr2]|] eqn:Er; [|discriminate].
    destruct (compile_equal sort hash c2 fl fr) as [c3|] eqn:EE; [|discriminate].
    destruct (with_id sort hash _) as [g|] eqn:EG; [|discriminate].
    destruct (compile_sound l c tr c1 fl tr1 El HI) as [G1 [N1 [P1 S1]]].
    destruct (compile_sound r c1 tr1 c2 fr tr2 Er (proj1 G1)) as [G2 [N2 [P2 S2]]].
    destruct (equal_step c2 tr2 fl fr c3 g (proj1 G2) EE EG) as [G3 [S3 _]].
    destruct (IH c3 (tr2 ++ [g]) c' tr' H (proj1 G3)) as [G4 S4].
    assert (G34 := grows_trans _ _ _ _ _ _ G3 G4). assert (G234 := grows_trans _ _ _ _ _ _ G2 G34).
    split; [eapply grows_trans; eauto|]. intros w NC HA HD. inversion HD as [|? ? [D1 D2] D3]; subst. cbn [fst snd] in *. constructor; auto.
    exists (lin w fl), (lin w fr). split; [apply S1; auto; [eapply grows_nc; eauto|eapply grows_hold; eauto]|].
    split; [apply S2; auto; [eapply grows_nc; eauto|eapply grows_hold; eauto]|].
    apply S3; [eapply grows_nc; eauto|eapply grows_hold; eauto].
Qed.

Lemma equalities_complete V : forall es c tr c' tr', compile_equalities sort hash q c es tr = Some (c', tr') -> Inv c tr ->
  Closed V c -> Forall (fun p => forall x, In x (pair_vars p) -> V x) es -> apart V c' -> no_collision tr' ->
  Closed V c' /\
  forall w, all_hold w (gates c) -> Forall (pair_ok w) es ->
  Forall (fun p => forall a b, means w (fst p) a -> means w (snd p) b -> a ==[q] b) es ->
  exists w', extends V c w w' /\ all_hold w' (gates c').
Proof.
  induction es as [|[l r] es IH]; intros c tr c' tr' H HI HC HV AP NC; cbn [compile_equalities] in H.
  - injection H as <- <-. split; auto. intros w HW _ _. exists w. split; auto. intros x _; reflexivity.
  - destruct (compile_expr sort hash q c l tr) as [[[c1 fl] tr1]|] eqn:El; [|discriminate].
    destruct (compile_expr sort hash q c1 r tr1) as [[[c2 fr] tr2]|] eqn:Er; [|discriminate].
    destruct (compile_equal sort hash c2 fl fr) as [c3|] eqn:EE; [|discriminate].
    destruct (with_id sort hash _) as [g|] eqn:EG; [|discriminate].
    destruct (compile_sound l c tr c1 fl tr1 El HI) as [G1 [N1 [P1 S1]]].
    destruct (compile_sound r c1 tr1 c2 fr tr2 Er (proj1 G1)) as [G2 [N2 [P2 S2]]].
    destruct (equal_step c2 tr2 fl fr c3 g (proj1 G2) EE EG) as [G3 [_ S3]].
    destruct (equalities_sound es c3 (tr2 ++ [g]) c' tr' H (proj1 G3)) as [G4 _].
    assert (G34 := grows_trans _ _ _ _ _ _ G3 G4). assert (G234 := grows_trans _ _ _ _ _ _ G2 G34).
    assert (I1 := proj2 (proj2 (proj2 G1))). assert (I2 := proj2 (proj2 (proj2 G2))).
    assert (I3 := proj2 (proj2 (proj2 G3))). assert (I4 := proj2 (proj2 (proj2 G4))).
    assert (AP3 := apart_incl V _ _ I4 AP). assert (AP2 := apart_incl V _ _ I3 AP3). assert (AP1 := apart_incl V _ _ I2 AP2).
    inversion HV as [|? ? HV1 HV2]; subst. unfold pair_vars in HV1. cbn [fst snd] in HV1.
    destruct (compile_complete V l c tr c1 fl tr1 El HI HC) as [C1 [F1 E1]]; auto; [intros; apply HV1, in_app_iff; auto|eapply grows_nc; eauto|].
    destruct (compile_complete V r c1 tr1 c2 fr tr2 Er (proj1 G1) C1) as [C2 [F2 E2]]; auto; [intros; apply HV1, in_app_iff; auto|eapply grows_nc; eauto|].
    assert (F1' : Forall (fac_in (K V c2)) fl) by (eapply fac_in_mono; [|exact F1]; intros; now apply (K_mono V c1)).
    destruct (S3 V C2 F1' F2 AP3) as [C3 E3].
    destruct (IH c3 (tr2 ++ [g]) c' tr' H (proj1 G3) C3 HV2 AP NC) as [C4 E4]. split; auto.
    intros w HW HD HE. inversion HD as [|? ? [D1 D2] D3]; subst. inversion HE as [|? ? Q1 Q2]; subst. cbn [fst snd] in *.
    destruct (E1 w HW D1) as [w1 [X1 W1]].
    assert (V1 : forall x, V x -> w x = w1 x) by (intros x Hx; symmetry; apply X1; now left).
    destruct (E2 w1 W1) as [w2 [X2 W2]]; [eapply divisors_ext; [|exact D2]; intros x Hx; apply V1, HV1, in_app_iff; auto|].
    assert (V2 : forall x, V x -> w x = w2 x) by (intros x Hx; rewrite V1 by auto; symmetry; apply X2; now left).
    destruct (E3 w2 W2) as [w3 [X3 W3]].
    { apply Q1.
      - apply (means_ext q gx w2); [intros x Hx; symmetry; apply V2, HV1, in_app_iff; auto|]. apply S1; [exact (grows_nc _ _ _ _ G234 NC)|exact (grows_hold q gx w2 _ _ _ _ G2 W2)|].
        eapply divisors_ext; [|exact D1]. intros x Hx; apply V2, HV1, in_app_iff; auto.
      - apply (means_ext q gx w2); [intros x Hx; symmetry; apply V2, HV1, in_app_iff; auto|]. apply S2; [exact (grows_nc _ _ _ _ G34 NC)|exact W2|].
        eapply divisors_ext; [|exact D2]. intros x Hx; apply V2, HV1, in_app_iff; auto. }
    assert (V3 : forall x, V x -> w x = w3 x) by (intros x Hx; rewrite V2 by auto; symmetry; apply X3; now left).
    destruct (E4 w3 W3) as [w4 [X4 W4]].
    + rewrite Forall_forall in D3, HV2. apply Forall_forall. intros p Hp. destruct (D3 p Hp) as [A B].
      split; [eapply divisors_ext; [|exact A]|eapply divisors_ext; [|exact B]]; intros x Hx; apply V3, (HV2 p Hp), in_app_iff; auto.
    + rewrite Forall_forall in Q2, HV2. apply Forall_forall. intros p Hp a b Ma Mb. apply (Q2 p Hp).
      * eapply means_ext; [|exact Ma]. intros x Hx. symmetry. apply V3, (HV2 p Hp), in_app_iff; auto.
      * eapply means_ext; [|exact Mb]. intros x Hx. symmetry. apply V3, (HV2 p Hp), in_app_iff; auto.
    + exists w4. split; auto. eapply extends_trans; [exact I1|exact X1|]. eapply extends_trans; [exact I2|exact X2|].
      eapply extends_trans; [exact I3|exact X3|exact X4].
Qed.

Lemma prefix16_nonempty s i : prefix16 s = Some i -> i <> EmptyString.
Proof.
  unfold prefix16. destruct s as [|a s]; [discriminate|]. destruct (Nat.ltb _ _); [discriminate|]. intros H; injection H as <-. discriminate.
Qed.

Lemma Inv_empty : Inv (Coll [] []) [].
Proof. split; [constructor|]. exists []. split; [reflexivity|]. split; [apply incl_refl|]. split; [reflexivity|apply incl_refl]. Qed.

(** The three outcomes of completeFunction. *)
Lemma execute_inv p c f tr : execute sort hash q p = Some (c, f, tr) ->
  exists c1 tr1 c2 tr2, compile_equalities sort hash q (Coll [] []) (equalities p) [] = Some (c1, tr1) /\
    compile_expr sort hash q c1 (result p) tr1 = Some (c2, f, tr2) /\ Inv c1 tr1 /\ grows c1 tr1 c2 tr2 /\
    (is_single_number f = true /\ c = c2 /\ tr = tr2 \/
     (exists x, f = [x] /\ mult x = 1 /\ is_number x = false) /\ c = c2 /\ tr = tr2 \/
     exists i g, g = Gate GAdd i f [] [] (wire i 1) false no_token /\ tr = tr2 ++ [g] /\ i <> EmptyString /\
       collect sort hash c2 g (fun g => g) = Some (c, i)).
Proof.
  unfold execute. destruct (compile_equalities _ _ _ _ _ _) as [[c1 tr1]|] eqn:E1; [|discriminate].
  destruct (compile_expr _ _ _ _ _ _) as [[[c2 f0] tr2]|] eqn:E2; [|discriminate].
  destruct (equalities_sound _ _ _ _ _ E1 Inv_empty) as [G1 _].
  destruct (compile_sound _ _ _ _ _ _ E2 (proj1 G1)) as [G2 [Nf _]].
  destruct (complete_function sort hash c2 f0) as [c3|] eqn:E3; [|discriminate].
  intros H. assert (f0 = f). { destruct (is_single_number f0); [congruence|]. destruct (match f0 with [x] => _ | _ => _ end); [congruence|]. destruct (list_signature _ _); congruence. }
  subst f0. exists c1, tr1, c2, tr2. split; auto. split; auto. split; [apply G1|]. split; auto.
  unfold complete_function in E3. destruct f as [|x f]; [easy|].
  destruct (is_single_number (x :: f)) eqn:S; [left; injection E3 as <-; injection H as <- <-; auto|]. right.
  destruct f as [|y f].
  - destruct (Z.eqb_spec (mult x) 1) as [Em|Em].
    + left. injection E3 as <-. injection H as <- <-. split; auto. exists x. auto.
    + right. destruct (list_signature hash [x]) as [i|] eqn:Ei; [|discriminate]. injection H as <- <-.
      exists i. eexists. split; [reflexivity|]. split; auto. assert (Ni := prefix16_nonempty _ _ Ei). split; auto.
      unfold collect, with_id in *. cbn [gid] in *. destruct i; [easy|]. cbn [gid] in *.
      destruct (contains c2 _); injection E3 as <-; reflexivity.
  - right. destruct (list_signature hash (x :: y :: f)) as [i|] eqn:Ei; [|discriminate]. injection H as <- <-.
      exists i. eexists. split; [reflexivity|]. split; auto. assert (Ni := prefix16_nonempty _ _ Ei). split; auto.
      unfold collect, with_id in *. cbn [gid] in *. destruct i; [easy|]. cbn [gid] in *.
      destruct (contains c2 _); injection E3 as <-; reflexivity.
Qed.

Lemma add_gate_facts i f g : g = Gate GAdd i f [] [] (wire i 1) false no_token -> i <> EmptyString ->
  with_id sort hash g = Some g /\ gate_wf g /\ finish g = g /\ forall w, gate_holds w (finish g) <-> lin w f ==[q] w i.
Proof.
  intros -> Hi. unfold with_id. cbn [gid]. destruct i as [|a s]; [easy|]. split; auto. split; [reflexivity|]. split; [reflexivity|].
  intros w. unfold FactorSpec.gate_holds. cbn [gtyp finish gleft gout]. rewrite lin_wire, Z.mul_1_l. tauto.
Qed.

Lemma execute_sound p c f tr : execute sort hash q p = Some (c, f, tr) -> no_collision tr ->
  forall w, all_hold w (gates c) -> Forall (pair_ok w) (equalities p) -> divisors_ok w (result p) ->
  Forall (fun pr => exists a b, means w (fst pr) a /\ means w (snd pr) b /\ a ==[q] b) (equalities p) /\
  means w (result p) (lin w f) /\
  (is_single_number f = true \/ exists o, means w (result p) (w o)).
Proof.
  intros H NC w HA HD DR. destruct (execute_inv p c f tr H) as [c1 [tr1 [c2 [tr2 [E1 [E2 [I1 [G2 HC]]]]]]]].
  destruct (equalities_sound _ _ _ _ _ E1 Inv_empty) as [G1 S1].
  destruct (compile_sound _ _ _ _ _ _ E2 I1) as [_ [Nf [_ S2]]].
  assert (X : no_collision tr2 /\ all_hold w (gates c2) /\
    (is_single_number f = true \/ exists o, means w (result p) (lin w f) -> means w (result p) (w o))).
  { destruct HC as [[Sn [-> ->]]|[[[x [-> [Mx Nx]]] [-> ->]]|[i [g [Eg [-> [Ni EC]]]]]]].
    - auto.
    - split; auto. split; auto. right. exists (ident (ftok x)). apply means_cong. cbn [lin]. rewrite fac_val_wire, Mx by auto. apply cong_eq. ring.
    - destruct (add_gate_facts i f g Eg Ni) as [EW [Wg [Fg Hg]]].
      assert (G3 := step_grows sort hash q gx c2 tr2 g g _ c i (proj1 G2) EC EW (eq_sym Fg) Wg).
      split; [eapply grows_nc; eauto|]. split; [eapply grows_hold; eauto|]. right. exists i. apply means_cong. apply Hg.
      apply (Inv_holds q gx w c (tr2 ++ [g])); auto; [apply G3|apply last_in]. }
  destruct X as [NC2 [HA2 HO]]. split; [apply S1; auto; [eapply grows_nc; eauto|eapply grows_hold; eauto]|].
  assert (M := S2 w NC2 HA2 DR). split; auto. destruct HO as [HO|[o HO]]; eauto.
Qed.

Definition inputs (p : prog) (x : string) : Prop := In x (flat_map pair_vars (equalities p)) \/ In x (vars (result p)).

Lemma execute_complete p c f tr : execute sort hash q p = Some (c, f, tr) -> no_collision tr ->
  (forall x, inputs p x -> ~ In x (known c)) ->
  forall w, Forall (pair_ok w) (equalities p) -> divisors_ok w (result p) ->
  Forall (fun pr => forall a b, means w (fst pr) a -> means w (snd pr) b -> a ==[q] b) (equalities p) ->
  exists w', (forall x, inputs p x -> w' x = w x) /\ all_hold w' (gates c).
Proof.
  intros H NC AP w HD DR HE. destruct (execute_inv p c f tr H) as [c1 [tr1 [c2 [tr2 [E1 [E2 [I1 [G2 HC]]]]]]]].
  set (V := inputs p) in *.
  assert (I2 := proj2 (proj2 (proj2 G2))).
  assert (X : exists g0, incl (known c2) (known c) /\ grows c2 tr2 c tr /\ no_collision tr2 /\ apart V c2 /\ g0 = tt).
  { exists tt. destruct HC as [[Sn [-> ->]]|[[[x [-> [Mx Nx]]] [-> ->]]|[i [g [Eg [-> [Ni EC]]]]]]].
    - split; [apply incl_refl|]. split; [apply grows_refl, G2|]. auto.
    - split; [apply incl_refl|]. split; [apply grows_refl, G2|]. auto.
    - destruct (add_gate_facts i f g Eg Ni) as [EW [Wg [Fg Hg]]].
      assert (G3 := step_grows sort hash q gx c2 tr2 g g _ c i (proj1 G2) EC EW (eq_sym Fg) Wg).
      assert (I3 := proj2 (proj2 (proj2 G3))). split; auto. split; auto. split; [eapply grows_nc; eauto|]. split; auto. eapply apart_incl; eauto. }
  destruct X as [_ [I3 [G3 [NC2 [AP2 _]]]]]. assert (AP1 := apart_incl V _ _ I2 AP2).
  destruct (equalities_complete V _ _ _ _ _ E1 Inv_empty) as [C1 X1]; auto.
  { constructor. }
  { apply Forall_forall. intros pr Hp x Hx. left. apply in_flat_map. eauto. }
  { eapply grows_nc; eauto. }
  destruct (compile_complete V _ _ _ _ _ _ E2 I1 C1) as [C2 [F2 X2]]; auto.
  { intros x Hx. now right. }
  destruct (X1 w (Forall_nil _) HD HE) as [w1 [A1 W1]].
  assert (V1 : forall x, V x -> w x = w1 x) by (intros x Hx; symmetry; apply A1; now left).
  destruct (X2 w1 W1) as [w2 [A2 W2]]; [eapply divisors_ext; [|exact DR]; intros x Hx; apply V1; now right|].
  assert (V2 : forall x, V x -> w2 x = w x) by (intros x Hx; rewrite V1 by auto; apply A2; now left).
  destruct HC as [[Sn [-> ->]]|[[[x [-> [Mx Nx]]] [-> ->]]|[i [g [Eg [-> [Ni EC]]]]]]]; [exists w2; auto|exists w2; auto|].
  destruct (add_gate_facts i f g Eg Ni) as [EW [Wg [Fg Hg]]].
  destruct (step_complete sort hash q gx V c2 tr2 g g _ c i (proj1 G2) C2 EC EW (eq_sym Fg) Wg AP w2 (lin w2 f) W2) as [w3 [A3 W3]].
  { intros w' EX Hv. apply Hg. rewrite Hv, (lin_ext (K V c2) w' w2 f) by auto. reflexivity. }
  exists w3. split; auto. intros x Hx. rewrite <- V2 by auto. apply A3. now left.
Qed.
End P.

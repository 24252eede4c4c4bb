(** Compiled programs can be solved row by row: every gate determines its own wire from wires
    known before. *)
Require Import ZArith Znumtheory Lia Bool Permutation Ascii String List.
Require Import Verif.Cong Verif.FqModel Verif.FqProofs Verif.FactorModel Verif.FactorSpec Verif.FactorProofs
  Verif.ExprModel Verif.ExprSpec Verif.ExprProofs Verif.ExprProofs2 Verif.PolyModel Verif.PolyProofs Verif.R1csModel Verif.R1csSpec Verif.R1csProofs
  Verif.EndProofs.
Import ListNotations.
Open Scope Z_scope.

(** ** What the compiler guarantees *)
(** The wire of [g] is determined by names in [K]. *)
Definition solvable (K : string -> Prop) (g : gate) : Prop :=
  match gtyp g with
  | GMul => Forall (fac_in K) (gright g) /\
            (Forall (fac_in K) (gleft g) /\ gout g = wire (gid g) 1 \/ Forall (fac_in K) (gout g) /\ gleft g = wire (gid g) 1)
  | GAdd => Forall (fac_in K) (gleft g) /\ gout g = wire (gid g) 1
  | GBase => Forall (fac_in K) (gexp g)
  | GEqual => Forall (fac_in K) (gleft g) /\ Forall (fac_in K) (gright g)
  | _ => False
  end.
Definition Kp (V : string -> Prop) (gs : list gate) (x : string) : Prop := V x \/ In x (out_names gs).
Definition Ordered (V : string -> Prop) (gs : list gate) : Prop :=
  forall pre g post, gs = pre ++ g :: post -> solvable (Kp V pre) g.
Definition div_ok (q : Z) (a : assignment) (g : gate) : Prop :=
  gtyp g = GMul -> gout g = wire (gid g) 1 \/ ~ lin a (gright g) ==[q] 0.

Lemma snoc_split {A} (l : list A) x pre y post : l ++ [x] = pre ++ y :: post ->
  (pre = l /\ y = x /\ post = []) \/ exists post', l = pre ++ y :: post'.
Proof.
  destruct post as [|z post] using rev_ind.
  - intros H. change (pre ++ [y]) with (pre ++ [y]) in H. apply app_inj_tail in H. destruct H as [-> ->]. auto.
  - clear IHpost. intros H. change (pre ++ y :: post ++ [z]) with (pre ++ (y :: post) ++ [z]) in H. rewrite app_assoc in H.
    apply app_inj_tail in H. destruct H as [-> _]. eauto.
Qed.
Lemma Ordered_nil V : Ordered V [].
Proof. intros pre g post H. destruct pre; discriminate. Qed.
Lemma Ordered_snoc V gs g : Ordered V gs -> solvable (Kp V gs) g -> Ordered V (gs ++ [g]).
Proof.
  intros H Hg pre g' post E. apply snoc_split in E. destruct E as [[-> [-> ->]]|[post' ->]]; auto. eapply H; eauto.
Qed.

Section P.
Variable sort : factors -> factors.
Hypothesis sort_perm : forall l, Permutation (sort l) l.
Variable hash : string -> Z.
Variable q : Z.
Hypothesis Hq : prime q.
Variable gx : Z -> Z.
Variable V : string -> Prop.
Hypothesis V1 : ~ V "1"%string.

Definition Slv (c : collector) : Prop := Ordered V (gates c).
(** Divisions newly added have divisors that are not zero. *)
Definition divs (a : assignment) (c c' : collector) : Prop := Forall (div_ok q a) (gates c) -> Forall (div_ok q a) (gates c').

Lemma collect_slv c tr g g' fin c' i : Inv c tr -> collect sort hash c g fin = Some (c', i) ->
  with_id sort hash g = Some g' -> fin g' = finish g' -> gate_wf g' -> Slv c -> solvable (Kp V (gates c)) (finish g') ->
  Slv c' /\ forall a, div_ok q a (finish g') -> divs a c c'.
Proof.
  intros HI EC EG Ef Wg HS Hg. destruct (collect_Inv sort hash q gx c tr g g' fin c' i HI EC EG Ef Wg) as [_ [_ [_ [_ HE]]]].
  destruct HE as [->|[E1 _]]; [split; auto; intros a _ H; exact H|]. unfold Slv, divs. rewrite E1. split; [now apply Ordered_snoc|].
  intros a Ha H. apply Forall_app. auto.
Qed.

Lemma collect_divs c tr g g' fin c' i : Inv c tr -> collect sort hash c g fin = Some (c', i) ->
  with_id sort hash g = Some g' -> fin g' = finish g' -> gate_wf g' -> forall a, div_ok q a (finish g') -> divs a c c'.
Proof.
  intros HI EC EG Ef Wg. destruct (collect_Inv sort hash q gx c tr g g' fin c' i HI EC EG Ef Wg) as [_ [_ [_ [_ HE]]]].
  destruct HE as [->|[E1 _]]; [intros a _ H; exact H|]. unfold divs. rewrite E1. intros a Ha H. apply Forall_app. auto.
Qed.

Lemma op_divs c op l r tr c' f tr' : compile_op_tr sort hash q c op l r tr = Some (c', f, tr') -> Inv c tr ->
  forall a, (op = "/"%string -> ~ lin a r ==[q] 0) -> divs a c c'.
Proof.
  intros H HI. unfold compile_op_tr, compile_op in H. destruct (String.eqb_spec op "*") as [->|P1].
  { cbn [andb] in H. destruct (is_single_number l || is_single_number r) eqn:S.
    - cbn [negb] in H. change (String.eqb "*" "/") with false in H. cbn [andb] in H.
      destruct (mul_factors q l r) as [f1|] eqn:E; [|discriminate]. injection H as <- <- <-. intros a _ X; exact X.
    - cbn [negb] in H. unfold compile_mul in H. destruct (extract_constant sort q l r) as [[[k l'] r']|] eqn:E; [|discriminate].
      destruct (collect _ _ _ _ _) as [[c1 i]|] eqn:EC; [|discriminate]. unfold traced in H.
      destruct (with_id sort hash _) as [g|] eqn:EG; [|discriminate]. injection H as <- <- <-.
      unfold extract_constant in E. destruct (factor_signature sort l) as [[gl l1]|] eqn:Sl; [|discriminate].
      destruct (factor_signature sort r) as [[gr r1]|] eqn:Sr; [|discriminate]. injection E as <- <- <-.
      destruct (mul_gate sort sort_perm hash q gx g l1 r1 EG (signature_nonempty _ sort_perm _ _ _ Sl) (signature_nonempty _ sort_perm _ _ _ Sr)) as [Wg [Fg _]].
      intros a _. apply (collect_divs c tr _ g _ c1 i HI EC EG (eq_sym Fg) Wg). rewrite Fg. intros _. now left. }
  destruct (String.eqb_spec op "/") as [->|P2].
  { cbn [andb] in H. destruct (is_single_number r) eqn:S.
    - cbn [negb] in H. destruct (invert_factors q r) as [ri|] eqn:EI; [|discriminate].
      destruct (mul_factors q l ri) as [f1|] eqn:E; [|discriminate]. injection H as <- <- <-. intros a _ X; exact X.
    - cbn [negb] in H. unfold compile_div in H. destruct (factor_signature sort l) as [[gl l1]|] eqn:Sl; [|discriminate].
      destruct (factor_signature sort r) as [[gr r1]|] eqn:Sr; [|discriminate]. destruct (fdiv q gl gr) as [k|] eqn:Ek; [|discriminate].
      destruct (collect _ _ _ _ _) as [[c1 i]|] eqn:EC; [|discriminate]. unfold traced in H.
      destruct (with_id sort hash _) as [g|] eqn:EG; [|discriminate]. injection H as <- <- <-.
      destruct (div_gate sort sort_perm hash q gx g l1 r1 EG (signature_nonempty _ sort_perm _ _ _ Sr)) as [Wg [Fg _]].
      intros a Hd. apply (collect_divs c tr _ g _ c1 i HI EC EG (eq_sym Fg) Wg). rewrite Fg. intros _. right. cbn [gright].
      destruct (with_id_lin sort sort_perm hash a _ _ EG) as [_ [_ [-> _]]]. cbn [gright].
      destruct (factor_signature_val sort sort_perm a r gr r1 Sr) as [_ Er']. intros Z0. apply (Hd eq_refl).
      rewrite <- Er', Z0. apply cong_eq. ring. }
  cbn [andb] in H. destruct (String.eqb_spec op "+") as [->|P3].
  { injection H as <- <- <-. intros a _ X; exact X. }
  destruct (String.eqb_spec op "-") as [->|P4]; [|discriminate].
  injection H as <- <- <-. intros a _ X; exact X.
Qed.

Lemma op_slv c op l r tr c' f tr' : compile_op_tr sort hash q c op l r tr = Some (c', f, tr') -> Inv c tr ->
  l <> [] -> r <> [] -> Forall (fac_in (Ko V c)) l -> Forall (fac_in (Ko V c)) r -> Slv c ->
  Slv c' /\ forall a, (op = "/"%string -> ~ lin a r ==[q] 0) -> divs a c c'.
Proof.
  intros H HI El Er Nl Nr HS. unfold compile_op_tr, compile_op in H. destruct (String.eqb_spec op "*") as [->|P1].
  { cbn [andb] in H. destruct (is_single_number l || is_single_number r) eqn:S.
    - cbn [negb] in H. change (String.eqb "*" "/") with false in H. cbn [andb] in H.
      destruct (mul_factors q l r) as [f1|] eqn:E; [|discriminate]. injection H as <- <- <-. split; auto. intros a _ X; exact X.
    - cbn [negb] in H. unfold compile_mul in H. destruct (extract_constant sort q l r) as [[[k l'] r']|] eqn:E; [|discriminate].
      destruct (collect _ _ _ _ _) as [[c1 i]|] eqn:EC; [|discriminate]. unfold traced in H.
      destruct (with_id sort hash _) as [g|] eqn:EG; [|discriminate]. injection H as <- <- <-.
      unfold extract_constant in E. destruct (factor_signature sort l) as [[gl l1]|] eqn:Sl; [|discriminate].
      destruct (factor_signature sort r) as [[gr r1]|] eqn:Sr; [|discriminate]. injection E as <- <- <-.
      destruct (mul_gate sort sort_perm hash q gx g l1 r1 EG (signature_nonempty _ sort_perm _ _ _ Sl) (signature_nonempty _ sort_perm _ _ _ Sr)) as [Wg [Fg _]].
      assert (L1 := signature_in sort sort_perm (Ko V c) _ _ _ Sl Nl). assert (R1 := signature_in sort sort_perm (Ko V c) _ _ _ Sr Nr).
      destruct (with_id_sorted sort sort_perm hash (Ko V c) _ _ EG eq_refl) as [SL [SR [SE [SO _]]]]. cbn [gleft gright gexp gout] in SL, SR, SE, SO.
      assert (T := with_id_gid sort hash _ _ EG). cbn in T.
      destruct (collect_slv c tr _ g _ c1 i HI EC EG (eq_sym Fg) Wg HS) as [A B].
      { rewrite Fg. unfold solvable. cbn [gtyp gleft gright gout gid]. rewrite T. split; [now apply SR|]. left. split; [now apply SL|reflexivity]. }
      split; auto. intros a _. apply B. rewrite Fg. intros _. now left. }
  destruct (String.eqb_spec op "/") as [->|P2].
  { cbn [andb] in H. destruct (is_single_number r) eqn:S.
    - cbn [negb] in H. destruct (invert_factors q r) as [ri|] eqn:EI; [|discriminate].
      destruct (mul_factors q l ri) as [f1|] eqn:E; [|discriminate]. injection H as <- <- <-. split; auto. intros a _ X; exact X.
    - cbn [negb] in H. unfold compile_div in H. destruct (factor_signature sort l) as [[gl l1]|] eqn:Sl; [|discriminate].
      destruct (factor_signature sort r) as [[gr r1]|] eqn:Sr; [|discriminate]. destruct (fdiv q gl gr) as [k|] eqn:Ek; [|discriminate].
      destruct (collect _ _ _ _ _) as [[c1 i]|] eqn:EC; [|discriminate]. unfold traced in H.
      destruct (with_id sort hash _) as [g|] eqn:EG; [|discriminate]. injection H as <- <- <-.
      destruct (div_gate sort sort_perm hash q gx g l1 r1 EG (signature_nonempty _ sort_perm _ _ _ Sr)) as [Wg [Fg _]].
      assert (L1 := signature_in sort sort_perm (Ko V c) _ _ _ Sl Nl). assert (R1 := signature_in sort sort_perm (Ko V c) _ _ _ Sr Nr).
      destruct (with_id_sorted sort sort_perm hash (Ko V c) _ _ EG eq_refl) as [SL [SR [SE [SO _]]]]. cbn [gleft gright gexp gout] in SL, SR, SE, SO.
      assert (T := with_id_gid sort hash _ _ EG). cbn in T.
      destruct (collect_slv c tr _ g _ c1 i HI EC EG (eq_sym Fg) Wg HS) as [A B].
      { rewrite Fg. unfold solvable. cbn [gtyp gleft gright gout gid]. rewrite T. split; [now apply SR|]. right. split; [now apply SO|reflexivity]. }
      split; auto. intros a Hd. apply B. rewrite Fg. intros _. right. cbn [gright].
      destruct (with_id_lin sort sort_perm hash a _ _ EG) as [_ [_ [-> _]]]. cbn [gright].
      destruct (factor_signature_val sort sort_perm a r gr r1 Sr) as [_ Er']. intros Z0. apply (Hd eq_refl).
      rewrite <- Er', Z0. apply cong_eq. ring. }
  cbn [andb] in H. destruct (String.eqb_spec op "+") as [->|P3].
  { injection H as <- <- <-. split; auto. intros a _ X; exact X. }
  destruct (String.eqb_spec op "-") as [->|P4]; [|discriminate].
  injection H as <- <- <-. split; auto. intros a _ X; exact X.
Qed.

Lemma compile_slv : forall e c tr c' f tr', compile_expr sort hash q c e tr = Some (c', f, tr') -> Good V c tr ->
  (forall x, In x (vars e) -> V x) -> ~ In "1"%string (known c') -> no_collision tr' -> Slv c ->
  Slv c' /\ forall a, all_hold q gx a (gates c') -> divisors_ok q gx a e -> divs a c c'.
Proof.
  induction e as [s|x|op l IHl r IHr|e IH]; intros c tr c' f tr' H HG HV N1 NC HS; assert (H0 := H); cbn [compile_expr] in H.
  - destruct (string_to_field q s) as [[v b]|] eqn:E; [|discriminate]. injection H as <- <- <-. split; auto. intros a _ _ X; exact X.
  - injection H as <- <- <-. split; auto. intros a _ _ X; exact X.
  - destruct (_ && _); [discriminate|]. destruct (compile_expr sort hash q c l tr) as [[[c1 fl] tr1]|] eqn:El; [|discriminate].
    destruct (compile_expr sort hash q c1 r tr1) as [[[c2 fr] tr2]|] eqn:Er; [|discriminate].
    destruct (compile_sound sort sort_perm hash q Hq gx l c tr c1 fl tr1 El (proj1 HG)) as [G1 [E1 [P1 _]]].
    destruct (compile_sound sort sort_perm hash q Hq gx r c1 tr1 c2 fr tr2 Er (proj1 G1)) as [G2 [E2 [P2 M2']]].
    destruct (op_sound sort sort_perm hash q Hq gx c2 op fl fr tr2 c' f tr' H (proj1 G2) P1 P2 E1 E2) as [G3 _].
    assert (G23 := grows_trans _ _ _ _ _ _ G2 G3).
    assert (I2 := proj2 (proj2 (proj2 G2))). assert (I3 := proj2 (proj2 (proj2 G3))). cbn [vars] in HV.
    assert (M2 : ~ In "1"%string (known c2)) by (intros X; apply N1; auto). assert (M1 : ~ In "1"%string (known c1)) by (intros X; apply M2; auto).
    assert (C2 := grows_nc _ _ _ _ G3 NC). assert (C1 := grows_nc _ _ _ _ G2 C2).
    destruct (compile_good sort sort_perm hash q Hq gx V V1 l c tr c1 fl tr1 El HG) as [A1 [B1 [D1 F1]]]; auto; [intros; apply HV, in_app_iff; auto|].
    destruct (compile_good sort sort_perm hash q Hq gx V V1 r c1 tr1 c2 fr tr2 Er A1) as [A2 [B2 [D2 F2]]]; auto; [intros; apply HV, in_app_iff; auto|].
    destruct (IHl c tr c1 fl tr1 El HG) as [S1 V1']; auto; [intros; apply HV, in_app_iff; auto|].
    destruct (IHr c1 tr1 c2 fr tr2 Er A1) as [S2 V2]; auto; [intros; apply HV, in_app_iff; auto|].
    destruct (op_slv c2 op fl fr tr2 c' f tr' H (proj1 A2) E1 E2 (fac_Ko V _ _ _ F2 D1) D2 S2) as [S3 V3].
    split; auto. intros a HA [O1 [O2 O3]] X. assert (HA2 := grows_hold q gx a _ _ _ _ G3 HA).
    apply V3.
    + intros E Z0. apply (O3 E). eapply means_cong; [exact Z0|]. now apply M2'.
    + apply (V2 a); auto. apply (V1' a); auto. eapply grows_hold; eauto.
  - destruct (compile_expr sort hash q c e tr) as [[[c1 fe] tr1]|] eqn:Ee; [|discriminate].
    destruct (compile_sound sort sort_perm hash q Hq gx e c tr c1 fe tr1 Ee (proj1 HG)) as [G1 _]. unfold compile_base in H.
    destruct (collect _ _ _ _ _) as [[c2 i]|] eqn:EC; [|discriminate]. unfold traced in H.
    destruct (with_id sort hash _) as [g|] eqn:EG; [|discriminate]. injection H as <- <- <-.
    destruct (base_gate sort sort_perm hash q gx g fe EG) as [Wg [Fg _]].
    assert (G := step_grows sort hash q gx c1 tr1 _ g _ c2 i (proj1 G1) EC EG (eq_sym Fg) Wg).
    assert (I2 := proj2 (proj2 (proj2 G))).
    assert (M1 : ~ In "1"%string (known c1)) by (intros X; apply N1; auto).
    assert (C1 := grows_nc _ _ _ _ G NC).
    destruct (compile_good sort sort_perm hash q Hq gx V V1 e c tr c1 fe tr1 Ee HG) as [A1 [B1 [D1 F1]]]; auto.
    destruct (IH c tr c1 fe tr1 Ee HG) as [S1 V1']; auto.
    destruct (with_id_sorted sort sort_perm hash (Ko V c1) _ _ EG eq_refl) as [SL [SR [SE [SO _]]]]. cbn [gleft gright gexp gout] in SL, SR, SE, SO.
    assert (T := with_id_gid sort hash _ _ EG). cbn in T.
    destruct (collect_slv c1 tr1 _ g _ c2 i (proj1 G1) EC EG (eq_sym Fg) Wg S1) as [A B].
    { rewrite Fg. unfold solvable. rewrite T. now apply SE. }
    split; auto. intros a HA O X. apply B; [rewrite Fg; intros Y; congruence|]. apply (V1' a); auto. eapply grows_hold; eauto.
Qed.

Lemma equalities_slv : forall es c tr c' tr', compile_equalities sort hash q c es tr = Some (c', tr') -> Good V c tr ->
  (forall x, In x (flat_map pair_vars es) -> V x) -> ~ In "1"%string (known c') -> no_collision tr' -> Slv c ->
  Slv c' /\ forall a, all_hold q gx a (gates c') -> Forall (pair_ok q gx a) es -> divs a c c'.
Proof.
  induction es as [|[l r] es IH]; intros c tr c' tr' H HG HV N1 NC HS; cbn [compile_equalities] in H;
    [injection H as <- <-; split; auto; intros a _ _ X; exact X|].
  destruct (compile_expr sort hash q c l tr) as [[[c1 fl] tr1]|] eqn:El; [|discriminate].
  destruct (compile_expr sort hash q c1 r tr1) as [[[c2 fr] tr2]|] eqn:Er; [|discriminate].
  destruct (compile_equal sort hash c2 fl fr) as [c3|] eqn:EE; [|discriminate].
  destruct (with_id sort hash _) as [g|] eqn:EG; [|discriminate].
  destruct (compile_sound sort sort_perm hash q Hq gx l c tr c1 fl tr1 El (proj1 HG)) as [G1 _].
  destruct (compile_sound sort sort_perm hash q Hq gx r c1 tr1 c2 fr tr2 Er (proj1 G1)) as [G2 _].
  unfold compile_equal in EE. destruct (collect _ _ _ _ _) as [[c4 i]|] eqn:EC; [|discriminate]. injection EE as ->.
  destruct (equal_gate sort sort_perm hash q gx g fl fr EG) as [Wg [Fg _]].
  assert (G3 := step_grows sort hash q gx c2 tr2 _ g _ c3 i (proj1 G2) EC EG (eq_sym Fg) Wg).
  destruct (equalities_sound sort sort_perm hash q Hq gx _ _ _ _ _ H (proj1 G3)) as [G4 _].
  assert (I2 := proj2 (proj2 (proj2 G2))). assert (I3 := proj2 (proj2 (proj2 G3))). assert (I4 := proj2 (proj2 (proj2 G4))).
  assert (M3 : ~ In "1"%string (known c3)) by (intros X; apply N1; auto).
  assert (M2 : ~ In "1"%string (known c2)) by (intros X; apply M3; auto).
  assert (M1 : ~ In "1"%string (known c1)) by (intros X; apply M2; auto).
  assert (C3 := grows_nc _ _ _ _ G4 NC). assert (C2 := grows_nc _ _ _ _ G3 C3). assert (C1 := grows_nc _ _ _ _ G2 C2).
  cbn [flat_map pair_vars fst snd] in HV.
  assert (Vl : forall x, In x (vars l) -> V x) by (intros; apply HV; unfold pair_vars; cbn [fst snd]; rewrite !in_app_iff; auto).
  assert (Vr : forall x, In x (vars r) -> V x) by (intros; apply HV; unfold pair_vars; cbn [fst snd]; rewrite !in_app_iff; auto).
  destruct (compile_good sort sort_perm hash q Hq gx V V1 l c tr c1 fl tr1 El HG) as [A1 [B1 [D1 F1]]]; auto.
  destruct (compile_good sort sort_perm hash q Hq gx V V1 r c1 tr1 c2 fr tr2 Er A1) as [A2 [B2 [D2 F2]]]; auto.
  destruct (compile_slv l c tr c1 fl tr1 El HG) as [S1 X1]; auto.
  destruct (compile_slv r c1 tr1 c2 fr tr2 Er A1) as [S2 X2]; auto.
  destruct (with_id_sorted sort sort_perm hash (Ko V c2) _ _ EG eq_refl) as [SL [SR [SE [SO _]]]]. cbn [gleft gright gexp gout] in SL, SR, SE, SO.
  destruct (with_id_tidy sort sort_perm hash _ _ EG) as [Tg Ng]; [repeat split; cbn; apply B1 || apply B2 || apply nil_tidy|].
  cbn [gnonew] in Ng. assert (T := with_id_gid sort hash _ _ EG). cbn in T.
  destruct (collect_good sort hash q gx V c2 tr2 _ g _ c3 i A2 EC EG (eq_sym Fg) Wg Tg) as [A [B C]]; auto.
  { now rewrite Ng, T. }
  { rewrite Fg. repeat split; apply fac_Ko_or; [apply SL, (fac_Ko V _ _ _ F2 D1)|apply SR, D2|apply SE; constructor|apply SO; constructor]. }
  destruct (collect_slv c2 tr2 _ g _ c3 i (proj1 G2) EC EG (eq_sym Fg) Wg S2) as [S3 X3].
  { rewrite Fg. unfold solvable. rewrite T. split; [apply SL, (fac_Ko V _ _ _ F2 D1)|apply SR, D2]. }
  destruct (IH c3 (tr2 ++ [g]) c' tr' H A) as [S4 X4]; auto. { intros x Hx. apply HV. rewrite in_app_iff. auto. }
  split; auto. intros a HA HP X. inversion HP as [|? ? [O1 O2] O3]; subst. cbn [fst snd] in *.
  assert (HA3 := grows_hold q gx a _ _ _ _ G4 HA). assert (HA2 := grows_hold q gx a _ _ _ _ G3 HA3). assert (HA1 := grows_hold q gx a _ _ _ _ G2 HA2).
  apply (X4 a); auto. apply (X3 a); [rewrite Fg; intros Y; congruence|]. apply (X2 a); auto. apply (X1 a); auto.
Qed.

Lemma execute_slv p c f tr : execute sort hash q p = Some (c, f, tr) -> no_collision tr ->
  (forall x, inputs p x -> V x) -> ~ In "1"%string (known c) ->
  Ordered V (gates c) /\
  forall a, all_hold q gx a (gates c) -> Forall (pair_ok q gx a) (equalities p) -> divisors_ok q gx a (result p) -> Forall (div_ok q a) (gates c).
Proof.
  intros H NC HV N1. destruct (execute_inv sort sort_perm hash q Hq gx p c f tr H) as [c1 [tr1 [c2 [tr2 [E1 [E2 [I1 [G2 HC]]]]]]]].
  assert (I2 := proj2 (proj2 (proj2 G2))).
  assert (X : no_collision tr2 /\ ~ In "1"%string (known c2)).
  { destruct HC as [[Sn [-> ->]]|[[[x [-> [Mx Nx]]] [-> ->]]|[i [g [Eg [-> [Ni EC]]]]]]]; auto.
    destruct (add_gate_facts sort hash q gx i f g Eg Ni) as [EW [Wg [Fg Hg]]].
    assert (G3 := step_grows sort hash q gx c2 tr2 g g _ c i (proj1 G2) EC EW (eq_sym Fg) Wg).
    split; [eapply grows_nc; eauto|]. intros X. apply N1. now apply (proj2 (proj2 (proj2 G3))). }
  destruct X as [NC2 M2]. assert (M1 : ~ In "1"%string (known c1)) by (intros X; apply M2; auto).
  assert (A1 := equalities_good sort sort_perm hash q Hq gx V V1 _ _ _ _ _ E1 (Good_empty V) (fun x Hx => HV x (or_introl Hx)) M1 (grows_nc _ _ _ _ G2 NC2)).
  destruct (compile_good sort sort_perm hash q Hq gx V V1 _ _ _ _ _ _ E2 A1 (fun x Hx => HV x (or_intror Hx)) M2 NC2) as [A2 [B2 [D2 F2]]].
  destruct (equalities_slv _ _ _ _ _ E1 (Good_empty V) (fun x Hx => HV x (or_introl Hx)) M1 (grows_nc _ _ _ _ G2 NC2) (Ordered_nil V)) as [S1 X1].
  destruct (compile_slv _ _ _ _ _ _ E2 A1 (fun x Hx => HV x (or_intror Hx)) M2 NC2 S1) as [S2 X2].
  assert (R : forall a, all_hold q gx a (gates c2) -> Forall (pair_ok q gx a) (equalities p) -> divisors_ok q gx a (result p) -> Forall (div_ok q a) (gates c2)).
  { intros a HA HP HR. apply (X2 a); auto. apply (X1 a); auto; [eapply grows_hold; eauto|constructor]. }
  destruct HC as [[Sn [-> ->]]|[[[x [-> [Mx Nx]]] [-> ->]]|[i [g [Eg [-> [Ni EC]]]]]]]; auto.
  destruct (add_gate_facts sort hash q gx i f g Eg Ni) as [EW [Wg [Fg Hg]]].
  assert (G3 := step_grows sort hash q gx c2 tr2 g g _ c i (proj1 G2) EC EW (eq_sym Fg) Wg).
  destruct (collect_slv c2 tr2 g g _ c i (proj1 G2) EC EW (eq_sym Fg) Wg S2) as [S3 X3].
  { rewrite Fg, Eg. unfold solvable. cbn. split; auto. }
  split; auto. intros a HA HP HR. apply (X3 a); [rewrite Fg, Eg; intros Y; discriminate|]. apply R; auto. eapply grows_hold; eauto.
Qed.
End P.

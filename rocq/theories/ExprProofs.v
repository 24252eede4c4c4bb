(** Soundness and completeness of the expression compiler. *)
Require Import ZArith Znumtheory Lia Bool Permutation Ascii String List.
Require Import Verif.Cong Verif.FqModel Verif.FqProofs Verif.FactorModel Verif.FactorSpec Verif.FactorProofs
  Verif.ExprModel Verif.ExprSpec.
Import ListNotations.
Open Scope Z_scope.

Section P.
Variable sort : factors -> factors.
Hypothesis sort_perm : forall l, Permutation (sort l) l.
Variable hash : string -> Z.
Variable q : Z.
Hypothesis Hq : prime q.
Variable gx : Z -> Z.

Notation means := (means q gx).
Notation divisors_ok := (divisors_ok q gx).
Notation gate_holds := (gate_holds q gx).
Notation all_hold := (all_hold q gx).

(** What the compiler stores for a submitted gate. *)
Definition finish (g : gate) : gate :=
  match gtyp g with
  | GMul => match gleft g with
            | [] => Gate (gtyp g) (gid g) (wire (gid g) 1) (gright g) (gexp g) (gout g) (gnonew g) (grep g)
            | _ => Gate (gtyp g) (gid g) (gleft g) (gright g) (gexp g) (wire (gid g) 1) (gnonew g) (grep g)
            end
  | _ => g
  end.

Definition gate_wf (g : gate) : Prop :=
  match gtyp g with GMul => gright g <> [] | GAdd => gright g = [] | GBase | GEqual => True | _ => False end.

Definition Inv (c : collector) (tr : list gate) : Prop :=
  Forall gate_wf tr /\
  exists gs, gates c = map finish gs /\ incl gs tr /\ (forall i, In i (known c) <-> In i (map gid gs)) /\
             incl (map gid tr) (known c).

Lemma with_id_gid g g' : with_id sort hash g = Some g' -> gtyp g' = gtyp g.
Proof.
  unfold with_id, set_id. destruct (gid g); [|intros H; injection H as <-; auto].
  destruct (prefix16 _); [|discriminate]. intros H; injection H as <-. reflexivity.
Qed.

Lemma collect_Inv c tr g g' fin c' i : Inv c tr -> collect sort hash c g fin = Some (c', i) ->
  with_id sort hash g = Some g' -> fin g' = finish g' -> gate_wf g' ->
  Inv c' (tr ++ [g']) /\ gid g' = i /\ In i (known c') /\ incl (known c) (known c') /\
  (c' = c \/ gates c' = gates c ++ [finish g'] /\ known c' = i :: known c /\ ~ In i (known c)).
Proof.
  intros [W [gs [HG [HI [HK HT]]]]] EC EG Ef Wg. apply collect_inv in EC. destruct EC as [g1 [EG1 [Ei HC]]].
  rewrite EG in EG1. injection EG1 as <-. rewrite Ef in HC.
  destruct HC as [[-> Hi]|[-> Hi]]; (split; [|split; [exact Ei|]]).
  - split; [apply Forall_app; split; auto|]. exists gs. split; auto. split; [now apply incl_appl|]. split; auto.
    rewrite map_app. apply incl_app; auto. intros x [<-|[]]. now rewrite Ei.
  - split; auto. split; [apply incl_refl|auto].
  - split; [apply Forall_app; split; auto|]. exists (gs ++ [g']). cbn [gates known]. split; [now rewrite HG, map_app|].
    split; [apply incl_app; [now apply incl_appl|now apply incl_appr, incl_refl]|]. split.
    + intros x. rewrite map_app, in_app_iff. cbn [In map]. rewrite HK, Ei. tauto.
    + rewrite map_app. apply incl_app; [now apply incl_tl|]. intros x [<-|[]]. left. auto.
  - cbn [known]. split; [now left|]. split; [apply incl_tl, incl_refl|]. right. auto.
Qed.

(** Gates that may share an identifier mean the same. *)
Lemma same_gate_holds w g1 g2 : gate_wf g1 -> gate_wf g2 -> same_gate g1 g2 -> gid g1 = gid g2 ->
  gate_holds w (finish g1) -> gate_holds w (finish g2).
Proof.
  destruct g1 as [t1 i1 l1 r1 e1 o1 n1 p1], g2 as [t2 i2 l2 r2 e2 o2 n2 p2]. unfold gate_wf, same_gate. cbn [gtyp gid gleft gright gexp gout].
  intros W1 W2 [Ht [He [Ho Hlr]]] Hi. subst t2 e2 o2 i2. destruct t1; try contradiction; unfold finish; cbn [gtyp gleft].
  - destruct Hlr as [[-> ->]|[-> ->]]; [now destruct l2|]. destruct l2; [easy|]. destruct r2; [easy|].
    unfold FactorSpec.gate_holds. cbn [gtyp gleft gright gout gid]. now rewrite Z.mul_comm.
  - unfold FactorSpec.gate_holds. cbn [gtyp gid gexp]. auto.
  - unfold FactorSpec.gate_holds. cbn [gtyp gleft gright]. destruct Hlr as [[-> ->]|[-> ->]]; auto. now symmetry.
  - unfold FactorSpec.gate_holds. cbn [gtyp gleft gout]. destruct Hlr as [[-> _]|[-> <-]]; auto. subst. auto.
Qed.

Lemma Inv_holds w c tr g : Inv c tr -> no_collision tr -> all_hold w (gates c) -> In g tr -> gate_holds w (finish g).
Proof.
  intros [W [gs [HG [HI [HK HT]]]]] NC HA Hg.
  assert (Hi : In (gid g) (known c)) by (apply HT, in_map, Hg).
  apply HK in Hi. apply in_map_iff in Hi. destruct Hi as [g0 [E0 H0]]. rewrite Forall_forall in W.
  apply (same_gate_holds w g0 g); auto. unfold FactorSpec.all_hold in HA. rewrite HG, Forall_forall in HA. apply HA. now apply in_map.
Qed.

Lemma no_collision_incl tr tr' : incl tr tr' -> no_collision tr' -> no_collision tr.
Proof. intros H N g1 g2 H1 H2. apply N; auto. Qed.
Lemma all_hold_app w a b : all_hold w (a ++ b) <-> all_hold w a /\ all_hold w b.
Proof. apply Forall_app. Qed.

(** ** Names *)
Definition fac_in (K : string -> Prop) (f : factor) : Prop := is_number f = false -> K (ident (ftok f)).
Lemma lin_ext (K : string -> Prop) w w' f : (forall x, K x -> w x = w' x) -> Forall (fac_in K) f -> lin w f = lin w' f.
Proof.
  intros H. induction 1 as [|x f Hx _ IH]; [reflexivity|]. cbn [lin]. rewrite IH. f_equal.
  destruct (is_number x) eqn:E; [now rewrite !fac_val_number|]. rewrite !fac_val_wire by auto. now rewrite (H _ (Hx E)).
Qed.
Definition gate_in (K : string -> Prop) (g : gate) : Prop :=
  Forall (fac_in K) (gleft g) /\ Forall (fac_in K) (gright g) /\ Forall (fac_in K) (gexp g) /\ Forall (fac_in K) (gout g) /\ K (gid g).
Lemma gate_holds_ext (K : string -> Prop) w w' g : (forall x, K x -> w x = w' x) -> gate_in K g ->
  (match gtyp g with GMul | GAdd | GEqual | GBase => True | _ => False end) -> gate_holds w g -> gate_holds w' g.
Proof.
  intros H [A [B [C [D E]]]]. unfold FactorSpec.gate_holds.
  rewrite (lin_ext K w w' (gleft g)), (lin_ext K w w' (gright g)), (lin_ext K w w' (gexp g)), (lin_ext K w w' (gout g)), (H (gid g)) by auto.
  destruct (gtyp g); tauto.
Qed.
Lemma Forall_perm {A} (P : A -> Prop) l l' : Permutation l l' -> Forall P l' -> Forall P l.
Proof. intros H. rewrite !Forall_forall. intros F x Hx. apply F. now apply (Permutation_in _ H). Qed.

Lemma fac_in_mono (K K' : string -> Prop) f : (forall x, K x -> K' x) -> Forall (fac_in K) f -> Forall (fac_in K') f.
Proof. intros H. apply Forall_impl. intros a Ha E. auto. Qed.

Lemma add_factors_in K l r : Forall (fac_in K) l -> Forall (fac_in K) r -> Forall (fac_in K) (add_factors q l r).
Proof.
  intros Hl Hr.
  assert (A1 : forall l r s, fac_in K r -> add_factor q l r = Some s -> fac_in K s).
  { intros a b s Hb. unfold add_factor. destruct (both_number _ _); [intros H; injection H as <-; intros X; discriminate|].
    destruct (_ && _); [|discriminate]. intros H; injection H as <-. exact Hb. }
  assert (A2 : forall l rs rs', Forall (fac_in K) rs -> add_into q l rs = Some rs' -> Forall (fac_in K) rs').
  { intros a. induction rs as [|b rs IH]; intros rs' HF H; [discriminate|]. inversion HF as [|? ? F1 F2]; subst. cbn [add_into] in H.
    destruct (add_factor q a b) as [s|] eqn:E; [injection H as <-; constructor; eauto|].
    destruct (add_into q a rs) as [rs1|]; [|discriminate]. injection H as <-. constructor; auto. }
  assert (A3 : forall ls rs res rs', Forall (fac_in K) ls -> Forall (fac_in K) rs -> add_loop q ls rs = (res, rs') ->
     Forall (fac_in K) res /\ Forall (fac_in K) rs').
  { induction ls as [|a ls IH]; intros rs res rs' HL HR H; cbn [add_loop] in H; [injection H as <- <-; auto|].
    inversion HL as [|? ? F1 F2]; subst. destruct (add_into q a rs) as [rs1|] eqn:E; [exact (IH rs1 res rs' F2 (A2 a rs rs1 HR E) H)|].
    destruct (add_loop q ls rs) as [res1 rs2] eqn:E2. injection H as <- <-. destruct (IH rs res1 rs2); auto. }
  unfold add_factors. destruct (add_loop q l r) as [res rs] eqn:E. destruct (A3 _ _ _ _ Hl Hr E) as [B C].
  assert (D : Forall (fac_in K) (res ++ filter (fun f => negb (mult f =? 0)) rs)).
  { apply Forall_app; split; auto. rewrite Forall_forall in *. intros x Hx. apply filter_In in Hx. now apply C. }
  destruct (_ ++ _); auto. constructor; auto. intros X; discriminate.
Qed.
Lemma add_factors_plain l r : Forall plain l -> Forall plain r -> Forall plain (add_factors q l r).
Proof.
  intros Hl Hr.
  assert (A1 : forall l r s, plain r -> add_factor q l r = Some s -> plain s).
  { intros a b s Hb. unfold add_factor. destruct (both_number _ _); [intros H; injection H as <-; now right|].
    destruct (_ && _); [|discriminate]. intros H; injection H as <-. exact Hb. }
  assert (A2 : forall l rs rs', Forall plain rs -> add_into q l rs = Some rs' -> Forall plain rs').
  { intros a. induction rs as [|b rs IH]; intros rs' HF H; [discriminate|]. inversion HF as [|? ? F1 F2]; subst. cbn [add_into] in H.
    destruct (add_factor q a b) as [s|] eqn:E; [injection H as <-; constructor; eauto|].
    destruct (add_into q a rs) as [rs1|]; [|discriminate]. injection H as <-. constructor; auto. }
  assert (A3 : forall ls rs res rs', Forall plain ls -> Forall plain rs -> add_loop q ls rs = (res, rs') ->
     Forall plain res /\ Forall plain rs').
  { induction ls as [|a ls IH]; intros rs res rs' HL HR H; cbn [add_loop] in H; [injection H as <- <-; auto|].
    inversion HL as [|? ? F1 F2]; subst. destruct (add_into q a rs) as [rs1|] eqn:E; [exact (IH rs1 res rs' F2 (A2 a rs rs1 HR E) H)|].
    destruct (add_loop q ls rs) as [res1 rs2] eqn:E2. injection H as <- <-. destruct (IH rs res1 rs2); auto. }
  unfold add_factors. destruct (add_loop q l r) as [res rs] eqn:E. destruct (A3 _ _ _ _ Hl Hr E) as [B C].
  assert (D : Forall plain (res ++ filter (fun f => negb (mult f =? 0)) rs)).
  { apply Forall_app; split; auto. rewrite Forall_forall in *. intros x Hx. apply filter_In in Hx. now apply C. }
  destruct (_ ++ _); auto. constructor; auto. now right.
Qed.
Lemma negate_in K f : Forall (fac_in K) f -> Forall (fac_in K) (negate_factors f).
Proof.
  induction 1 as [|x f Hx _ IH]; [constructor|]. constructor; auto. intros X. cbn in *. destruct (is_number x) eqn:E; [discriminate|auto].
Qed.
Lemma negate_plain f : Forall plain f -> Forall plain (negate_factors f).
Proof.
  induction 1 as [|x f Hx _ IH]; [constructor|]. constructor; auto. unfold plain. cbn. destruct (is_number x); [now right|exact Hx].
Qed.
Lemma mul_factor_in K l r f : fac_in K l -> fac_in K r -> mul_factor q l r = Some f -> fac_in K f.
Proof.
  unfold mul_factor. intros Hl Hr. destruct (_ && _); [intros H; injection H as <-; exact Hr|].
  destruct (_ && _); [intros H; injection H as <-; exact Hl|]. destruct (both_number _ _); [|discriminate].
  intros H; injection H as <-. intros X; discriminate.
Qed.
Lemma mul_row_in K : forall rs a l f, fac_in K a -> fac_in K l -> Forall (fac_in K) rs -> mul_row q a l rs = Some f -> fac_in K f.
Proof.
  induction rs as [|r rs IH]; intros a l f Ha Hl HR; cbn [mul_row]; [intros H; injection H as <-; auto|].
  inversion HR as [|? ? H1 H2]; subst. destruct (mul_factor q l r) as [s|] eqn:E; [|discriminate].
  apply IH; auto. exact (mul_factor_in K l r s Hl H1 E).
Qed.
Lemma mul_rows_in K : forall ls rs f, Forall (fac_in K) ls -> Forall (fac_in K) rs -> mul_rows q ls rs = Some f -> Forall (fac_in K) f.
Proof.
  induction ls as [|l ls IH]; intros rs f HL HR; cbn [mul_rows]; [intros H; injection H as <-; constructor|].
  inversion HL as [|? ? H1 H2]; subst. destruct (mul_row q l l rs) as [s|] eqn:E; [|discriminate].
  destruct (mul_rows q ls rs) as [fs|] eqn:E2; [|discriminate]. intros H; injection H as <-.
  constructor; [exact (mul_row_in K rs l l s H1 H1 HR E)|exact (IH rs fs H2 HR E2)].
Qed.
Lemma mul_factors_in K l r f : Forall (fac_in K) l -> Forall (fac_in K) r -> mul_factors q l r = Some f -> Forall (fac_in K) f.
Proof. unfold mul_factors. destruct (Nat.ltb _ _); intros A B C; [exact (mul_rows_in K r l f B A C)|exact (mul_rows_in K l r f A B C)]. Qed.
Lemma signature_in K f g f' : factor_signature sort f = Some (g, f') -> Forall (fac_in K) f -> Forall (fac_in K) f'.
Proof.
  unfold factor_signature, extract_gcd. destruct (gcd_of f); [|discriminate]. destruct (z =? 0); [discriminate|].
  intros H; injection H as <- <-. intros HF. apply (Forall_perm _ _ _ (sort_perm _)).
  induction HF; constructor; auto.
Qed.
Lemma signature_nonempty f g f' : factor_signature sort f = Some (g, f') -> f' <> [].
Proof.
  unfold factor_signature, extract_gcd. destruct f as [|x f]; [discriminate|]. destruct (gcd_of (x :: f)); [|discriminate].
  destruct (z =? 0); [discriminate|]. intros H; injection H as <- <-. intros E.
  assert (P := sort_perm (map (fun x0 => Fac (ftok x0) (mult x0 / z)) (x :: f))). cbn [map] in P, E. rewrite E in P.
  apply Permutation_nil in P. discriminate.
Qed.

(** ** One operation *)
Lemma with_id_sorted K g g' : with_id sort hash g = Some g' -> gid g = EmptyString ->
  (Forall (fac_in K) (gleft g) -> Forall (fac_in K) (gleft g')) /\ (Forall (fac_in K) (gright g) -> Forall (fac_in K) (gright g')) /\
  (Forall (fac_in K) (gexp g) -> Forall (fac_in K) (gexp g')) /\ (Forall (fac_in K) (gout g) -> Forall (fac_in K) (gout g')) /\
  (gleft g = [] <-> gleft g' = []) /\ (gright g = [] <-> gright g' = []).
Proof.
  unfold with_id, set_id. intros H E. rewrite E in H. destruct (prefix16 _); [|discriminate]. injection H as <-. cbn.
  assert (N : forall f, f = [] <-> sort f = []).
  { intros f. split; [intros ->; apply Permutation_nil, Permutation_sym, sort_perm|].
    intros X. assert (P := sort_perm f). rewrite X in P. now apply Permutation_nil. }
  repeat split; try (intros F; apply (Forall_perm _ _ _ (sort_perm _)); exact F); apply N.
Qed.

Lemma means_cong w e : forall a b, a ==[q] b -> means w e a -> means w e b.
Proof.
  intros a b H M. destruct M.
  - econstructor; [eauto|]. now rewrite <- H.
  - econstructor. now rewrite <- H.
  - econstructor; eauto. now rewrite <- H.
  - eapply means_sub; eauto. now rewrite <- H.
  - eapply means_mul; eauto. now rewrite <- H.
  - eapply means_div; eauto. now rewrite <- H.
  - econstructor; eauto. now rewrite <- H.
Qed.
Lemma means_ext w w' e : (forall x, In x (vars e) -> w x = w' x) -> forall v, means w e v -> means w' e v.
Proof.
  intros H v M. induction M; cbn [vars] in H.
  - econstructor; eauto.
  - constructor. rewrite <- H; auto. now left.
  - econstructor; [apply IHM1|apply IHM2|]; auto; intros; apply H, in_app_iff; auto.
  - eapply means_sub; [apply IHM1|apply IHM2|]; auto; intros; apply H, in_app_iff; auto.
  - eapply means_mul; [apply IHM1|apply IHM2|]; auto; intros; apply H, in_app_iff; auto.
  - eapply means_div; [apply IHM1|apply IHM2|]; auto; intros; apply H, in_app_iff; auto.
  - econstructor; [apply IHM|]; auto.
Qed.
Lemma divisors_ext w w' e : (forall x, In x (vars e) -> w x = w' x) -> divisors_ok w e -> divisors_ok w' e.
Proof.
  induction e; cbn [ExprSpec.divisors_ok vars]; intros H; auto.
  intros [A [B C]]. split; [apply IHe1; auto; intros; apply H, in_app_iff; auto|].
  split; [apply IHe2; auto; intros; apply H, in_app_iff; auto|]. intros E M. apply C; auto.
  eapply means_ext; [|exact M]. intros x Hx. symmetry. apply H, in_app_iff. auto.
Qed.

(** Result of one operation: what the trace and the collector become. *)
Definition grows (c : collector) (tr : list gate) (c' : collector) (tr' : list gate) : Prop :=
  Inv c' tr' /\ (exists t, tr' = tr ++ t) /\ (exists gs, gates c' = gates c ++ gs) /\ incl (known c) (known c').
Lemma grows_refl c tr : Inv c tr -> grows c tr c tr.
Proof. intros H. split; auto. split; [|split]; [exists []; now rewrite app_nil_r|exists []; now rewrite app_nil_r|apply incl_refl]. Qed.
Lemma grows_trans c tr c1 tr1 c2 tr2 : grows c tr c1 tr1 -> grows c1 tr1 c2 tr2 -> grows c tr c2 tr2.
Proof.
  intros [A1 [[t1 B1] [[g1 C1] D1]]] [A2 [[t2 B2] [[g2 C2] D2]]]. split; auto.
  split; [exists (t1 ++ t2); now rewrite B2, B1, app_assoc|]. split; [exists (g1 ++ g2); now rewrite C2, C1, app_assoc|].
  eapply incl_tran; eauto.
Qed.
Lemma grows_nc c tr c' tr' : grows c tr c' tr' -> no_collision tr' -> no_collision tr.
Proof. intros [_ [[t ->] _]]. apply no_collision_incl. now apply incl_appl, incl_refl. Qed.
Lemma grows_hold w c tr c' tr' : grows c tr c' tr' -> all_hold w (gates c') -> all_hold w (gates c).
Proof. intros [_ [_ [[t ->] _]]] H. now apply all_hold_app in H. Qed.

Lemma step_grows c tr g g' fin c' i : Inv c tr -> collect sort hash c g fin = Some (c', i) ->
  with_id sort hash g = Some g' -> fin g' = finish g' -> gate_wf g' -> grows c tr c' (tr ++ [g']).
Proof.
  intros. destruct (collect_Inv c tr g g' fin c' i) as [A [B [C [D E]]]]; auto. split; auto. split; [eauto|]. split; auto.
  destruct E as [->|[E _]]; [exists []; now rewrite app_nil_r|eauto].
Qed.

Lemma mul_gate g l r : with_id sort hash (Gate GMul "" l r [] [] false no_token) = Some g -> l <> [] -> r <> [] ->
  gate_wf g /\ finish g = Gate (gtyp g) (gid g) (gleft g) (gright g) (gexp g) (wire (gid g) 1) (gnonew g) (grep g) /\
  forall w, gate_holds w (finish g) <-> lin w l * lin w r ==[q] w (gid g).
Proof.
  intros E Hl Hr. assert (T := with_id_gid _ _ E). cbn in T. destruct (with_id_sorted (fun _ => True) _ _ E eq_refl) as [_ [_ [_ [_ [NL NR]]]]].
  cbn in NL, NR. assert (F : finish g = Gate (gtyp g) (gid g) (gleft g) (gright g) (gexp g) (wire (gid g) 1) (gnonew g) (grep g)).
  { unfold finish. rewrite T. destruct (gleft g); [tauto|reflexivity]. }
  split; [unfold gate_wf; rewrite T; tauto|]. split; auto. intros w. rewrite F. unfold FactorSpec.gate_holds. cbn [gtyp]. rewrite T. cbn [gleft gright gout].
  destruct (with_id_lin sort sort_perm hash w _ _ E) as [_ [-> [-> _]]]. cbn [gleft gright]. cbn [wire lin]. unfold fac_val, wire.
  cbn [lin fac_val ftok arg ttyp mult ident]. rewrite Z.add_0_r, Z.mul_1_l. tauto.
Qed.
Lemma div_gate g l r : with_id sort hash (Gate GMul "" [] r [] l false no_token) = Some g -> r <> [] ->
  gate_wf g /\ finish g = Gate (gtyp g) (gid g) (wire (gid g) 1) (gright g) (gexp g) (gout g) (gnonew g) (grep g) /\
  forall w, gate_holds w (finish g) <-> w (gid g) * lin w r ==[q] lin w l.
Proof.
  intros E Hr. assert (T := with_id_gid _ _ E). cbn in T. destruct (with_id_sorted (fun _ => True) _ _ E eq_refl) as [_ [_ [_ [_ [NL NR]]]]].
  cbn in NL, NR. assert (F : finish g = Gate (gtyp g) (gid g) (wire (gid g) 1) (gright g) (gexp g) (gout g) (gnonew g) (grep g)).
  { unfold finish. rewrite T. destruct (gleft g); [reflexivity|]. destruct NL as [NL _]. specialize (NL eq_refl). discriminate. }
  split; [unfold gate_wf; rewrite T; tauto|]. split; auto. intros w. rewrite F. unfold FactorSpec.gate_holds. cbn [gtyp]. rewrite T. cbn [gleft gright gout].
  destruct (with_id_lin sort sort_perm hash w _ _ E) as [_ [_ [-> [_ [-> _]]]]]. cbn [gright gout]. cbn [wire lin]. unfold wire.
  cbn [lin fac_val ftok arg ttyp mult ident]. unfold fac_val. cbn [ftok arg ttyp mult ident]. rewrite Z.add_0_r, Z.mul_1_l. tauto.
Qed.
Lemma base_gate g e : with_id sort hash (Gate GBase "" [] [] e [] false no_token) = Some g ->
  gate_wf g /\ finish g = g /\ forall w, gate_holds w (finish g) <-> gx (lin w e mod q) ==[q] w (gid g).
Proof.
  intros E. assert (T := with_id_gid _ _ E). cbn in T. assert (F : finish g = g) by (unfold finish; now rewrite T).
  split; [unfold gate_wf; now rewrite T|]. split; auto. intros w. rewrite F. unfold FactorSpec.gate_holds. rewrite T.
  destruct (with_id_lin sort sort_perm hash w _ _ E) as [_ [_ [_ [-> _]]]]. cbn [gexp]. tauto.
Qed.
Lemma equal_gate g l r : with_id sort hash (Gate GEqual "" l r [] [] true no_token) = Some g ->
  gate_wf g /\ finish g = g /\ forall w, gate_holds w (finish g) <-> lin w l ==[q] lin w r.
Proof.
  intros E. assert (T := with_id_gid _ _ E). cbn in T. assert (F : finish g = g) by (unfold finish; now rewrite T).
  split; [unfold gate_wf; now rewrite T|]. split; auto. intros w. rewrite F. unfold FactorSpec.gate_holds. rewrite T.
  destruct (with_id_lin sort sort_perm hash w _ _ E) as [_ [-> [-> _]]]. cbn [gleft gright]. tauto.
Qed.

Definition op_val (op : string) (w : assignment) (l r f : factors) : Prop :=
  op = "*"%string /\ lin w f ==[q] lin w l * lin w r \/
  op = "/"%string /\ lin w f * lin w r ==[q] lin w l \/
  op = "+"%string /\ lin w f ==[q] lin w l + lin w r \/
  op = "-"%string /\ lin w f ==[q] lin w l - lin w r.

Lemma last_in (tr : list gate) g : In g (tr ++ [g]).
Proof. apply in_app_iff. right. now left. Qed.
Lemma wire_plain i k : Forall plain (wire i k).
Proof. constructor; [now left|constructor]. Qed.
Lemma lin_wire w i k : lin w (wire i k) = k * w i.
Proof. unfold wire. cbn [lin]. unfold fac_val. cbn [ftok arg ttyp mult ident]. ring. Qed.

Lemma op_sound c op l r tr c' f tr' : compile_op_tr sort hash q c op l r tr = Some (c', f, tr') -> Inv c tr ->
  Forall plain l -> Forall plain r -> l <> [] -> r <> [] ->
  grows c tr c' tr' /\ f <> [] /\ Forall plain f /\
  forall w, no_collision tr' -> all_hold w (gates c') -> (op = "/"%string -> ~ lin w r ==[q] 0) -> op_val op w l r f.
Proof.
  intros H HI Pl Pr Nl Nr. unfold compile_op_tr, compile_op in H. destruct (String.eqb_spec op "*") as [->|N1].
  { cbn [andb] in H. destruct (is_single_number l || is_single_number r) eqn:S.
    - cbn [negb] in H. change (String.eqb "*" "/") with false in H. cbn [andb] in H.
      assert (S' : is_single_number l = true /\ r <> [] \/ is_single_number r = true /\ l <> []) by (apply orb_true_iff in S; tauto).
      destruct (mul_factors_some q l r Pl Pr S') as [f1 [E [Pf Nf]]]. rewrite E in H. injection H as <- <- <-.
      split; [now apply grows_refl|]. split; auto. split; auto. intros w _ _ _. left. split; auto. now apply mul_factors_val.
    - cbn [negb] in H. unfold compile_mul in H. destruct (extract_constant sort q l r) as [[[k l'] r']|] eqn:E; [|discriminate].
      destruct (collect _ _ _ _ _) as [[c1 i]|] eqn:EC; [|discriminate]. unfold traced in H.
      destruct (with_id sort hash _) as [g|] eqn:EG; [|discriminate]. injection H as <- <- <-.
      assert (E' := E). unfold extract_constant in E'. destruct (factor_signature sort l) as [[gl l1]|] eqn:Sl; [|discriminate].
      destruct (factor_signature sort r) as [[gr r1]|] eqn:Sr; [|discriminate]. injection E' as _ <- <-.
      destruct (mul_gate g l1 r1 EG (signature_nonempty _ _ _ Sl) (signature_nonempty _ _ _ Sr)) as [Wg [Fg Hg]].
      destruct (collect_Inv c tr _ g _ c1 i HI EC EG (eq_sym Fg) Wg) as [HI' [Ei _]].
      assert (G := step_grows c tr _ g _ c1 i HI EC EG (eq_sym Fg) Wg).
      split; auto. split; [discriminate|]. split; [apply wire_plain|]. intros w NC HA _. left. split; auto.
      assert (X := Inv_holds w c1 _ g HI' NC HA (last_in _ _)). apply Hg in X. rewrite Ei in X. rewrite lin_wire, <- X.
      rewrite Z.mul_assoc. eapply extract_constant_val; eauto. }
  destruct (String.eqb_spec op "/") as [->|N2].
  { cbn [andb] in H. destruct (is_single_number r) eqn:S.
    - cbn [negb] in H. destruct (invert_factors q r) as [ri|] eqn:EI; [|discriminate].
      destruct (mul_factors q l ri) as [f1|] eqn:E; [|discriminate]. injection H as <- <- <-.
      assert (Si : is_single_number ri = true /\ Forall plain ri).
      { destruct (single_number_inv r S) as [x [-> Hx]]. cbn [invert_factors] in EI. destruct (finv q (mult x)); [|discriminate].
        injection EI as <-. rewrite Hx. split; [reflexivity|]. constructor; [now right|constructor]. }
      destruct Si as [Si Pi]. destruct (mul_factors_some q l ri Pl Pi (or_intror (conj Si Nl))) as [f2 [E2 [Pf Nf]]].
      rewrite E in E2. injection E2 as <-. split; [now apply grows_refl|]. split; auto. split; auto.
      intros w _ _ Hd. right. left. split; auto. rewrite (mul_factors_val q w l ri f1 (or_intror (conj Si Nl)) E).
      destruct (invert_val q w r ri Hq S (Hd eq_refl) EI) as [_ X]. rewrite <- Z.mul_assoc, (Z.mul_comm (lin w ri)), X. apply cong_eq. ring.
    - cbn [negb] in H. unfold compile_div in H. destruct (factor_signature sort l) as [[gl l1]|] eqn:Sl; [|discriminate].
      destruct (factor_signature sort r) as [[gr r1]|] eqn:Sr; [|discriminate]. destruct (fdiv q gl gr) as [k|] eqn:Ek; [|discriminate].
      destruct (collect _ _ _ _ _) as [[c1 i]|] eqn:EC; [|discriminate]. unfold traced in H.
      destruct (with_id sort hash _) as [g|] eqn:EG; [|discriminate]. injection H as <- <- <-.
      destruct (div_gate g l1 r1 EG (signature_nonempty _ _ _ Sr)) as [Wg [Fg Hg]].
      destruct (collect_Inv c tr _ g _ c1 i HI EC EG (eq_sym Fg) Wg) as [HI' [Ei _]].
      assert (G := step_grows c tr _ g _ c1 i HI EC EG (eq_sym Fg) Wg).
      split; auto. split; [discriminate|]. split; [apply wire_plain|]. intros w NC HA Hd. right. left. split; auto.
      assert (X := Inv_holds w c1 _ g HI' NC HA (last_in _ _)). apply Hg in X. rewrite Ei in X. rewrite lin_wire.
      destruct (factor_signature_val sort sort_perm w l gl l1 Sl) as [_ <-]. destruct (factor_signature_val sort sort_perm w r gr r1 Sr) as [_ Er].
      specialize (Hd eq_refl). rewrite <- Er in *.
      assert (Hg0 : ~ gr ==[q] 0). { intros Z0. apply Hd. rewrite Z0. apply cong_eq. ring. }
      assert (Hk : k * gr ==[q] gl).
      { destruct (fdiv_prime q gl gr Hq Hg0) as [d [Ed [_ Hd']]]. congruence. }
      rewrite <- Hk, <- X. apply cong_eq. ring. }
  cbn [andb] in H. destruct (String.eqb_spec op "+") as [->|N3].
  { injection H as <- <- <-. split; [now apply grows_refl|]. split; [apply add_factors_nonempty|]. split; [now apply add_factors_plain|].
    intros w _ _ _. right. right. left. split; auto. apply add_factors_val. }
  destruct (String.eqb_spec op "-") as [->|N4]; [|discriminate].
  injection H as <- <- <-. split; [now apply grows_refl|]. split; [apply add_factors_nonempty|].
  split; [apply add_factors_plain; auto; now apply negate_plain|].
  intros w _ _ _. right. right. right. split; auto. rewrite add_factors_val, negate_val. apply cong_eq. ring.
Qed.

Lemma compile_sound : forall e c tr c' f tr', compile_expr sort hash q c e tr = Some (c', f, tr') -> Inv c tr ->
  grows c tr c' tr' /\ f <> [] /\ Forall plain f /\
  forall w, no_collision tr' -> all_hold w (gates c') -> divisors_ok w e -> means w e (lin w f).
Proof.
  induction e as [s|x|op l IHl r IHr|e IH]; intros c tr c' f tr' H HI; cbn [compile_expr] in H.
  - destruct (string_to_field q s) as [[v b]|] eqn:E; [|discriminate]. injection H as <- <- <-.
    split; [now apply grows_refl|]. split; [discriminate|]. split; [constructor; [now right|constructor]|].
    intros w _ _ _. unfold string_to_field in E. destruct (set_string10 s) as [z|] eqn:Es; [|discriminate].
    injection E as <- _. econstructor; eauto. cbn. rewrite Z.add_0_r. apply cong_mod.
  - injection H as <- <- <-. split; [now apply grows_refl|]. split; [discriminate|]. split; [apply wire_plain|].
    intros w _ _ _. constructor. rewrite lin_wire. apply cong_eq. ring.
  - destruct (_ && _); [discriminate|]. destruct (compile_expr sort hash q c l tr) as [[[c1 fl] tr1]|] eqn:El; [|discriminate].
    destruct (compile_expr sort hash q c1 r tr1) as [[[c2 fr] tr2]|] eqn:Er; [|discriminate].
    destruct (IHl c tr c1 fl tr1 El HI) as [G1 [N1 [P1 S1]]]. destruct (IHr c1 tr1 c2 fr tr2 Er (proj1 G1)) as [G2 [N2 [P2 S2]]].
    destruct (op_sound c2 op fl fr tr2 c' f tr' H (proj1 G2) P1 P2 N1 N2) as [G3 [N3 [P3 S3]]].
    split; [eapply grows_trans; [eapply grows_trans; eauto|]; eauto|]. split; auto. split; auto.
    intros w NC HA [D1 [D2 D3]]. assert (G23 := grows_trans _ _ _ _ _ _ G2 G3).
    specialize (S1 w (grows_nc _ _ _ _ G23 NC) (grows_hold w _ _ _ _ G23 HA) D1).
    specialize (S2 w (grows_nc _ _ _ _ G3 NC) (grows_hold w _ _ _ _ G3 HA) D2).
    assert (Hd : op = "/"%string -> ~ lin w fr ==[q] 0).
    { intros E Z0. apply (D3 E). eapply means_cong; eauto. }
    destruct (S3 w NC HA Hd) as [[-> V]|[[-> V]|[[-> V]|[-> V]]]].
    + eapply means_mul; eauto.
    + eapply means_div; eauto.
    + eapply means_add; eauto.
    + eapply means_sub; eauto.
  - destruct (compile_expr sort hash q c e tr) as [[[c1 fe] tr1]|] eqn:Ee; [|discriminate].
    destruct (IH c tr c1 fe tr1 Ee HI) as [G1 [N1 [P1 S1]]]. unfold compile_base in H.
    destruct (collect _ _ _ _ _) as [[c2 i]|] eqn:EC; [|discriminate]. unfold traced in H.
    destruct (with_id sort hash _) as [g|] eqn:EG; [|discriminate]. injection H as <- <- <-.
    destruct (base_gate g fe EG) as [Wg [Fg Hg]]. destruct (collect_Inv c1 tr1 _ g _ c2 i (proj1 G1) EC EG (eq_sym Fg) Wg) as [HI' [Ei _]].
    assert (G := step_grows c1 tr1 _ g _ c2 i (proj1 G1) EC EG (eq_sym Fg) Wg).
    split; [eapply grows_trans; eauto|]. split; [discriminate|]. split; [apply wire_plain|]. intros w NC HA D.
    assert (X := Inv_holds w c2 _ g HI' NC HA (last_in _ _)). apply Hg in X. rewrite Ei in X. rewrite lin_wire.
    econstructor; [apply S1; [eapply grows_nc; eauto|eapply grows_hold; eauto|exact D]|]. rewrite X. apply cong_eq. ring.
Qed.

(** ** Completeness *)
Section V.
Variable V : string -> Prop.
Definition K (c : collector) (x : string) : Prop := V x \/ In x (known c).
Definition Closed (c : collector) : Prop := Forall (gate_in (K c)) (gates c).
Definition extends (c : collector) (w w' : assignment) : Prop := forall x, K c x -> w' x = w x.
Definition apart (c : collector) : Prop := forall x, V x -> ~ In x (known c).

Lemma gate_in_mono (K1 K2 : string -> Prop) g : (forall x, K1 x -> K2 x) -> gate_in K1 g -> gate_in K2 g.
Proof. intros H [A [B [C [D E]]]]. repeat split; auto; eapply fac_in_mono; eauto. Qed.
Lemma K_mono c c' x : incl (known c) (known c') -> K c x -> K c' x.
Proof. intros H [A|A]; [now left|right; auto]. Qed.
Lemma Inv_kinds c tr : Inv c tr -> Forall (fun g => match gtyp g with GMul | GAdd | GEqual | GBase => True | _ => False end) (gates c).
Proof.
  intros [W [gs [HG [HI _]]]]. rewrite HG. apply Forall_forall. intros g Hg. apply in_map_iff in Hg. destruct Hg as [g0 [<- H0]].
  rewrite Forall_forall in W. specialize (W g0 (HI _ H0)). unfold gate_wf, finish in *. destruct g0 as [t i l r e o n p]. cbn [gtyp gleft] in *.
  destruct t; try contradiction; try exact I. destruct l; exact I.
Qed.

Lemma step_closed c tr g g' fin c' i : Inv c tr -> Closed c -> collect sort hash c g fin = Some (c', i) ->
  with_id sort hash g = Some g' -> fin g' = finish g' -> gate_wf g' ->
  gate_in (fun x => K c x \/ x = i) (finish g') -> Closed c'.
Proof.
  intros HI HC EC EG Ef Wg HN. destruct (collect_Inv c tr g g' fin c' i HI EC EG Ef Wg) as [_ [_ [Hi [Hk HE]]]].
  destruct HE as [->|[HE _]]; auto. unfold Closed. rewrite HE. apply Forall_app. split.
  - eapply Forall_impl; [|exact HC]. intros a. apply gate_in_mono. intros x. now apply K_mono.
  - constructor; [|constructor]. eapply gate_in_mono; [|exact HN]. intros x [Hx| ->]; [now apply (K_mono c c')|now right].
Qed.

Lemma step_complete c tr g g' fin c' i : Inv c tr -> Closed c -> collect sort hash c g fin = Some (c', i) ->
  with_id sort hash g = Some g' -> fin g' = finish g' -> gate_wf g' -> apart c' ->
  forall w v, all_hold w (gates c) ->
  (forall w', extends c w w' -> w' i = v -> gate_holds w' (finish g')) ->
  exists w', extends c w w' /\ all_hold w' (gates c').
Proof.
  intros HI HC EC EG Ef Wg HA w v HW HV. destruct (collect_Inv c tr g g' fin c' i HI EC EG Ef Wg) as [_ [_ [Hi [Hk HE]]]].
  destruct HE as [->|[HE [_ Hn]]]; [exists w; split; auto; intros x _; reflexivity|].
  exists (fun x => if String.eqb x i then v else w x).
  assert (EX : extends c w (fun x => if String.eqb x i then v else w x)).
  { intros x Hx. destruct (String.eqb_spec x i) as [->|]; auto. destruct Hx as [Hx|Hx]; [destruct (HA i Hx Hi)|easy]. }
  split; auto. rewrite HE. apply all_hold_app. split.
  - unfold FactorSpec.all_hold. rewrite Forall_forall. intros a Ha. apply (gate_holds_ext (K c) w); auto.
    + intros x Hx. symmetry. now apply EX.
    + unfold Closed in HC. rewrite Forall_forall in HC. auto.
    + assert (Q := Inv_kinds c tr HI). rewrite Forall_forall in Q. now apply Q.
    + unfold FactorSpec.all_hold in HW. rewrite Forall_forall in HW. auto.
  - constructor; [|constructor]. apply HV; auto. now rewrite String.eqb_refl.
Qed.

Lemma wire_in (P : string -> Prop) i k : P i -> Forall (fac_in P) (wire i k).
Proof. intros H. constructor; [intros _; exact H|constructor]. Qed.
Lemma extends_trans c c' w w1 w2 : incl (known c) (known c') -> extends c w w1 -> extends c' w1 w2 -> extends c w w2.
Proof. intros H A B x Hx. rewrite B by now apply (K_mono c c'). auto. Qed.
Lemma apart_incl c c' : incl (known c) (known c') -> apart c' -> apart c.
Proof. intros H A x Hx Hi. apply (A x Hx). auto. Qed.

Lemma op_complete c op l r tr c' f tr' : compile_op_tr sort hash q c op l r tr = Some (c', f, tr') -> Inv c tr ->
  Closed c -> Forall (fac_in (K c)) l -> Forall (fac_in (K c)) r -> apart c' ->
  Closed c' /\ Forall (fac_in (K c')) f /\
  forall w, all_hold w (gates c) -> (op = "/"%string -> ~ lin w r ==[q] 0) ->
  exists w', extends c w w' /\ all_hold w' (gates c').
Proof.
  intros H HI HC Nl Nr AP. unfold compile_op_tr, compile_op in H. destruct (String.eqb_spec op "*") as [->|N1].
  { cbn [andb] in H. destruct (is_single_number l || is_single_number r) eqn:S.
    - cbn [negb] in H. change (String.eqb "*" "/") with false in H. cbn [andb] in H.
      destruct (mul_factors q l r) as [f1|] eqn:E; [|discriminate]. injection H as <- <- <-.
      split; auto. split; [exact (mul_factors_in (K c) l r f1 Nl Nr E)|]. intros w HW _. exists w. split; auto. intros x _; reflexivity.
    - cbn [negb] in H. unfold compile_mul in H. destruct (extract_constant sort q l r) as [[[k l'] r']|] eqn:E; [|discriminate].
      destruct (collect _ _ _ _ _) as [[c1 i]|] eqn:EC; [|discriminate]. unfold traced in H.
      destruct (with_id sort hash _) as [g|] eqn:EG; [|discriminate]. injection H as <- <- <-.
      assert (E' := E). unfold extract_constant in E'. destruct (factor_signature sort l) as [[gl l1]|] eqn:Sl; [|discriminate].
      destruct (factor_signature sort r) as [[gr r1]|] eqn:Sr; [|discriminate]. injection E' as _ <- <-.
      destruct (mul_gate g l1 r1 EG (signature_nonempty _ _ _ Sl) (signature_nonempty _ _ _ Sr)) as [Wg [Fg Hg]].
      destruct (collect_Inv c tr _ g _ c1 i HI EC EG (eq_sym Fg) Wg) as [HI' [Ei [Hi _]]].
      assert (L1 := signature_in (K c) _ _ _ Sl Nl). assert (R1 := signature_in (K c) _ _ _ Sr Nr).
      destruct (with_id_sorted (K c) _ _ EG eq_refl) as [SL [SR [SE [SO _]]]]. cbn [gleft gright gexp gout] in SL, SR, SE, SO.
      split; [apply (step_closed c tr _ g _ c1 i HI HC EC EG (eq_sym Fg) Wg)|].
      { rewrite Fg. repeat split; cbn [gleft gright gexp gout gid]; try (eapply fac_in_mono; [|first [exact (SL L1)|exact (SR R1)|apply SE; constructor]]; auto).
        - apply wire_in. now right.
        - now right. }
      split; [apply wire_in; now right|]. intros w HW _.
      apply (step_complete c tr _ g _ c1 i HI HC EC EG (eq_sym Fg) Wg AP w (lin w l1 * lin w r1) HW).
      intros w' EX Hv. apply Hg. rewrite Ei, Hv.
      rewrite (lin_ext (K c) w' w l1), (lin_ext (K c) w' w r1) by auto. reflexivity. }
  destruct (String.eqb_spec op "/") as [->|N2].
  { cbn [andb] in H. destruct (is_single_number r) eqn:S.
    - cbn [negb] in H. destruct (invert_factors q r) as [ri|] eqn:EI; [|discriminate].
      destruct (mul_factors q l ri) as [f1|] eqn:E; [|discriminate]. injection H as <- <- <-.
      split; auto. split.
      + apply (mul_factors_in (K c) l ri f1 Nl); auto. destruct (single_number_inv r S) as [x [-> Hx]]. cbn [invert_factors] in EI.
        destruct (finv q (mult x)); [|discriminate]. injection EI as <-. rewrite Hx. constructor; [intros X; discriminate|constructor].
      + intros w HW _. exists w. split; auto. intros x _; reflexivity.
    - cbn [negb] in H. unfold compile_div in H. destruct (factor_signature sort l) as [[gl l1]|] eqn:Sl; [|discriminate].
      destruct (factor_signature sort r) as [[gr r1]|] eqn:Sr; [|discriminate]. destruct (fdiv q gl gr) as [k|] eqn:Ek; [|discriminate].
      destruct (collect _ _ _ _ _) as [[c1 i]|] eqn:EC; [|discriminate]. unfold traced in H.
      destruct (with_id sort hash _) as [g|] eqn:EG; [|discriminate]. injection H as <- <- <-.
      destruct (div_gate g l1 r1 EG (signature_nonempty _ _ _ Sr)) as [Wg [Fg Hg]].
      destruct (collect_Inv c tr _ g _ c1 i HI EC EG (eq_sym Fg) Wg) as [HI' [Ei [Hi _]]].
      assert (L1 := signature_in (K c) _ _ _ Sl Nl). assert (R1 := signature_in (K c) _ _ _ Sr Nr).
      destruct (with_id_sorted (K c) _ _ EG eq_refl) as [SL [SR [SE [SO _]]]]. cbn [gleft gright gexp gout] in SL, SR, SE, SO.
      split; [apply (step_closed c tr _ g _ c1 i HI HC EC EG (eq_sym Fg) Wg)|].
      { rewrite Fg. repeat split; cbn [gleft gright gexp gout gid]; try (eapply fac_in_mono; [|first [exact (SO L1)|exact (SR R1)|apply SE; constructor]]; auto).
        - apply wire_in. now right.
        - now right. }
      split; [apply wire_in; now right|]. intros w HW Hd.
      destruct (factor_signature_val sort sort_perm w r gr r1 Sr) as [_ Er]. specialize (Hd eq_refl). rewrite <- Er in Hd.
      assert (Hr0 : ~ lin w r1 ==[q] 0). { intros Z0. apply Hd. rewrite Z0. apply cong_eq. ring. }
      destruct (cong_unit q Hq _ Hr0) as [b Hb].
      apply (step_complete c tr _ g _ c1 i HI HC EC EG (eq_sym Fg) Wg AP w (lin w l1 * b) HW).
      intros w' EX Hv. apply Hg. rewrite Ei, Hv.
      rewrite (lin_ext (K c) w' w l1), (lin_ext (K c) w' w r1) by auto.
      rewrite <- Z.mul_assoc, (Z.mul_comm b), Hb. apply cong_eq. ring. }
  cbn [andb] in H. destruct (String.eqb_spec op "+") as [->|N3].
  { injection H as <- <- <-. split; auto. split; [now apply add_factors_in|]. intros w HW _. exists w. split; auto. intros x _; reflexivity. }
  destruct (String.eqb_spec op "-") as [->|N4]; [|discriminate].
  injection H as <- <- <-. split; auto. split; [apply add_factors_in; auto; now apply negate_in|].
  intros w HW _. exists w. split; auto. intros x _; reflexivity.
Qed.

Lemma compile_complete : forall e c tr c' f tr', compile_expr sort hash q c e tr = Some (c', f, tr') -> Inv c tr ->
  Closed c -> (forall x, In x (vars e) -> V x) -> apart c' -> no_collision tr' ->
  Closed c' /\ Forall (fac_in (K c')) f /\
  forall w, all_hold w (gates c) -> divisors_ok w e -> exists w', extends c w w' /\ all_hold w' (gates c').
Proof.
  induction e as [s|x|op l IHl r IHr|e IH]; intros c tr c' f tr' H HI HC HV AP NC; assert (H0 := H); cbn [compile_expr] in H.
  - destruct (string_to_field q s) as [[v b]|] eqn:E; [|discriminate]. injection H as <- <- <-.
    split; auto. split; [constructor; [intros X; discriminate|constructor]|]. intros w HW _. exists w. split; auto. intros x _; reflexivity.
  - injection H as <- <- <-. split; auto. split; [apply wire_in; left; apply HV; now left|]. intros w HW _. exists w. split; auto. intros y _; reflexivity.
  - destruct (_ && _); [discriminate|]. destruct (compile_expr sort hash q c l tr) as [[[c1 fl] tr1]|] eqn:El; [|discriminate].
    destruct (compile_expr sort hash q c1 r tr1) as [[[c2 fr] tr2]|] eqn:Er; [|discriminate].
    destruct (compile_sound l c tr c1 fl tr1 El HI) as [G1 [N1 [P1 S1]]].
    destruct (compile_sound r c1 tr1 c2 fr tr2 Er (proj1 G1)) as [G2 [N2 [P2 S2]]].
    destruct (op_sound c2 op fl fr tr2 c' f tr' H (proj1 G2) P1 P2 N1 N2) as [G3 _].
    assert (G23 := grows_trans _ _ _ _ _ _ G2 G3).
    assert (I1 := proj2 (proj2 (proj2 G1))). assert (I2 := proj2 (proj2 (proj2 G2))). assert (I3 := proj2 (proj2 (proj2 G3))).
    assert (AP2 := apart_incl _ _ I3 AP). assert (AP1 := apart_incl _ _ I2 AP2). cbn [vars] in HV.
    destruct (IHl c tr c1 fl tr1 El HI HC) as [C1 [F1 E1]]; auto; [intros; apply HV, in_app_iff; auto|eapply grows_nc; eauto|].
    destruct (IHr c1 tr1 c2 fr tr2 Er (proj1 G1) C1) as [C2 [F2 E2]]; auto; [intros; apply HV, in_app_iff; auto|eapply grows_nc; eauto|].
    assert (F1' : Forall (fac_in (K c2)) fl) by (eapply fac_in_mono; [|exact F1]; intros; now apply (K_mono c1)).
    destruct (op_complete c2 op fl fr tr2 c' f tr' H (proj1 G2) C2 F1' F2 AP) as [C3 [F3 E3]].
    split; auto. split; auto. intros w HW [D1 [D2 D3]].
    destruct (E1 w HW D1) as [w1 [X1 W1]].
    assert (V1 : forall x, In x (vars l ++ vars r) -> w x = w1 x). { intros x Hx. symmetry. apply X1. left. auto. }
    destruct (E2 w1 W1) as [w2 [X2 W2]].
    { eapply divisors_ext; [|exact D2]. intros x Hx. apply V1, in_app_iff. auto. }
    assert (V2 : forall x, In x (vars l ++ vars r) -> w x = w2 x). { intros x Hx. rewrite V1 by auto. symmetry. apply X2. left. auto. }
    destruct (E3 w2 W2) as [w3 [X3 W3]].
    { intros -> Z0. apply (D3 eq_refl). assert (D2' : divisors_ok w2 r).
      { eapply divisors_ext; [|exact D2]. intros x Hx. apply V2, in_app_iff. auto. }
      specialize (S2 w2 (grows_nc _ _ _ _ G3 NC) W2 D2'). apply (means_ext w2 w r).
      - intros x Hx. symmetry. apply V2, in_app_iff. auto.
      - eapply means_cong; eauto. }
    exists w3. split; auto. eapply extends_trans; [exact I1|exact X1|]. eapply extends_trans; [exact I2|exact X2|exact X3].
  - destruct (compile_expr sort hash q c e tr) as [[[c1 fe] tr1]|] eqn:Ee; [|discriminate].
    destruct (compile_sound e c tr c1 fe tr1 Ee HI) as [G1 _]. unfold compile_base in H.
    destruct (collect _ _ _ _ _) as [[c2 i]|] eqn:EC; [|discriminate]. unfold traced in H.
    destruct (with_id sort hash _) as [g|] eqn:EG; [|discriminate]. injection H as <- <- <-.
    destruct (base_gate g fe EG) as [Wg [Fg Hg]].
    destruct (collect_Inv c1 tr1 _ g _ c2 i (proj1 G1) EC EG (eq_sym Fg) Wg) as [HI' [Ei [Hi _]]].
    assert (G := step_grows c1 tr1 _ g _ c2 i (proj1 G1) EC EG (eq_sym Fg) Wg).
    assert (I1 := proj2 (proj2 (proj2 G1))). assert (I2 := proj2 (proj2 (proj2 G))).
    destruct (IH c tr c1 fe tr1 Ee HI HC) as [C1 [F1 E1]]; auto; [eapply apart_incl; eauto|eapply grows_nc; eauto|].
    destruct (with_id_sorted (K c1) _ _ EG eq_refl) as [SL [SR [SE [SO _]]]]. cbn [gleft gright gexp gout] in SL, SR, SE, SO.
    split; [apply (step_closed c1 tr1 _ g _ c2 i (proj1 G1) C1 EC EG (eq_sym Fg) Wg)|].
    { rewrite Fg. repeat split; try (eapply fac_in_mono; [|first [exact (SE F1)|apply SL; constructor|apply SR; constructor|apply SO; constructor]]; auto).
      now right. }
    split; [apply wire_in; now right|]. intros w HW D. destruct (E1 w HW D) as [w1 [X1 W1]].
    destruct (step_complete c1 tr1 _ g _ c2 i (proj1 G1) C1 EC EG (eq_sym Fg) Wg AP w1 (gx (lin w1 fe mod q)) W1) as [w2 [X2 W2]].
    { intros w' EX Hv. apply Hg. rewrite Ei, Hv, (lin_ext (K c1) w' w1 fe) by auto. reflexivity. }
    exists w2. split; auto. eapply extends_trans; [exact I1|exact X1|exact X2].
Qed.
End V.
End P.

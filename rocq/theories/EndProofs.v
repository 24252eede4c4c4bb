(** Compiled programs give a constraint system: every factor list uses a wire once, every wire
    has a number. *)
Require Import ZArith Znumtheory Lia Bool Permutation Ascii String List.
Require Import Verif.Cong Verif.FqModel Verif.FqProofs Verif.FactorModel Verif.FactorSpec Verif.FactorProofs
  Verif.ExprModel Verif.ExprSpec Verif.ExprProofs Verif.ExprProofs2 Verif.PolyModel Verif.PolyProofs Verif.R1csModel Verif.R1csSpec Verif.R1csProofs.
Import ListNotations.
Open Scope Z_scope.

(** ** Factor lists *)
Definition not1 (f : factor) : Prop := fac_in (fun x => x <> "1"%string) f.
Definition tidy (f : factors) : Prop := Forall plain f /\ Forall not1 f /\ slots_distinct f.

Lemma slot_eq f g : ftok f = ftok g -> slot f = slot g.
Proof. intros E. unfold slot, is_number. now rewrite E. Qed.
Lemma plain_eq f g : ftok f = ftok g -> plain f -> plain g.
Proof. intros E. unfold plain. now rewrite E. Qed.
Lemma not1_eq f g : ftok f = ftok g -> not1 f -> not1 g.
Proof. intros E. unfold not1, fac_in, is_number. now rewrite E. Qed.

Section Q.
Variable q : Z.

Lemma add_factor_slot l r s : add_factor q l r = Some s -> slot s = slot r /\ (plain r -> plain s) /\ (not1 r -> not1 s).
Proof.
  unfold add_factor. destruct (both_number _ _) eqn:B.
  - intros [= <-]. apply andb_prop in B. destruct B as [_ B]. unfold slot at 2. unfold is_number. rewrite B.
    split; [reflexivity|]. split; [intros _; now right|intros _ X; discriminate].
  - destruct (_ && _); [|discriminate]. intros [= <-]. split; [now apply slot_eq|]. split; [now apply plain_eq|now apply not1_eq].
Qed.
Lemma add_factor_none l r : plain l -> plain r -> not1 l -> not1 r -> add_factor q l r = None -> slot l <> slot r.
Proof.
  unfold add_factor, both_number, slot, not1, fac_in. intros Pl Pr Nl Nr.
  destruct (is_number l) eqn:El; destruct (is_number r) eqn:Er; unfold is_number in El, Er; rewrite El, Er; cbn [andb].
  - discriminate.
  - intros _ C. now apply (Nr eq_refl).
  - intros _. now apply Nl.
  - destruct Pl as [Pl|Pl]; rewrite Pl in *; [|discriminate]. destruct Pr as [Pr|Pr]; rewrite Pr in *; [|discriminate].
    cbn [ttype_eqb andb]. destruct (String.eqb_spec (ident (ftok l)) (ident (ftok r))); [discriminate|auto].
Qed.
Lemma add_into_slots l : forall rs rs', add_into q l rs = Some rs' -> map slot rs' = map slot rs /\
  (Forall plain rs -> Forall plain rs') /\ (Forall not1 rs -> Forall not1 rs').
Proof.
  induction rs as [|r rs IH]; intros rs' H; [discriminate|]. cbn [add_into] in H.
  destruct (add_factor q l r) as [s|] eqn:E.
  - injection H as <-. destruct (add_factor_slot _ _ _ E) as [A [B C]]. cbn [map]. rewrite A. split; auto.
    split; intros F; inversion F; subst; constructor; auto.
  - destruct (add_into q l rs) as [rs1|]; [|discriminate]. injection H as <-. destruct (IH rs1 eq_refl) as [A [B C]].
    cbn [map]. rewrite A. split; auto. split; intros F; inversion F; subst; constructor; auto.
Qed.
Lemma add_into_none l : plain l -> not1 l -> forall rs, Forall plain rs -> Forall not1 rs -> add_into q l rs = None ->
  ~ In (slot l) (map slot rs).
Proof.
  intros Pl Nl. induction rs as [|r rs IH]; intros FP FN H; [easy|]. cbn [add_into] in H.
  inversion FP as [|? ? P1 P2]; subst. inversion FN as [|? ? N1 N2]; subst.
  destruct (add_factor q l r) eqn:E; [discriminate|]. destruct (add_into q l rs) eqn:E2; [discriminate|].
  cbn [map In]. intros [C|C]; [|now apply IH]. symmetry in C. revert C. now apply add_factor_none.
Qed.
Lemma add_loop_slots : forall ls rs res rs', add_loop q ls rs = (res, rs') ->
  Forall plain ls -> Forall not1 ls -> Forall plain rs -> Forall not1 rs -> NoDup (map slot ls) ->
  map slot rs' = map slot rs /\ NoDup (map slot res) /\ incl (map slot res) (map slot ls) /\
  (forall x, In x (map slot res) -> ~ In x (map slot rs)) /\
  Forall plain res /\ Forall not1 res /\ Forall plain rs' /\ Forall not1 rs'.
Proof.
  induction ls as [|l ls IH]; intros rs res rs' H LP LN RP RN ND; cbn [add_loop] in H.
  - injection H as <- <-. cbn. repeat split; auto; try constructor. apply incl_refl.
  - inversion LP as [|? ? P1 P2]; subst. inversion LN as [|? ? N1 N2]; subst. cbn [map] in ND. inversion ND as [|? ? D1 D2]; subst.
    destruct (add_into q l rs) as [rs1|] eqn:E.
    + destruct (add_into_slots l _ _ E) as [A [B C]]. destruct (IH rs1 res rs' H P2 N2 (B RP) (C RN) D2) as [H1 [H2 [H3 [H4 H5]]]].
      rewrite H1, A. rewrite A in H4. split; auto. split; auto. split; [now apply incl_tl|auto].
    + assert (X := add_into_none l P1 N1 rs RP RN E). destruct (add_loop q ls rs) as [res1 rs1] eqn:E2. injection H as <- <-.
      destruct (IH rs res1 rs1 E2 P2 N2 RP RN D2) as [H1 [H2 [H3 [H4 [H5 [H6 H7]]]]]]. split; auto. cbn [map].
      split; [constructor; auto|]. split; [apply incl_cons; [now left|now apply incl_tl]|].
      split; [intros x [<-|Hx]; auto|]. split; [constructor; auto|]. split; [constructor; auto|auto].
Qed.
Lemma filter_slots rs (p : factor -> bool) : NoDup (map slot rs) -> NoDup (map slot (filter p rs)).
Proof.
  induction rs as [|r rs IH]; cbn; auto. intros ND. inversion ND as [|? ? D1 D2]; subst. destruct (p r); auto.
  cbn. constructor; auto. intros C. apply D1. apply in_map_iff in C. destruct C as [y [<- C]]. apply filter_In in C. now apply in_map.
Qed.
Lemma add_factors_tidy l r : tidy l -> tidy r -> tidy (add_factors q l r).
Proof.
  intros [LP [LN LD]] [RP [RN RD]]. unfold add_factors. destruct (add_loop q l r) as [res rs] eqn:E.
  destruct (add_loop_slots _ _ _ _ E LP LN RP RN LD) as [H1 [H2 [H3 [H4 [H5 [H6 [H7 H8]]]]]]].
  assert (T : tidy (res ++ filter (fun f => negb (mult f =? 0)) rs)).
  { split; [apply Forall_app; split; auto; apply Forall_forall; intros x Hx; apply filter_In in Hx; now apply (proj1 (Forall_forall _ _) H7)|].
    split; [apply Forall_app; split; auto; apply Forall_forall; intros x Hx; apply filter_In in Hx; now apply (proj1 (Forall_forall _ _) H8)|].
    unfold slots_distinct. rewrite map_app. apply NoDup_app2; auto.
    - apply filter_slots. now rewrite H1.
    - intros x Hx C. apply (H4 x Hx). rewrite <- H1. apply in_map_iff in C. destruct C as [y [<- C]]. apply filter_In in C. now apply in_map. }
  destruct (_ ++ _); auto. split; [repeat constructor; now right|]. split; [repeat constructor; intros X; discriminate|].
  repeat constructor. easy.
Qed.

(** Multiplication by a number keeps the slots. *)
Lemma same_slots f g : Forall2 (fun x y => slot x = slot y /\ (plain x -> plain y) /\ (not1 x -> not1 y)) f g -> tidy f -> tidy g.
Proof.
  intros F [A [B C]]. unfold tidy, slots_distinct in *.
  assert (E : map slot g = map slot f). { clear - F. induction F as [|x y f g [H _] _ IH]; cbn; congruence. }
  rewrite E. split; [|split; auto].
  - clear - F A. induction F as [|x y f g [_ [H _]] _ IH]; inversion A; subst; constructor; auto.
  - clear - F B. induction F as [|x y f g [_ [_ H]] _ IH]; inversion B; subst; constructor; auto.
Qed.
Lemma mul_factor_slot x n f : is_number n = true -> mul_factor q x n = Some f -> slot x = slot f /\ (plain x -> plain f) /\ (not1 x -> not1 f).
Proof.
  unfold mul_factor. intros N. assert (I : is_in (ttyp (ftok n)) = false). { unfold is_number in N. destruct (ttyp (ftok n)); try discriminate; auto. }
  rewrite I, andb_false_r. destruct (_ && _).
  - intros [= <-]. split; [now apply slot_eq|]. split; [now apply plain_eq|now apply not1_eq].
  - unfold both_number. unfold is_number in N. rewrite N. destruct (ttype_eqb (ttyp (ftok x)) TNumber) eqn:X; [|discriminate].
    cbn [andb]. intros [= <-]. split; [unfold slot, is_number; now rewrite X|]. split; [intros _; now right|intros _ Y; discriminate].
Qed.
Lemma mul_factor_slot' n x f : is_number n = true -> mul_factor q n x = Some f -> slot x = slot f /\ (plain x -> plain f) /\ (not1 x -> not1 f).
Proof.
  unfold mul_factor. intros N. rewrite N. cbn [andb]. destruct (is_in (ttyp (ftok x))) eqn:I.
  - intros [= <-]. split; [now apply slot_eq|]. split; [now apply plain_eq|now apply not1_eq].
  - assert (I' : is_in (ttyp (ftok n)) = false). { unfold is_number in N. destruct (ttyp (ftok n)); try discriminate; auto. }
    rewrite I'. cbn [andb]. unfold both_number. destruct (ttype_eqb (ttyp (ftok x)) TNumber) eqn:X; [|discriminate].
    unfold is_number in N. rewrite N.
    cbn [andb]. intros [= <-]. split; [unfold slot, is_number; now rewrite X|]. split; [intros _; now right|intros _ Y; discriminate].
Qed.
Lemma mul_rows_slots n : is_number n = true -> forall ls f, mul_rows q ls [n] = Some f ->
  Forall2 (fun x y => slot x = slot y /\ (plain x -> plain y) /\ (not1 x -> not1 y)) ls f.
Proof.
  intros N. induction ls as [|l ls IH]; intros f H; cbn [mul_rows mul_row] in H; [injection H as <-; constructor|].
  destruct (mul_factor q l n) as [y|] eqn:E; [|discriminate]. destruct (mul_rows q ls [n]) as [fs|]; [|discriminate].
  injection H as <-. constructor; auto. now apply mul_factor_slot in E.
Qed.
Lemma mul_factors_tidy l r f : l <> [] -> r <> [] -> is_single_number l = true \/ is_single_number r = true ->
  tidy l -> tidy r -> mul_factors q l r = Some f -> tidy f.
Proof.
  intros Nl Nr S Tl Tr. unfold mul_factors. destruct S as [S|S]; destruct (single_number_inv _ S) as [n [-> Hn]].
  - destruct r as [|x [|y r]]; [easy| |].
    + cbn [List.length]. change (Nat.ltb 1 1) with false. cbv iota. cbn [mul_rows mul_row].
      destruct (mul_factor q n x) as [z|] eqn:E; [|discriminate]. intros [= <-].
      apply (same_slots [x]); auto. constructor; [|constructor]. now apply mul_factor_slot' in E.
    + cbn [List.length]. change (Nat.ltb 1 (Datatypes.S (Datatypes.S (List.length r)))) with true. cbv iota. intros H.
      apply (same_slots (x :: y :: r)); auto. now apply (mul_rows_slots n).
  - assert (L : Nat.ltb (List.length l) (List.length [n]) = false). { apply Nat.ltb_ge. destruct l; cbn; [easy|lia]. }
    rewrite L. intros H. apply (same_slots l); auto. now apply (mul_rows_slots n).
Qed.
Lemma negate_tidy f : tidy f -> tidy (negate_factors f).
Proof.
  apply same_slots. unfold negate_factors. induction f as [|x f IH]; constructor; auto.
  unfold slot, plain, not1, fac_in, is_number. cbn [ftok].
  destruct (ttype_eqb (ttyp (ftok x)) TNumber) eqn:E; cbn [ttyp ttype_eqb ident]; [|rewrite E; auto].
  split; auto. split; [now right|discriminate].
Qed.
Lemma number_tidy s v : tidy [Fac (Tok TNumber s) v].
Proof. split; [repeat constructor; now right|]. split; [repeat constructor; intros X; discriminate|]. repeat constructor. easy. Qed.
Lemma wire_tidy i k : i <> "1"%string -> tidy (wire i k).
Proof. intros H. split; [repeat constructor|]. split; [repeat constructor; intros _; exact H|]. repeat constructor. easy. Qed.

Variable sort : factors -> factors.
Hypothesis sort_perm : forall l, Permutation (sort l) l.
Lemma sort_tidy f : tidy f -> tidy (sort f).
Proof.
  intros [A [B C]]. split; [exact (Forall_perm _ _ _ (sort_perm f) A)|]. split; [exact (Forall_perm _ _ _ (sort_perm f) B)|].
  unfold slots_distinct. refine (Permutation_NoDup _ C). apply Permutation_map, Permutation_sym, sort_perm.
Qed.
Lemma signature_tidy f g f' : factor_signature sort f = Some (g, f') -> tidy f -> tidy f'.
Proof.
  unfold factor_signature, extract_gcd. destruct (gcd_of f) as [z|]; [|discriminate]. destruct (z =? 0); [discriminate|].
  intros [= <- <-] T. apply sort_tidy. revert T. apply same_slots. clear. induction f as [|x f IH]; constructor; auto.
Qed.
Variable hash : string -> Z.
Definition gate_tidy (g : gate) : Prop := tidy (gleft g) /\ tidy (gright g) /\ tidy (gexp g) /\ tidy (gout g).
Lemma with_id_tidy g g' : with_id sort hash g = Some g' -> gate_tidy g -> gate_tidy g' /\ gnonew g' = gnonew g.
Proof.
  unfold with_id, set_id. intros H [A [B [C D]]]. destruct (gid g); [|injection H as <-; repeat split; auto; apply A || apply B || apply C || apply D].
  destruct (prefix16 _); [|discriminate]. injection H as <-. split; [|reflexivity].
  split; [|split; [|split]]; cbn; now apply sort_tidy.
Qed.
End Q.
Lemma nil_tidy : tidy [].
Proof. split; [constructor|]. split; constructor. Qed.

(** ** The collector *)
Section P.
Variable sort : factors -> factors.
Hypothesis sort_perm : forall l, Permutation (sort l) l.
Variable hash : string -> Z.
Variable q : Z.
Hypothesis Hq : prime q.
Variable gx : Z -> Z.
Variable V : string -> Prop.
Hypothesis V1 : ~ V "1"%string.

Definition is_equal (k : gkind) : bool := match k with GEqual => true | _ => false end.
Definition Ko (c : collector) (x : string) : Prop := V x \/ In x (out_names (gates c)).
Definition lists_in (K : string -> Prop) (g : gate) : Prop :=
  Forall (fac_in K) (gleft g) /\ Forall (fac_in K) (gright g) /\ Forall (fac_in K) (gexp g) /\ Forall (fac_in K) (gout g).
Definition Good (c : collector) (tr : list gate) : Prop :=
  Inv c tr /\ Forall (fun g => gnonew g = is_equal (gtyp g)) tr /\
  map gid (gates c) = rev (known c) /\ NoDup (known c) /\
  Forall gate_tidy (gates c) /\ Forall (lists_in (Ko c)) (gates c) /\ Forall (fun g => gnonew g = is_equal (gtyp g)) (gates c).

Lemma lists_in_mono (K1 K2 : string -> Prop) g : (forall x, K1 x -> K2 x) -> lists_in K1 g -> lists_in K2 g.
Proof. intros H [A [B [C D]]]. repeat split; eapply fac_in_mono; eauto. Qed.
Lemma finish_gid g : gid (finish g) = gid g.
Proof. unfold finish. destruct (gtyp g); auto. destruct (gleft g); auto. Qed.
Lemma finish_gtyp g : gtyp (finish g) = gtyp g.
Proof. unfold finish. destruct (gtyp g) eqn:E; auto. destruct (gleft g); auto. Qed.
Lemma finish_gnonew g : gnonew (finish g) = gnonew g.
Proof. unfold finish. destruct (gtyp g); auto. destruct (gleft g); auto. Qed.
Lemma finish_tidy g : gid g <> "1"%string -> gate_tidy g -> gate_tidy (finish g).
Proof.
  intros N [A [B [C D]]]. unfold finish. destruct (gtyp g); try (repeat split; apply A || apply B || apply C || apply D).
  assert (W := wire_tidy (gid g) 1 N). destruct (gleft g) eqn:E; (split; [|split; [|split]]); cbn; auto.
Qed.
Lemma out_names_in gs g : In g gs -> gnonew g = false -> In (gid g) (out_names gs).
Proof. intros H E. unfold out_names. apply in_map, filter_In. split; auto. now rewrite E. Qed.
Lemma out_names_app a b : out_names (a ++ b) = out_names a ++ out_names b.
Proof. unfold out_names. now rewrite filter_app, map_app. Qed.
Lemma out_names_incl gs x : In x (out_names gs) -> In x (map gid gs).
Proof. unfold out_names. intros H. apply in_map_iff in H. destruct H as [g [<- H]]. apply filter_In in H. now apply in_map. Qed.
Lemma out_names_NoDup gs : NoDup (map gid gs) -> NoDup (out_names gs).
Proof.
  unfold out_names. induction gs as [|g gs IH]; cbn; auto. intros ND. inversion ND as [|? ? D1 D2]; subst.
  destruct (negb (gnonew g)); auto. cbn. constructor; auto. intros C. apply D1. now apply out_names_incl.
Qed.

Lemma collect_good c tr g g' fin c' i : Good c tr -> collect sort hash c g fin = Some (c', i) ->
  with_id sort hash g = Some g' -> fin g' = finish g' -> gate_wf g' -> gate_tidy g' -> gnonew g' = is_equal (gtyp g') ->
  ~ In "1"%string (known c') -> no_collision (tr ++ [g']) ->
  lists_in (fun x => Ko c x \/ (gnonew g' = false /\ x = i)) (finish g') ->
  Good c' (tr ++ [g']) /\ (gnonew g' = false -> In i (out_names (gates c'))) /\ incl (out_names (gates c)) (out_names (gates c')).
Proof.
  intros [HI [HT [HM [HD [HG [HL HN]]]]]] EC EG Ef Wg Tg Ng N1 NC HN'.
  destruct (collect_Inv sort hash q gx c tr g g' fin c' i HI EC EG Ef Wg) as [HI' [Ei [Hi [Hk HE]]]].
  assert (HT' : Forall (fun g => gnonew g = is_equal (gtyp g)) (tr ++ [g'])) by (apply Forall_app; auto).
  destruct HE as [->|[E1 [E2 Hni]]].
  - split; [repeat split; auto; apply HI'|]. split; [|apply incl_refl]. intros F.
    destruct HI as [W [gs [HG0 [HI0 [HK HT0]]]]]. apply HK in Hi. apply in_map_iff in Hi. destruct Hi as [g0 [E0 H0]].
    assert (S : same_gate g0 g'). { apply NC; [apply in_app_iff; left; auto|apply in_app_iff; right; now left|congruence]. }
    rewrite <- E0, <- finish_gid. apply out_names_in; [rewrite HG0; now apply in_map|].
    rewrite finish_gnonew. assert (X := proj1 (Forall_forall _ _) HT g0 (HI0 _ H0)). cbn in X. rewrite X, (proj1 S), <- Ng. exact F.
  - assert (Oi : gnonew g' = false -> In i (out_names (gates c'))).
    { intros F. rewrite E1, out_names_app, in_app_iff. right. rewrite <- Ei, <- finish_gid. apply out_names_in; [now left|].
      now rewrite finish_gnonew. }
    assert (Oc : incl (out_names (gates c)) (out_names (gates c'))). { rewrite E1, out_names_app. now apply incl_appl, incl_refl. }
    split; auto. split; auto. split; auto. split; [rewrite E1, E2, map_app, HM; cbn; now rewrite finish_gid, Ei|].
    split; [rewrite E2; constructor; auto|]. rewrite E1. split; [apply Forall_app; split; auto; constructor; [|constructor]; apply finish_tidy; auto; rewrite Ei; intros ->; now apply N1|].
    split; apply Forall_app; split; auto.
    + eapply Forall_impl; [|exact HL]. intros a. apply lists_in_mono. intros x [Hx|Hx]; [now left|right]. now apply Oc.
    + constructor; [|constructor]. eapply lists_in_mono; [|exact HN']. intros x [[Hx|Hx]|[F ->]]; [now left|right|right]; auto.
    + constructor; [|constructor]. now rewrite finish_gnonew, finish_gtyp.
Qed.

Lemma fac_Ko c c' f : incl (out_names (gates c)) (out_names (gates c')) -> Forall (fac_in (Ko c)) f -> Forall (fac_in (Ko c')) f.
Proof. intros H. apply fac_in_mono. intros x [Hx|Hx]; [now left|right; auto]. Qed.
Lemma fac_Ko_or c (P : string -> Prop) f : Forall (fac_in (Ko c)) f -> Forall (fac_in (fun x => Ko c x \/ P x)) f.
Proof. apply fac_in_mono. auto. Qed.

Lemma op_good c op l r tr c' f tr' : compile_op_tr sort hash q c op l r tr = Some (c', f, tr') -> Good c tr ->
  l <> [] -> r <> [] -> tidy l -> tidy r -> Forall (fac_in (Ko c)) l -> Forall (fac_in (Ko c)) r ->
  ~ In "1"%string (known c') -> no_collision tr' ->
  Good c' tr' /\ tidy f /\ Forall (fac_in (Ko c')) f /\ incl (out_names (gates c)) (out_names (gates c')).
Proof.
  intros H HI El Er Tl Tr Nl Nr N1 NC. unfold compile_op_tr, compile_op in H. destruct (String.eqb_spec op "*") as [->|P1].
  { cbn [andb] in H. destruct (is_single_number l || is_single_number r) eqn:S.
    - cbn [negb] in H. change (String.eqb "*" "/") with false in H. cbn [andb] in H.
      destruct (mul_factors q l r) as [f1|] eqn:E; [|discriminate]. injection H as <- <- <-. apply orb_prop in S.
      split; auto. split; [exact (mul_factors_tidy q l r f1 El Er S Tl Tr E)|]. split; [exact (mul_factors_in q (Ko c) l r f1 Nl Nr E)|apply incl_refl].
    - cbn [negb] in H. unfold compile_mul in H. destruct (extract_constant sort q l r) as [[[k l'] r']|] eqn:E; [|discriminate].
      destruct (collect _ _ _ _ _) as [[c1 i]|] eqn:EC; [|discriminate]. unfold traced in H.
      destruct (with_id sort hash _) as [g|] eqn:EG; [|discriminate]. injection H as <- <- <-.
      unfold extract_constant in E. destruct (factor_signature sort l) as [[gl l1]|] eqn:Sl; [|discriminate].
      destruct (factor_signature sort r) as [[gr r1]|] eqn:Sr; [|discriminate]. injection E as <- <- <-.
      destruct (mul_gate sort sort_perm hash q gx g l1 r1 EG (signature_nonempty _ sort_perm _ _ _ Sl) (signature_nonempty _ sort_perm _ _ _ Sr)) as [Wg [Fg _]].
      assert (L1 := signature_in sort sort_perm (Ko c) _ _ _ Sl Nl). assert (R1 := signature_in sort sort_perm (Ko c) _ _ _ Sr Nr).
      destruct (with_id_sorted sort sort_perm hash (Ko c) _ _ EG eq_refl) as [SL [SR [SE [SO _]]]]. cbn [gleft gright gexp gout] in SL, SR, SE, SO.
      assert (T1 := signature_tidy sort sort_perm _ _ _ Sl Tl). assert (T2 := signature_tidy sort sort_perm _ _ _ Sr Tr).
      destruct (with_id_tidy sort sort_perm hash _ _ EG) as [Tg Ng]; [repeat split; cbn; apply T1 || apply T2 || apply nil_tidy|].
      cbn [gnonew] in Ng. assert (T := with_id_gid sort hash _ _ EG). cbn in T.
      destruct (collect_good c tr _ g _ c1 i HI EC EG (eq_sym Fg) Wg Tg) as [A [B C]]; auto.
      { now rewrite Ng, T. }
      { destruct (collect_Inv sort hash q gx c tr _ g _ c1 i (proj1 HI) EC EG (eq_sym Fg) Wg) as [_ [Ei _]].
        rewrite Fg. repeat split; cbn [gleft gright gexp gout]; try (apply fac_Ko_or; auto; apply SE; constructor).
        apply wire_in. right. rewrite Ei. auto. }
      split; auto. split; [|split; [apply wire_in; right; auto|auto]]. apply wire_tidy. intros ->. apply N1.
      destruct A as [_ [_ [HM _]]]. apply in_rev. rewrite <- HM. apply out_names_incl. auto. }
  destruct (String.eqb_spec op "/") as [->|P2].
  { cbn [andb] in H. destruct (is_single_number r) eqn:S.
    - cbn [negb] in H. destruct (invert_factors q r) as [ri|] eqn:EI; [|discriminate].
      destruct (mul_factors q l ri) as [f1|] eqn:E; [|discriminate]. injection H as <- <- <-.
      destruct (single_number_inv r S) as [x [-> Hx]]. cbn [invert_factors] in EI.
      destruct (finv q (mult x)); [|discriminate]. injection EI as <-. rewrite Hx in E. split; auto.
      split; [refine (mul_factors_tidy q l _ f1 El _ _ Tl _ E); [discriminate|right; reflexivity|apply number_tidy]|].
      split; [|apply incl_refl]. refine (mul_factors_in q (Ko c) l _ f1 Nl _ E). constructor; [intros X; discriminate|constructor].
    - cbn [negb] in H. unfold compile_div in H. destruct (factor_signature sort l) as [[gl l1]|] eqn:Sl; [|discriminate].
      destruct (factor_signature sort r) as [[gr r1]|] eqn:Sr; [|discriminate]. destruct (fdiv q gl gr) as [k|] eqn:Ek; [|discriminate].
      destruct (collect _ _ _ _ _) as [[c1 i]|] eqn:EC; [|discriminate]. unfold traced in H.
      destruct (with_id sort hash _) as [g|] eqn:EG; [|discriminate]. injection H as <- <- <-.
      destruct (div_gate sort sort_perm hash q gx g l1 r1 EG (signature_nonempty _ sort_perm _ _ _ Sr)) as [Wg [Fg _]].
      assert (L1 := signature_in sort sort_perm (Ko c) _ _ _ Sl Nl). assert (R1 := signature_in sort sort_perm (Ko c) _ _ _ Sr Nr).
      destruct (with_id_sorted sort sort_perm hash (Ko c) _ _ EG eq_refl) as [SL [SR [SE [SO _]]]]. cbn [gleft gright gexp gout] in SL, SR, SE, SO.
      assert (T1 := signature_tidy sort sort_perm _ _ _ Sl Tl). assert (T2 := signature_tidy sort sort_perm _ _ _ Sr Tr).
      destruct (with_id_tidy sort sort_perm hash _ _ EG) as [Tg Ng]; [repeat split; cbn; apply T1 || apply T2 || apply nil_tidy|].
      cbn [gnonew] in Ng. assert (T := with_id_gid sort hash _ _ EG). cbn in T.
      destruct (collect_good c tr _ g _ c1 i HI EC EG (eq_sym Fg) Wg Tg) as [A [B C]]; auto.
      { now rewrite Ng, T. }
      { destruct (collect_Inv sort hash q gx c tr _ g _ c1 i (proj1 HI) EC EG (eq_sym Fg) Wg) as [_ [Ei _]].
        rewrite Fg. repeat split; cbn [gleft gright gexp gout]; try (apply fac_Ko_or; auto; apply SE; constructor).
        apply wire_in. right. rewrite Ei. auto. }
      split; auto. split; [|split; [apply wire_in; right; auto|auto]]. apply wire_tidy. intros ->. apply N1.
      destruct A as [_ [_ [HM _]]]. apply in_rev. rewrite <- HM. apply out_names_incl. auto. }
  cbn [andb] in H. destruct (String.eqb_spec op "+") as [->|P3].
  { injection H as <- <- <-. split; auto. split; [now apply add_factors_tidy|]. split; [now apply add_factors_in|apply incl_refl]. }
  destruct (String.eqb_spec op "-") as [->|P4]; [|discriminate].
  injection H as <- <- <-. split; auto. split; [apply add_factors_tidy; auto; now apply negate_tidy|].
  split; [apply add_factors_in; auto; now apply negate_in|apply incl_refl].
Qed.

Lemma compile_good : forall e c tr c' f tr', compile_expr sort hash q c e tr = Some (c', f, tr') -> Good c tr ->
  (forall x, In x (vars e) -> V x) -> ~ In "1"%string (known c') -> no_collision tr' ->
  Good c' tr' /\ tidy f /\ Forall (fac_in (Ko c')) f /\ incl (out_names (gates c)) (out_names (gates c')).
Proof.
  induction e as [s|x|op l IHl r IHr|e IH]; intros c tr c' f tr' H HG HV N1 NC; assert (H0 := H); cbn [compile_expr] in H.
  - destruct (string_to_field q s) as [[v b]|] eqn:E; [|discriminate]. injection H as <- <- <-.
    split; auto. split; [apply number_tidy|]. split; [constructor; [intros X; discriminate|constructor]|apply incl_refl].
  - injection H as <- <- <-. assert (Vx : V x) by (apply HV; now left). split; auto.
    split; [apply wire_tidy; intros ->; auto|]. split; [apply wire_in; now left|apply incl_refl].
  - destruct (_ && _); [discriminate|]. destruct (compile_expr sort hash q c l tr) as [[[c1 fl] tr1]|] eqn:El; [|discriminate].
    destruct (compile_expr sort hash q c1 r tr1) as [[[c2 fr] tr2]|] eqn:Er; [|discriminate].
    destruct (compile_sound sort sort_perm hash q Hq gx l c tr c1 fl tr1 El (proj1 HG)) as [G1 [E1 [P1 _]]].
    destruct (compile_sound sort sort_perm hash q Hq gx r c1 tr1 c2 fr tr2 Er (proj1 G1)) as [G2 [E2 [P2 _]]].
    destruct (op_sound sort sort_perm hash q Hq gx c2 op fl fr tr2 c' f tr' H (proj1 G2) P1 P2 E1 E2) as [G3 _].
    assert (G23 := grows_trans _ _ _ _ _ _ G2 G3).
    assert (I2 := proj2 (proj2 (proj2 G2))). assert (I3 := proj2 (proj2 (proj2 G3))). cbn [vars] in HV.
    assert (M2 : ~ In "1"%string (known c2)) by (intros X; apply N1; auto). assert (M1 : ~ In "1"%string (known c1)) by (intros X; apply M2; auto).
    assert (C2 := grows_nc _ _ _ _ G3 NC). assert (C1 := grows_nc _ _ _ _ G2 C2).
    destruct (IHl c tr c1 fl tr1 El HG) as [A1 [B1 [D1 F1]]]; auto; [intros; apply HV, in_app_iff; auto|].
    destruct (IHr c1 tr1 c2 fr tr2 Er A1) as [A2 [B2 [D2 F2]]]; auto; [intros; apply HV, in_app_iff; auto|].
    destruct (op_good c2 op fl fr tr2 c' f tr' H A2 E1 E2 B1 B2 (fac_Ko _ _ _ F2 D1) D2 N1 NC) as [A3 [B3 [D3 F3]]].
    split; auto. split; auto. split; auto. eapply incl_tran; [exact F1|]. eapply incl_tran; eauto.
  - destruct (compile_expr sort hash q c e tr) as [[[c1 fe] tr1]|] eqn:Ee; [|discriminate].
    destruct (compile_sound sort sort_perm hash q Hq gx e c tr c1 fe tr1 Ee (proj1 HG)) as [G1 _]. unfold compile_base in H.
    destruct (collect _ _ _ _ _) as [[c2 i]|] eqn:EC; [|discriminate]. unfold traced in H.
    destruct (with_id sort hash _) as [g|] eqn:EG; [|discriminate]. injection H as <- <- <-.
    destruct (base_gate sort sort_perm hash q gx g fe EG) as [Wg [Fg _]].
    assert (G := step_grows sort hash q gx c1 tr1 _ g _ c2 i (proj1 G1) EC EG (eq_sym Fg) Wg).
    assert (I2 := proj2 (proj2 (proj2 G))).
    assert (M1 : ~ In "1"%string (known c1)) by (intros X; apply N1; auto).
    assert (C1 := grows_nc _ _ _ _ G NC).
    destruct (IH c tr c1 fe tr1 Ee HG) as [A1 [B1 [D1 F1]]]; auto.
    destruct (with_id_sorted sort sort_perm hash (Ko c1) _ _ EG eq_refl) as [SL [SR [SE [SO _]]]]. cbn [gleft gright gexp gout] in SL, SR, SE, SO.
    destruct (with_id_tidy sort sort_perm hash _ _ EG) as [Tg Ng]; [repeat split; cbn; apply B1 || apply nil_tidy|].
    cbn [gnonew] in Ng. assert (T := with_id_gid sort hash _ _ EG). cbn in T.
    destruct (collect_good c1 tr1 _ g _ c2 i A1 EC EG (eq_sym Fg) Wg Tg) as [A [B C]]; auto.
    { now rewrite Ng, T. }
    { rewrite Fg. repeat split; apply fac_Ko_or; auto; first [apply SL; constructor|apply SR; constructor|apply SO; constructor]. }
    split; auto. split; [|split; [apply wire_in; right; auto|eapply incl_tran; eauto]]. apply wire_tidy. intros ->. apply N1.
    destruct A as [_ [_ [HM _]]]. apply in_rev. rewrite <- HM. apply out_names_incl. auto.
Qed.

Lemma equalities_good : forall es c tr c' tr', compile_equalities sort hash q c es tr = Some (c', tr') -> Good c tr ->
  (forall x, In x (flat_map pair_vars es) -> V x) -> ~ In "1"%string (known c') -> no_collision tr' -> Good c' tr'.
Proof.
  induction es as [|[l r] es IH]; intros c tr c' tr' H HG HV N1 NC; cbn [compile_equalities] in H; [now injection H as <- <-|].
  destruct (compile_expr sort hash q c l tr) as [[[c1 fl] tr1]|] eqn:El; [|discriminate].
  destruct (compile_expr sort hash q c1 r tr1) as [[[c2 fr] tr2]|] eqn:Er; [|discriminate].
  destruct (compile_equal sort hash c2 fl fr) as [c3|] eqn:EE; [|discriminate].
  destruct (with_id sort hash _) as [g|] eqn:EG; [|discriminate].
  destruct (compile_sound sort sort_perm hash q Hq gx l c tr c1 fl tr1 El (proj1 HG)) as [G1 _].
  destruct (compile_sound sort sort_perm hash q Hq gx r c1 tr1 c2 fr tr2 Er (proj1 G1)) as [G2 _].
  unfold compile_equal in EE. destruct (collect _ _ _ _ _) as [[c4 i]|] eqn:EC; [|discriminate]. injection EE as ->.
  destruct (equal_gate sort sort_perm hash q gx g fl fr EG) as [Wg [Fg _]].
  assert (G3 := step_grows sort hash q gx c2 tr2 _ g _ c3 i (proj1 G2) EC EG (eq_sym Fg) Wg).
  destruct (equalities_sound sort sort_perm hash q Hq gx _ _ _ _ _ H (proj1 G3)) as [G4 _].
  assert (I2 := proj2 (proj2 (proj2 G2))). assert (I3 := proj2 (proj2 (proj2 G3))). assert (I4 := proj2 (proj2 (proj2 G4))).
  assert (M3 : ~ In "1"%string (known c3)) by (intros X; apply N1; auto).
  assert (M2 : ~ In "1"%string (known c2)) by (intros X; apply M3; auto).
  assert (M1 : ~ In "1"%string (known c1)) by (intros X; apply M2; auto).
  assert (C3 := grows_nc _ _ _ _ G4 NC). assert (C2 := grows_nc _ _ _ _ G3 C3). assert (C1 := grows_nc _ _ _ _ G2 C2).
  cbn [flat_map pair_vars fst snd] in HV.
  destruct (compile_good l c tr c1 fl tr1 El HG) as [A1 [B1 [D1 F1]]]; auto; [intros; apply HV; unfold pair_vars; cbn [fst snd]; rewrite !in_app_iff; auto|].
  destruct (compile_good r c1 tr1 c2 fr tr2 Er A1) as [A2 [B2 [D2 F2]]]; auto; [intros; apply HV; unfold pair_vars; cbn [fst snd]; rewrite !in_app_iff; auto|].
  destruct (with_id_sorted sort sort_perm hash (Ko c2) _ _ EG eq_refl) as [SL [SR [SE [SO _]]]]. cbn [gleft gright gexp gout] in SL, SR, SE, SO.
  destruct (with_id_tidy sort sort_perm hash _ _ EG) as [Tg Ng]; [repeat split; cbn; apply B1 || apply B2 || apply nil_tidy|].
  cbn [gnonew] in Ng. assert (T := with_id_gid sort hash _ _ EG). cbn in T.
  destruct (collect_good c2 tr2 _ g _ c3 i A2 EC EG (eq_sym Fg) Wg Tg) as [A [B C]]; auto.
  { now rewrite Ng, T. }
  { rewrite Fg. repeat split; apply fac_Ko_or; [apply SL, (fac_Ko _ _ _ F2 D1)|apply SR, D2|apply SE; constructor|apply SO; constructor]. }
  apply (IH c3 (tr2 ++ [g]) c' tr' H A); auto. intros x Hx. apply HV. rewrite in_app_iff. auto.
Qed.

Lemma Good_empty : Good (Coll [] []) [].
Proof. split; [apply Inv_empty|]. cbn. repeat split; try constructor. Qed.

Lemma execute_good p c f tr : execute sort hash q p = Some (c, f, tr) -> no_collision tr ->
  (forall x, inputs p x -> V x) -> ~ In "1"%string (known c) ->
  Good c tr /\ Forall (fac_in (Ko c)) f.
Proof.
  intros H NC HV N1. destruct (execute_inv sort sort_perm hash q Hq gx p c f tr H) as [c1 [tr1 [c2 [tr2 [E1 [E2 [I1 [G2 HC]]]]]]]].
  assert (I2 := proj2 (proj2 (proj2 G2))).
  assert (X : no_collision tr2 /\ ~ In "1"%string (known c2)).
  { destruct HC as [[Sn [-> ->]]|[[[x [-> [Mx Nx]]] [-> ->]]|[i [g [Eg [-> [Ni EC]]]]]]]; auto.
    destruct (add_gate_facts sort hash q gx i f g Eg Ni) as [EW [Wg [Fg Hg]]].
    assert (G3 := step_grows sort hash q gx c2 tr2 g g _ c i (proj1 G2) EC EW (eq_sym Fg) Wg).
    split; [eapply grows_nc; eauto|]. intros X. apply N1. now apply (proj2 (proj2 (proj2 G3))). }
  destruct X as [NC2 M2]. assert (M1 : ~ In "1"%string (known c1)) by (intros X; apply M2; auto).
  assert (A1 := equalities_good _ _ _ _ _ E1 Good_empty (fun x Hx => HV x (or_introl Hx)) M1 (grows_nc _ _ _ _ G2 NC2)).
  destruct (compile_good _ _ _ _ _ _ E2 A1 (fun x Hx => HV x (or_intror Hx)) M2 NC2) as [A2 [B2 [D2 F2]]].
  destruct HC as [[Sn [-> ->]]|[[[x [-> [Mx Nx]]] [-> ->]]|[i [g [Eg [-> [Ni EC]]]]]]]; auto.
  destruct (add_gate_facts sort hash q gx i f g Eg Ni) as [EW [Wg [Fg Hg]]].
  assert (i <> "1"%string). { intros ->. apply N1. destruct (collect_Inv sort hash q gx c2 tr2 g g _ c _ (proj1 A2) EC EW (eq_sym Fg) Wg) as [_ [_ [Hi _]]]. exact Hi. }
  destruct (collect_good c2 tr2 g g _ c i A2 EC EW (eq_sym Fg) Wg) as [A [B C]]; auto.
  { subst g. split; [exact B2|]. split; [apply nil_tidy|]. split; [apply nil_tidy|]. now apply wire_tidy. }
  { now subst g. }
  { rewrite Fg. subst g. repeat split; cbn [gleft gright gexp gout]; try constructor.
    - apply fac_Ko_or. auto.
    - intros _. right. auto.
    - constructor. }
  split; auto. eapply fac_Ko; eauto.
Qed.

(** ** Into the constraint system *)
Lemma fresh_in ins : forall seen x, In x ins -> In x seen \/ In x (fresh seen ins).
Proof.
  induction ins as [|y ins IH]; intros seen x; [easy|]. cbn [fresh].
  destruct (existsb (String.eqb y) seen) eqn:E; intros [->|Hx].
  - left. now apply existsb_eqb.
  - auto.
  - right. now left.
  - destruct (IH (y :: seen) x Hx) as [[->|H]|H]; auto; right; [now left|now right].
Qed.
Lemma fresh_sub ins : forall seen x, In x (fresh seen ins) -> In x ins.
Proof.
  induction ins as [|y ins IH]; intros seen x; [easy|]. cbn [fresh]. destruct (existsb _ _); [right; eauto|].
  intros [->|Hx]; [now left|right; eauto].
Qed.

Lemma wf_shape names c tr : Good c tr -> Forall (gate_shape names) (gates c).
Proof.
  intros [HI [_ [_ [_ [_ [_ HN]]]]]]. destruct HI as [W [gs [HG [HI _]]]]. rewrite HG in *. rewrite Forall_forall in *.
  intros g Hg. specialize (HN g Hg). apply in_map_iff in Hg. destruct Hg as [g0 [<- H0]]. specialize (W g0 (HI _ H0)).
  unfold gate_shape. rewrite finish_gtyp in *. unfold gate_wf in W. unfold finish in *. destruct (gtyp g0) eqn:E; try contradiction; auto.
Qed.
Lemma good_distinct c tr : Good c tr -> Forall gate_distinct (gates c).
Proof.
  intros [_ [_ [_ [_ [HT _]]]]]. eapply Forall_impl; [|exact HT]. intros g [A [B [C D]]].
  split; [apply A|]. split; [apply B|]. split; [apply C|apply D].
Qed.
Lemma all_some_defined {A B} (f : A -> option B) l : Forall (fun x => exists y, f x = Some y) l -> exists r, all_some f l = Some r.
Proof. induction 1 as [|x l [y E] _ [r IH]]; cbn; [eauto|]. rewrite E, IH. eauto. Qed.

Variables pubs ins : list string.
Hypothesis ND : NoDup pubs.
Hypothesis H1 : nth_error pubs 0 = Some "1"%string.
Hypothesis HV : forall x, V x -> In x (pubs ++ ins).

Variable rz : bool.

Lemma good_index c tr : Good c tr -> names_ok pubs ins (gates c) rz -> (forall x, In x (pubs ++ ins) -> ~ In x (known c)) ->
  exists m s, build_index pubs ins (gates c) rz = Some (m, s) /\
    (forall x, Ko c x -> im_get m x <> None) /\ numbered (wire_names pubs ins (gates c) rz) m.
Proof.
  intros HG Hok HA. assert (NDn : NoDup (pubs ++ fresh pubs ins ++ out_names (gates c))).
  { rewrite app_assoc. apply NoDup_app2.
    - exact (proj1 (numbered_inputs ins pubs _ (numbered_pubs pubs [] [] numbered_nil ND))).
    - apply out_names_NoDup. destruct HG as [_ [_ [HM [HD _]]]]. rewrite HM. now apply NoDup_rev.
    - intros x Hx Ho. apply (HA x).
      + rewrite in_app_iff in *. destruct Hx as [Hx|Hx]; auto. right. now apply fresh_sub in Hx.
      + apply in_rev. destruct HG as [_ [_ [HM _]]]. rewrite <- HM. now apply out_names_incl. }
  apply (build_defined pubs ins (gates c) rz ND) in NDn. destruct NDn as [[m s] E]. exists m, s. split; auto.
  destruct (system_names _ _ _ _ _ _ Hok E) as [Hm _]. split; auto.
  intros x Hx N. apply (numbered_none _ _ _ Hm) in N. apply N. unfold wire_names. rewrite !in_app_iff.
  destruct Hx as [Hx|Hx]; auto. specialize (HV x Hx). rewrite in_app_iff in HV. destruct HV as [H|H]; auto.
  destruct (fresh_in ins pubs x H); auto.
Qed.

Lemma known_of_in m c fs : (forall x, Ko c x -> im_get m x <> None) -> Forall (fac_in (Ko c)) fs -> known_ids m fs.
Proof. intros H F f Hf N. apply H. exact (proj1 (Forall_forall _ _) F f Hf N). Qed.

Lemma good_used m c tr g : Good c tr -> (forall x, Ko c x -> im_get m x <> None) -> In g (gates c) ->
  used_ids (wire_names pubs ins (gates c) rz) m g.
Proof.
  intros HG HK Hg. assert (HL := HG). destruct HL as [HI [_ [_ [_ [_ [HL HN]]]]]].
  assert (L := proj1 (Forall_forall _ _) HL g Hg). assert (N := proj1 (Forall_forall _ _) HN g Hg). cbn in N.
  destruct L as [A [B [C D]]]. assert (KK := Inv_kinds c tr HI). assert (T := proj1 (Forall_forall _ _) KK g Hg). cbn in T.
  unfold used_ids. destruct (gtyp g); try contradiction; repeat split; try (eapply known_of_in; eauto; fail).
  unfold wire_names. rewrite !in_app_iff. right. right. left. now apply out_names_in.
Qed.

Lemma good_r1cs c tr : Good c tr -> names_ok pubs ins (gates c) rz -> (forall x, In x (pubs ++ ins) -> ~ In x (known c)) ->
  (exists s, gates_to_r1cs pubs ins (gates c) rz = Some s) /\ (exists s, gates_to_sparse_r1cs q pubs ins (gates c) rz = Some s).
Proof.
  intros HG Hok HA. destruct (good_index c tr HG Hok HA) as [m [sp [E [HK Hm]]]]. unfold gates_to_r1cs, gates_to_sparse_r1cs. rewrite E.
  assert (Hs := wf_shape (wire_names pubs ins (gates c) rz) c tr HG).
  destruct (system_names _ _ _ _ _ _ Hok E) as [_ [H1' HO]].
  rewrite (numbered_length _ _ Hm).
  destruct (all_some_defined (gate_row m (List.length (wire_names pubs ins (gates c) rz))) (gates c)) as [rs E1].
  { apply Forall_forall. intros g Hg. apply (gate_row_defined _ m Hm H1'); [exact (proj1 (Forall_forall _ _) Hs g Hg)|eapply good_used; eauto]. }
  destruct (all_some_defined (sgate_row q m) (gates c)) as [rs' E2].
  { apply Forall_forall. intros g Hg. assert (S := proj1 (Forall_forall _ _) Hs g Hg).
    apply (sgate_row_defined _ m Hm H1' q g S); [eapply good_used; eauto|].
    intros T. assert (KK := Inv_kinds c tr (proj1 HG)). assert (T' := proj1 (Forall_forall _ _) KK g Hg). cbn in T'. rewrite T in T'. easy. }
  rewrite E1, E2. unfold with_rand. destruct rz; [|eauto].
  destruct (rand_names pubs ins (gates c)) as [J1 J2].
  assert (Kn : forall x, In x (wire_names pubs ins (gates c) true) -> known_ids m (wire x 1)).
  { intros x Hx f [<-|[]] _ N. cbn in N. apply (numbered_none _ _ _ Hm) in N. contradiction. }
  unfold rand_row, srand_row, vec.
  destruct (insert_values_defined _ m Hm H1' (wire rand_in 1) (zeros (List.length (wire_names pubs ins (gates c) true))) (zeros_length _) (Kn _ J1)) as [v1 F1].
  destruct (insert_values_defined _ m Hm H1' (wire rand_out 1) (zeros (List.length (wire_names pubs ins (gates c) true))) (zeros_length _) (Kn _ J2)) as [v2 F2].
  destruct (svec_sparse m q (wire rand_in 1) (Kn _ J1)) as [t1 [T1 _]].
  destruct (svec_sparse m q (wire rand_out 1) (Kn _ J2)) as [t2 [T2 _]].
  rewrite F1, F2, T1, T2. cbn [mk_row mk_srow]. eauto.
Qed.
End P.

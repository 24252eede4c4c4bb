(** Proofs about FactorModel. *)
Require Import ZArith Znumtheory Lia Bool Permutation Ascii String List.
Require Import Verif.Cong Verif.FqModel Verif.FqProofs Verif.FactorModel Verif.FactorSpec.
Import ListNotations.
Open Scope Z_scope.

Lemma ttype_eqb_eq a b : ttype_eqb a b = true <-> a = b.
Proof. destruct a, b; cbn; split; intros H; try reflexivity; try discriminate. Qed.
Lemma is_number_iff f : is_number f = true <-> ttyp (ftok f) = TNumber.
Proof. apply ttype_eqb_eq. Qed.
Lemma fac_val_number w f : is_number f = true -> fac_val w f = mult f.
Proof. rewrite is_number_iff. unfold fac_val. now intros ->. Qed.
Lemma fac_val_wire w f : is_number f = false -> fac_val w f = mult f * w (ident (ftok f)).
Proof.
  unfold is_number, fac_val. destruct (ttyp (ftok f)) eqn:E; cbn; try discriminate; intros; reflexivity.
Qed.
Lemma is_in_not_number f : is_in (ttyp (ftok f)) = true -> is_number f = false.
Proof. unfold is_number. destruct (ttyp (ftok f)); cbn; congruence. Qed.

Lemma lin_app w a b : lin w (a ++ b) = lin w a + lin w b.
Proof. induction a; cbn [app lin]; lia. Qed.
Lemma lin_perm w a b : Permutation a b -> lin w a = lin w b.
Proof. induction 1; cbn [lin]; lia. Qed.

Section Q.
Variable q : Z.

(** ** Addition *)
Lemma add_factor_val w l r s : add_factor q l r = Some s -> fac_val w s ==[q] fac_val w l + fac_val w r.
Proof.
  unfold add_factor, both_number. destruct (ttype_eqb (ttyp (ftok l)) TNumber) eqn:El;
    destruct (ttype_eqb (ttyp (ftok r)) TNumber) eqn:Er; cbn [andb].
  - intros H; injection H as <-. rewrite (fac_val_number w l El), (fac_val_number w r Er). cbn. apply fadd_cong.
  - destruct (ttype_eqb (ttyp (ftok l)) (ttyp (ftok r))) eqn:E; [|discriminate]. apply ttype_eqb_eq in E, El. rewrite <- E, El in Er. discriminate.
  - destruct (ttype_eqb (ttyp (ftok l)) (ttyp (ftok r))) eqn:E; [|discriminate]. apply ttype_eqb_eq in E, Er. rewrite E, Er in El. discriminate.
  - destruct (ttype_eqb (ttyp (ftok l)) (ttyp (ftok r))) eqn:E; [|discriminate].
    destruct (String.eqb_spec (ident (ftok l)) (ident (ftok r))) as [EI|]; [|discriminate].
    intros H; injection H as <-.
    rewrite (fac_val_wire w l El), (fac_val_wire w r Er), fac_val_wire by exact Er. cbn [ftok mult].
    rewrite EI, fadd_cong. apply cong_eq. ring.
Qed.
Lemma add_into_val w l : forall rs rs', add_into q l rs = Some rs' -> lin w rs' ==[q] fac_val w l + lin w rs.
Proof.
  induction rs as [|r rs IH]; intros rs' H; [discriminate|]. cbn [add_into] in H.
  destruct (add_factor q l r) as [s|] eqn:E.
  - injection H as <-. cbn [lin]. rewrite (add_factor_val w l r s E). apply cong_eq. ring.
  - destruct (add_into q l rs) as [rs1|]; [|discriminate]. injection H as <-. cbn [lin]. rewrite (IH rs1 eq_refl). apply cong_eq. ring.
Qed.
Lemma add_loop_val w : forall ls rs res rs', add_loop q ls rs = (res, rs') ->
  lin w res + lin w rs' ==[q] lin w ls + lin w rs.
Proof.
  induction ls as [|l ls IH]; intros rs res rs' H; cbn [add_loop] in H.
  - injection H as <- <-. reflexivity.
  - destruct (add_into q l rs) as [rs1|] eqn:E.
    + rewrite (IH rs1 res rs' H), (add_into_val w l rs rs1 E). cbn [lin]. apply cong_eq. ring.
    + destruct (add_loop q ls rs) as [res1 rs1] eqn:E2. injection H as <- <-. cbn [lin].
      rewrite <- Z.add_assoc, (IH rs res1 rs1 E2). apply cong_eq. ring.
Qed.
Lemma lin_filter w rs : lin w (filter (fun f => negb (mult f =? 0)) rs) = lin w rs.
Proof.
  induction rs as [|r rs IH]; [reflexivity|]. cbn [filter]. destruct (Z.eqb_spec (mult r) 0) as [E|E]; cbn [negb lin]; rewrite IH; auto.
  unfold fac_val. rewrite E. destruct (ttyp (ftok r)); lia.
Qed.
Lemma add_factors_val w l r : lin w (add_factors q l r) ==[q] lin w l + lin w r.
Proof.
  unfold add_factors. destruct (add_loop q l r) as [res rs] eqn:E.
  rewrite <- (add_loop_val w l r res rs E).
  assert (H : lin w (res ++ filter (fun f => negb (mult f =? 0)) rs) = lin w res + lin w rs)
    by now rewrite lin_app, lin_filter.
  destruct (res ++ _) as [|x l'] eqn:E'.
  - rewrite <- H. cbn. reflexivity.
  - now rewrite H.
Qed.
Lemma add_factors_nonempty l r : add_factors q l r <> [].
Proof. unfold add_factors. destruct (add_loop q l r). destruct (_ ++ _); discriminate. Qed.

(** ** Multiplication by a constant *)
Lemma mul_factor_val w l r f : (is_number l = true \/ is_number r = true) -> mul_factor q l r = Some f ->
  fac_val w f ==[q] fac_val w l * fac_val w r.
Proof.
  intros HN. unfold mul_factor.
  destruct (is_number l) eqn:Nl; destruct (is_in (ttyp (ftok r))) eqn:Ir; cbn [andb].
  - intros H; injection H as <-. assert (Nr := is_in_not_number r Ir).
    rewrite (fac_val_number w l Nl), (fac_val_wire w r Nr), fac_val_wire by exact Nr. cbn [mult ftok].
    rewrite fmul_cong. apply cong_eq. ring.
  - destruct (is_in (ttyp (ftok l))) eqn:Il; [apply is_in_not_number in Il; congruence|]. cbn [andb].
    unfold both_number. destruct (ttype_eqb (ttyp (ftok r)) TNumber) eqn:Er; [|discriminate].
    destruct (ttype_eqb (ttyp (ftok l)) TNumber) eqn:El; [|discriminate]. cbn [andb].
    intros H; injection H as <-. rewrite (fac_val_number w l El), (fac_val_number w r Er). cbn [fac_val ftok ttyp mult].
    rewrite fmul_cong. apply cong_eq. ring.
  - apply is_in_not_number in Ir. destruct HN as [HN|HN]; congruence.
  - destruct HN as [HN|Nr]; [congruence|]. rewrite Nr.
    destruct (is_in (ttyp (ftok l))) eqn:Il; cbn [andb].
    + intros H; injection H as <-. rewrite (fac_val_number w r Nr), (fac_val_wire w l Nl), fac_val_wire by exact Nl. cbn [mult ftok].
      rewrite fmul_cong. apply cong_eq. ring.
    + unfold both_number. unfold is_number in Nl. rewrite Nl, andb_false_r. discriminate.
Qed.
Lemma mul_rows_single w r : forall ls fs, (is_number r = true \/ Forall (fun l => is_number l = true) ls) ->
  mul_rows q ls [r] = Some fs -> lin w fs ==[q] lin w ls * fac_val w r.
Proof.
  induction ls as [|l ls IH]; intros fs HN H; cbn [mul_rows mul_row] in H.
  - injection H as <-. cbn [lin]. apply cong_eq. ring.
  - destruct (mul_factor q l r) as [f|] eqn:E; [|discriminate]. destruct (mul_rows q ls [r]) as [fs'|] eqn:E2; [|discriminate].
    injection H as <-. cbn [lin]. rewrite (IH fs'), (mul_factor_val w l r f); auto.
    + apply cong_eq. ring.
    + destruct HN as [HN|HN]; auto. inversion HN; auto.
    + destruct HN as [HN|HN]; auto. inversion HN; auto.
Qed.
Lemma single_number_inv f : is_single_number f = true -> exists x, f = [x] /\ is_number x = true.
Proof. destruct f as [|x [|y f]]; try discriminate. cbn. intros; exists x; auto. Qed.
Lemma mul_factors_val w l r f : (is_single_number l = true /\ r <> [] \/ is_single_number r = true /\ l <> []) ->
  mul_factors q l r = Some f -> lin w f ==[q] lin w l * lin w r.
Proof.
  unfold mul_factors. intros [[H Hne]|[H Hne]]; apply single_number_inv in H; destruct H as [x [-> Hx]].
  - destruct r as [|y [|z r]]; [easy| |]; cbn [List.length Nat.ltb Nat.leb].
    + intros E. rewrite (mul_rows_single w y [x] f); auto. cbn [lin]. apply cong_eq. ring.
    + intros E. rewrite (mul_rows_single w x (y :: z :: r) f); auto. cbn [lin]. apply cong_eq. ring.
  - destruct l as [|y l]; [easy|]. replace (Nat.ltb (List.length (y :: l)) (List.length [x])) with false.
    + intros E. rewrite (mul_rows_single w x (y :: l) f); auto. cbn [lin]. apply cong_eq. ring.
    + symmetry. apply Nat.ltb_ge. cbn. lia.
Qed.
(** It succeeds on factors over wires and numbers. *)
Definition plain (f : factor) : Prop := ttyp (ftok f) = TArgument \/ ttyp (ftok f) = TNumber.
Lemma mul_factor_some l r : plain l -> plain r -> (is_number l = true \/ is_number r = true) ->
  exists f, mul_factor q l r = Some f /\ plain f.
Proof.
  unfold plain, mul_factor, is_number, both_number. intros [Hl|Hl] [Hr|Hr]; rewrite Hl, Hr; cbn; intros HN.
  - destruct HN; discriminate.
  - eexists. split; [reflexivity|]. cbn. auto.
  - eexists. split; [reflexivity|]. cbn. auto.
  - eexists. split; [reflexivity|]. cbn. auto.
Qed.
Lemma mul_rows_some r : plain r -> forall ls, Forall plain ls -> (is_number r = true \/ Forall (fun l => is_number l = true) ls) ->
  exists fs, mul_rows q ls [r] = Some fs /\ Forall plain fs /\ List.length fs = List.length ls.
Proof.
  intros Hr. induction ls as [|l ls IH]; intros HP HN; [exists []; auto|]. inversion HP as [|? ? P1 P2]; subst.
  destruct IH as [fs [E [Pf Lf]]]; auto; [destruct HN as [HN|HN]; auto; inversion HN; auto|].
  destruct (mul_factor_some l r P1 Hr) as [f [Ef Pf']]; [destruct HN as [HN|HN]; auto; inversion HN; auto|].
  exists (f :: fs). cbn [mul_rows mul_row]. rewrite Ef, E. repeat split; auto. cbn. now rewrite Lf.
Qed.
Lemma mul_factors_some l r : Forall plain l -> Forall plain r ->
  (is_single_number l = true /\ r <> [] \/ is_single_number r = true /\ l <> []) ->
  exists f, mul_factors q l r = Some f /\ Forall plain f /\ f <> [].
Proof.
  unfold mul_factors. intros Hl Hr [[H Hne]|[H Hne]]; apply single_number_inv in H; destruct H as [x [-> Hx]].
  - inversion Hl; subst. destruct r as [|y [|z r]]; [easy| |]; cbn [List.length Nat.ltb Nat.leb].
    + inversion Hr; subst. destruct (mul_rows_some y H3 [x]) as [f [E [P L]]]; auto. exists f. split; auto. split; auto. now destruct f.
    + destruct (mul_rows_some x H1 (y :: z :: r)) as [f [E [P L]]]; auto. exists f. split; auto. split; auto. now destruct f.
  - inversion Hr; subst. destruct l as [|y l]; [easy|]. replace (Nat.ltb (List.length (y :: l)) (List.length [x])) with false.
    + destruct (mul_rows_some x H1 (y :: l)) as [f [E [P L]]]; auto. exists f. split; auto. split; auto. now destruct f.
    + symmetry. apply Nat.ltb_ge. cbn. lia.
Qed.

(** ** Negation, inversion *)
Lemma negate_val w f : lin w (negate_factors f) = - lin w f.
Proof.
  induction f as [|x f IH]; [reflexivity|]. cbn [negate_factors map lin]. fold (negate_factors f). rewrite IH.
  enough (fac_val w (Fac (if is_number x then Tok TNumber (dec (- mult x)) else ftok x) (- mult x)) = - fac_val w x) by lia.
  destruct (is_number x) eqn:E.
  - rewrite (fac_val_number w x E). reflexivity.
  - rewrite (fac_val_wire w x E). rewrite fac_val_wire by exact E. cbn [mult ftok]. ring.
Qed.
Lemma invert_val w f f' : prime q -> is_single_number f = true -> ~ lin w f ==[q] 0 -> invert_factors q f = Some f' ->
  is_single_number f' = true /\ lin w f * lin w f' ==[q] 1.
Proof.
  intros Hq HS. destruct (single_number_inv f HS) as [x [-> Hx]]. cbn [lin invert_factors]. rewrite (fac_val_number w x Hx), Z.add_0_r.
  intros Hnz. destruct (finv_prime q (mult x) Hq Hnz) as [i [E [_ HI]]]. rewrite E. intros H; injection H as <-.
  rewrite Hx. split; [reflexivity|]. cbn. rewrite Z.add_0_r. exact HI.
Qed.

(** ** Common factors *)
Lemma gcd_fold_divide : forall f g, (fold_left (fun g y => Z.gcd (mult y) g) f g | g) /\
  Forall (fun y => (fold_left (fun g y => Z.gcd (mult y) g) f g | mult y)) f.
Proof.
  induction f as [|y f IH]; intros g; cbn [fold_left]; [split; [apply Z.divide_refl|constructor]|].
  destruct (IH (Z.gcd (mult y) g)) as [A B]. split; [|constructor; auto].
  - eapply Z.divide_trans; [exact A|apply Z.gcd_divide_r].
  - eapply Z.divide_trans; [exact A|apply Z.gcd_divide_l].
Qed.
Lemma gcd_of_divide f g : gcd_of f = Some g -> Forall (fun y => (g | mult y)) f.
Proof.
  destruct f as [|x f]; [discriminate|]. cbn [gcd_of]. intros H; injection H as <-.
  destruct (gcd_fold_divide f (mult x)) as [A B]. constructor; auto.
Qed.
Lemma gcd_fold_zero f : forall g, fold_left (fun g y => Z.gcd (mult y) g) f g = 0 <-> g = 0 /\ Forall (fun y => mult y = 0) f.
Proof.
  induction f as [|y f IH]; intros g; cbn [fold_left].
  - split; [intros ->; split; auto|tauto].
  - rewrite IH. split.
    + intros [A B]. apply Z.gcd_eq_0 in A. destruct A. split; auto.
    + intros [-> H]. inversion H; subst. rewrite H2. split; [reflexivity|auto].
Qed.
Lemma extract_gcd_some f : (exists r, extract_gcd f = Some r) <-> Exists (fun y => mult y <> 0) f.
Proof.
  unfold extract_gcd. destruct f as [|x f]; cbn [gcd_of].
  - split; [intros [r H]; discriminate|intros H; inversion H].
  - destruct (Z.eqb_spec (fold_left (fun g y => Z.gcd (mult y) g) f (mult x)) 0) as [E|E].
    + split; [intros [r H]; discriminate|]. intros H. apply gcd_fold_zero in E. destruct E as [E1 E2].
      inversion H; subst; [easy|]. apply Exists_exists in H1. destruct H1 as [y [Hy Hn]]. rewrite Forall_forall in E2. now apply E2 in Hy.
    + split; [|intros _; eauto]. intros _. apply neg_Forall_Exists_neg; [intros y; apply Z.eq_dec|].
      intros H. apply E. apply gcd_fold_zero. inversion H; auto.
Qed.
Lemma extract_gcd_val w f f' g : extract_gcd f = Some (f', g) -> g <> 0 /\ g * lin w f' = lin w f.
Proof.
  unfold extract_gcd. destruct (gcd_of f) as [g0|] eqn:E; [|discriminate]. destruct (Z.eqb_spec g0 0) as [|Hg]; [discriminate|].
  intros H; injection H as <- <-. split; auto. assert (D := gcd_of_divide f g0 E). clear E.
  induction D as [|y f [k Hk] D IH]; cbn [map lin]; [ring|]. rewrite Z.mul_add_distr_l, IH.
  enough (g0 * fac_val w (Fac (ftok y) (mult y / g0)) = fac_val w y) by lia.
  unfold fac_val. cbn [ftok mult]. rewrite Hk, Z.div_mul by auto. destruct (ttyp (ftok y)); ring.
Qed.
Lemma extract_gcd_plain f f' g : extract_gcd f = Some (f', g) -> Forall plain f -> Forall plain f'.
Proof.
  unfold extract_gcd. destruct (gcd_of f); [|discriminate]. destruct (z =? 0); [discriminate|].
  intros H; injection H as <- <-. induction 1; constructor; auto.
Qed.

Variable sort : factors -> factors.
Hypothesis sort_perm : forall l, Permutation (sort l) l.

Lemma factor_signature_val w f g f' : factor_signature sort f = Some (g, f') -> g <> 0 /\ g * lin w f' = lin w f.
Proof.
  unfold factor_signature. destruct (extract_gcd f) as [[f1 g1]|] eqn:E; [|discriminate]. intros H; injection H as <- <-.
  rewrite (lin_perm w _ _ (sort_perm f1)). now apply extract_gcd_val.
Qed.
Lemma extract_constant_val w l r k l' r' : extract_constant sort q l r = Some (k, l', r') ->
  k * lin w l' * lin w r' ==[q] lin w l * lin w r.
Proof.
  unfold extract_constant. destruct (factor_signature sort l) as [[gl l1]|] eqn:El; [|discriminate].
  destruct (factor_signature sort r) as [[gr r1]|] eqn:Er; [|discriminate]. intros H; injection H as <- <- <-.
  destruct (factor_signature_val w l gl l1 El) as [_ <-]. destruct (factor_signature_val w r gr r1 Er) as [_ <-].
  rewrite fmul_cong. apply cong_eq. ring.
Qed.
Lemma extract_constant_some l r : (exists x, extract_constant sort q l r = Some x) <->
  Exists (fun y => mult y <> 0) l /\ Exists (fun y => mult y <> 0) r.
Proof.
  rewrite <- !extract_gcd_some. unfold extract_constant, factor_signature. split.
  - intros [x H]. destruct (extract_gcd l) as [[]|]; [|discriminate]. destruct (extract_gcd r) as [[]|]; [|discriminate]. eauto.
  - intros [[[a b] ->] [[c d] ->]]. eauto.
Qed.
End Q.

(** ** The collector *)
Section Kept.
Variable sort : factors -> factors.
Hypothesis sort_perm : forall l, Permutation (sort l) l.
Variable hash : string -> Z.

Lemma with_id_lin w g g' : with_id sort hash g = Some g' ->
  gtyp g' = gtyp g /\ lin w (gleft g') = lin w (gleft g) /\ lin w (gright g') = lin w (gright g) /\
  lin w (gexp g') = lin w (gexp g) /\ lin w (gout g') = lin w (gout g) /\ grep g' = grep g.
Proof.
  unfold with_id, set_id. destruct (gid g); [|intros H; injection H as <-; tauto].
  destruct (prefix16 _) as [i|]; [|discriminate]. intros H; injection H as <-. cbn.
  rewrite !(lin_perm w _ _ (sort_perm _)). tauto.
Qed.

Lemma collect_inv c g fin c' i : collect sort hash c g fin = Some (c', i) ->
  exists g', with_id sort hash g = Some g' /\ gid g' = i /\
    (c' = c /\ In i (known c) \/ c' = Coll (gates c ++ [fin g']) (i :: known c) /\ ~ In i (known c)).
Proof.
  unfold collect. destruct (with_id sort hash g) as [g'|]; [|discriminate]. unfold contains.
  destruct (existsb (String.eqb (gid g')) (known c)) eqn:E; intros H; injection H as <- <-; exists g'; (split; [reflexivity|split; [reflexivity|]]).
  - left. split; auto. apply existsb_exists in E. destruct E as [x [Hx Ex]]. apply String.eqb_eq in Ex. now subst.
  - right. split; auto. intros Hi. assert (X : existsb (String.eqb (gid g')) (known c) = true).
    { apply existsb_exists. exists (gid g'). split; auto. apply String.eqb_refl. } congruence.
Qed.
End Kept.

(** When the operations of the language are defined on factor lists. *)
Require Import ZArith Znumtheory Lia Bool Ascii String List Permutation.
Require Import Verif.Cong Verif.SparseModel Verif.FqModel Verif.FqProofs Verif.FactorModel Verif.FactorSpec Verif.FactorProofs Verif.PropsFactor Verif.ExprModel Verif.ExprSpec Verif.ExprProofs Verif.PropsExpr
  Verif.LangSpec Verif.LangSym.
Import ListNotations.
Local Open Scope string_scope.
Local Open Scope list_scope.
Local Open Scope nat_scope.
(** Specification.  Sums and differences always; a product or a quotient needs factor lists from which a
    common factor can be taken out, unless a single number is involved; a divisor must not vanish mod q
    (a single number 0 is let through, see C57). *)
Definition not_all_zero (f : factors) : Prop := Exists (fun x => mult x <> 0%Z) f.
Definition not_all_multiples (q : Z) (f : factors) : Prop := Exists (fun x => ~ (q | mult x)%Z) f.
Definition op_defined (q : Z) (o : string) (l r : factors) : Prop :=
  if String.eqb o "*" then is_single_number l = true \/ is_single_number r = true \/ not_all_zero l /\ not_all_zero r
  else if String.eqb o "/" then
    if is_single_number r then not_all_zero r -> not_all_multiples q r else not_all_zero l /\ not_all_multiples q r
  else True.
Section Ops.
Variable sort : factors -> factors.
Variable hash : string -> Z.
Variable q : Z.
Hypothesis Hq : prime q.
Hypothesis Long : forall a b c, 16 <= String.length (dec (Z.lxor (hash a + hash b) (hash c))).
Lemma collect_total c g fin : gid g = "" -> exists r, collect sort hash c g fin = Some r.
Proof.
  intros E. unfold collect, with_id. rewrite E. unfold set_id, prefix16, hash_factors.
  rewrite (proj2 (Nat.ltb_ge _ _) (Long _ _ _)). destruct (contains _ _); eauto.
Qed.
Lemma row_total a l r : fac_ok q l -> Forall (fac_ok q) r -> Forall (fun y => is_number l = true \/ is_number y = true) r -> exists f, mul_row q a l r = Some f.
Proof.
  intros Hl. revert a. induction r as [|y r IH]; intros a Hr N; cbn [mul_row]; [eauto|]. inversion Hr; subst. inversion N; subst.
  assert (E : exists f, mul_factor q l y = Some f).
  { unfold mul_factor, is_number in *. destruct Hl as [[T _]|[T _]], H1 as [[U _]|[U _]]; rewrite T, U in *; cbn [ttype_eqb is_in both_number andb] in *; eauto. destruct H3; discriminate. }
  destruct E as (f & E). rewrite E. apply IH; auto.
Qed.
Lemma rows_total l r : Forall (fac_ok q) l -> Forall (fac_ok q) r -> Forall (fun x => Forall (fun y => is_number x = true \/ is_number y = true) r) l -> exists f, mul_rows q l r = Some f.
Proof.
  intros Hl Hr. induction l as [|x l IH]; intros N; cbn [mul_rows]; [eauto|]. inversion Hl; subst. inversion N; subst.
  destruct (row_total x x r H1 Hr H3) as (f & ->). destruct (IH H2 H4) as (g & ->). eauto.
Qed.
Lemma mul_total l r : Forall (fac_ok q) l -> Forall (fac_ok q) r -> is_single_number l = true \/ is_single_number r = true -> exists f, mul_factors q l r = Some f.
Proof.
  intros Hl Hr S. assert (N : Forall (fun x => Forall (fun y => is_number x = true \/ is_number y = true) r) l).
  { apply Forall_forall. intros x Hx. apply Forall_forall. intros y Hy. destruct S as [S|S]; unfold is_single_number in S.
    - destruct l as [|a [|b l]]; try discriminate. destruct Hx as [<-|[]]. auto.
    - destruct r as [|a [|b r]]; try discriminate. destruct Hy as [<-|[]]. auto. }
  unfold mul_factors. destruct (Nat.ltb _ _).
  - apply rows_total; auto. rewrite Forall_forall in *. intros y Hy. apply Forall_forall. intros x Hx. assert (X := N x Hx). rewrite Forall_forall in X. specialize (X y Hy). tauto.
  - apply rows_total; auto.
Qed.
Lemma signature_some f : (exists x, factor_signature sort f = Some x) <-> not_all_zero f.
Proof.
  unfold not_all_zero. rewrite <- extract_gcd_some. unfold factor_signature. destruct (extract_gcd f) as [[a b]|]; split; intros [x H]; try discriminate; eauto.
Qed.
Lemma signature_gcd f g f' : factor_signature sort f = Some (g, f') -> gcd_of f = Some g /\ g <> 0%Z.
Proof. unfold factor_signature, extract_gcd. destruct (gcd_of f) as [a|]; [|discriminate]. destruct (Z.eqb_spec a 0); [discriminate|]. intros H. injection H as <- _. auto. Qed.
Lemma gcd_multiple f g : gcd_of f = Some g -> ((q | g)%Z <-> Forall (fun x => (q | mult x)%Z) f).
Proof.
  intros E. split.
  - intros D. assert (X := gcd_of_divide f g E). rewrite Forall_forall in *. intros x Hx. eapply Z.divide_trans; [exact D|]. now apply X.
  - destruct f as [|x f]; [discriminate|]. cbn [gcd_of] in E. injection E as <-. intros F. inversion F as [|? ? H1 H2]; subst. clear F.
    generalize dependent (mult x). intros a Ha. clear x. revert a Ha. induction f as [|y f IH]; intros a Ha; cbn [fold_left]; auto.
    inversion H2; subst. apply IH; auto. apply Z.gcd_greatest; auto.
Qed.
Lemma invertible a : (exists i, finv q a = Some i) <-> (a <> 0%Z -> ~ (q | a)%Z).
Proof.
  split.
  - intros [i E] N D. rewrite finv_multiple in E; auto; [discriminate|]. now apply cong_0_iff.
  - intros H. destruct (Z.eq_dec a 0) as [->|N]; [rewrite finv_0; eauto|]. destruct (finv_prime q a Hq) as (i & E & _); eauto. rewrite cong_0_iff. auto.
Qed.
Lemma op_total c o l r : In o ["+"; "-"; "*"; "/"] -> good q l -> good q r -> ((exists c' f, compile_op sort hash q c o l r = Some (c', f)) <-> op_defined q o l r).
Proof.
  intros I (Nl & Fl & _) (Nr & Fr & _). unfold op_defined, compile_op.
  destruct I as [<-|[<-|[<-|[<-|[]]]]]; cbn [String.eqb Ascii.eqb Bool.eqb]; try solve [split; [auto|intros _; eauto]].
  - destruct (is_single_number l || is_single_number r) eqn:S.
    + apply orb_true_iff in S. destruct (mul_total l r Fl Fr S) as (f & ->). split; [intros _; destruct S; auto|eauto].
    + apply orb_false_iff in S. destruct S as [-> ->]. unfold compile_mul, extract_constant. rewrite <- !signature_some. split.
      * intros (c' & f & H). right. right. destruct (factor_signature sort l) as [[]|]; [|discriminate]. destruct (factor_signature sort r) as [[]|]; [|discriminate]. eauto.
      * intros [H|[H|[[[a l'] ->] [[b r'] ->]]]]; try discriminate.
        destruct (collect_total c (Gate GMul "" l' r' [] [] false no_token) (fun g => Gate (gtyp g) (gid g) (gleft g) (gright g) (gexp g) (wire (gid g) 1) (gnonew g) (grep g)) eq_refl) as ([c' i] & ->). eauto.
  - destruct (is_single_number r) eqn:S.
    + destruct r as [|y [|z r]]; try discriminate. cbn [invert_factors is_single_number] in *.
      assert (K : (not_all_zero [y] -> not_all_multiples q [y]) <-> exists i, finv q (mult y) = Some i).
      { rewrite invertible. unfold not_all_zero, not_all_multiples. split; intros H.
        - intros N. assert (X : Exists (fun x => ~ (q | mult x)%Z) [y]) by (apply H; left; exact N). inversion X as [? ? X1|? ? X1]; [exact X1|inversion X1].
        - intros X. left. apply H. inversion X as [? ? X1|? ? X1]; [exact X1|inversion X1]. }
      rewrite K. split.
      * intros (c' & f & H). destruct (finv q (mult y)); [eauto|discriminate].
      * intros [i ->]. unfold is_number. rewrite S. destruct (mul_total l [Fac (Tok TNumber (dec i)) i] Fl) as (f & ->); eauto. constructor; [|constructor]. left. split; [reflexivity|].
        exists i. split; [|reflexivity]. cbn [ftok ident]. apply set_string_dec.
    + unfold compile_div. split.
      * intros (c' & f & H). destruct (factor_signature sort l) as [[gl l']|] eqn:El; [|discriminate]. destruct (factor_signature sort r) as [[gr r']|] eqn:Er; [|discriminate].
        split; [apply signature_some; eauto|]. unfold fdiv in H. destruct (finv q gr) eqn:Ei; [|discriminate].
        assert (X := proj1 (invertible gr) (ex_intro _ _ Ei)). destruct (signature_gcd r gr r' Er) as [G N]. apply neg_Forall_Exists_neg; [intros x; apply Zdivide_dec|].
        rewrite <- (gcd_multiple r gr G). auto.
      * intros [Zl Zr]. assert (Nz : not_all_zero r).
        { unfold not_all_zero, not_all_multiples in *. apply Exists_exists in Zr. destruct Zr as (x & Hx & D). apply Exists_exists. exists x. split; auto. intros E. apply D. rewrite E. apply Z.divide_0_r. }
        apply signature_some in Zl, Nz. destruct Zl as ([gl l'] & ->), Nz as ([gr r'] & Er). rewrite Er. destruct (signature_gcd r gr r' Er) as [G N].
        assert (D : ~ (q | gr)%Z). { rewrite (gcd_multiple r gr G). intros F. apply Exists_exists in Zr. destruct Zr as (x & Hx & D). rewrite Forall_forall in F. exact (D (F x Hx)). }
        destruct (proj2 (invertible gr) (fun _ => D)) as (i & Ei). unfold fdiv. rewrite Ei.
        destruct (collect_total c (Gate GMul "" [] r' [] l' false no_token) (fun g => Gate (gtyp g) (gid g) (wire (gid g) 1) (gright g) (gexp g) (gout g) (gnonew g) (grep g)) eq_refl) as ([c' j] & ->). eauto.
Qed.
Lemma traced_total {A} (x : A) g tr : gid g = "" -> exists t, traced (Some x) (with_id sort hash g) tr = Some (x, t).
Proof.
  intros E. unfold with_id. rewrite E. unfold set_id, prefix16, hash_factors. rewrite (proj2 (Nat.ltb_ge _ _) (Long _ _ _)). cbn [traced]. eauto.
Qed.
Lemma dop_total s o l r : In o ["+"; "-"; "*"; "/"] -> good q l -> good q r ->
  ((exists v s', dop (sym sort hash q) o s l r v s') <-> op_defined q o l r).
Proof.
  intros I Gl Gr. rewrite <- (op_total (fst s) o l r I Gl Gr). cbn [dop sym]. unfold compile_op_tr. split.
  - intros (v & s' & H). destruct (compile_op _ _ _ _ _ _ _) as [[c f]|]; [eauto|discriminate].
  - intros (c & f & E). exists f. enough (X : exists t, compile_op_tr sort hash q (fst s) o l r (snd s) = Some (c, f, t)) by (destruct X as (t & X); exists (c, t); exact X).
    unfold compile_op_tr. rewrite E. unfold compile_op in E. destruct I as [<-|[<-|[<-|[<-|[]]]]]; cbn [String.eqb Ascii.eqb Bool.eqb andb] in *; eauto.
    + destruct (is_single_number l || is_single_number r); cbn [negb]; eauto. unfold compile_mul in E. destruct (extract_constant sort q l r) as [[[k l'] r']|]; [|discriminate]. now apply traced_total.
    + destruct (is_single_number r); cbn [negb]; eauto. unfold compile_div in E.
      destruct (factor_signature sort l) as [[gl l']|]; [|discriminate]. destruct (factor_signature sort r) as [[gr r']|]; [|discriminate]. now apply traced_total.
Qed.
End Ops.

(** Compiling a program that has a meaning over factor lists does not get stuck: with enough fuel the
    interpreter finishes, or stops at a shared big.Int ([Alias]). *)
Require Import ZArith Lia Bool Ascii String List Wf_nat.
Require Import Verif.FqModel Verif.FactorModel Verif.ExprModel Verif.ParserModel Verif.CircuitModel Verif.LangSpec Verif.LangHeap Verif.LangSym Verif.LangTree Verif.LangScope
  Verif.LangLater Verif.LangRun Verif.LangField.
Import ListNotations.
Local Open Scope string_scope.
Local Open Scope list_scope.
Local Open Scope nat_scope.

(** ** Enough fuel *)
Definition lands {A} (x : nat -> res A) (P : A -> Prop) : Prop :=
  exists n0, (exists a, P a /\ forall n, n0 <= n -> x n = Done a) \/ (forall n, n0 <= n -> x n = Alias).
Lemma lands_ext {A} (x y : nat -> res A) P : (forall n, x n = y n) -> lands y P -> lands x P.
Proof. intros H (n0 & [(a & Pa & E)|E]); exists n0; [left; exists a; split; auto|right]; intros n L; rewrite H; auto. Qed.
Lemma lands_S {A} (x : nat -> res A) P : lands (fun n => x (S n)) P -> lands x P.
Proof.
  intros (n0 & [(a & Pa & E)|E]); exists (S n0); [left; exists a; split; auto|right]; intros [|n] L; try lia; apply E; lia.
Qed.
Lemma lands_done {A} (a : A) (P : A -> Prop) : P a -> lands (fun _ => Done a) P.
Proof. intros H. exists 0. left. exists a. auto. Qed.
Lemma lands_alias {A} (P : A -> Prop) : lands (fun _ => Alias) P.
Proof. exists 0. now right. Qed.
Lemma lands_bind {A B} (x : nat -> res A) (f : nat -> A -> res B) P Q : lands x P ->
  (forall a n, P a -> x n = Done a -> lands (fun n => f n a) Q) -> lands (fun n => bind (x n) (f n)) Q.
Proof.
  intros (n0 & [(a & Pa & E)|E]) H.
  - destruct (H a n0 Pa (E n0 ltac:(lia))) as (n1 & [(b & Pb & F)|F]); exists (Nat.max n0 n1); [left; exists b; split; auto|right];
      intros n L; rewrite E by lia; cbn; apply F; lia.
  - exists n0. right. intros n L. rewrite E by lia. reflexivity.
Qed.
Lemma lands_pure {A B} (e : res A) a (f : nat -> A -> res B) Q : e = Done a -> lands (fun n => f n a) Q -> lands (fun n => bind e (f n)) Q.
Proof. intros -> H. exact H. Qed.
Lemma lands_mono {A} (x : nat -> res A) (P Q : A -> Prop) : lands x P -> (forall a n, P a -> x n = Done a -> Q a) -> lands x Q.
Proof.
  intros (n0 & [(a & Pa & E)|E]) H; exists n0; [left; exists a; split; auto|now right]. eapply H; [exact Pa|apply (E n0); lia].
Qed.

Lemma lands_pred {A} (x : nat -> res A) P : lands x P -> lands (fun n => x (S n)) P.
Proof. intros (n0 & [(a & Pa & E)|E]); exists n0; [left; exists a; split; auto|right]; intros n L; apply E; lia. Qed.

(** ** Objects that can be copied *)
Inductive cpa (k : nat) (h : heap) : nat -> Prop :=
| cpa_intro : forall a o ts, k <= a -> nth_error h a = Some o -> ftasks o = Some ts -> (forall x b, In (x, b) (ffuns o) -> cpa k h b) -> cpa k h a.
Definition Cp (h : heap) : Prop := forall a, a < List.length h -> cpa 0 h a.
Lemma cpa_agree k h h' a : (forall b o, k <= b -> nth_error h b = Some o -> nth_error h' b = Some o) -> cpa k h a -> cpa k h' a.
Proof. intros G. induction 1 as [a o ts L N T _ IH]. econstructor; eauto. Qed.
Lemma cpa_older k h h' a : older h h' -> cpa k h a -> cpa k h' a.
Proof. intros O. apply cpa_agree. intros. eapply older_nth; eauto. Qed.
Lemma cpa_le k k' h a : k' <= k -> cpa k h a -> cpa k' h a.
Proof. intros L. induction 1 as [a o ts L1 N T _ IH]. econstructor; eauto. lia. Qed.
Lemma vobj_cpa k h a f : vobj k h a f -> cpa k h a.
Proof.
  induction 1 as [a x o L N I F C Nm T|a x y f o a1 a2 L N I C Nm F Ne T V1 IH1 V2 IH2].
  - assert (X : exists ts, ftasks (factor_function x) = Some ts).
    { unfold factor_function. destruct (is_number x); [eexists; reflexivity|]. destruct (mult x =? 1)%Z; eexists; reflexivity. }
    destruct X as [ts X]. econstructor; [exact L|exact N|rewrite T; exact X|rewrite F; intros ? ? []].
  - econstructor; [exact L|exact N|exact T|]. rewrite F. intros z b [[= <- <-]|[[= <- <-]|[]]]; auto.
Qed.
Lemma cp_alloc h o ts : Cp h -> ftasks o = Some ts -> (forall x b, In (x, b) (ffuns o) -> b < List.length h) -> Cp (h ++ [o]).
Proof.
  intros C T F a L. rewrite app_length in L. cbn in L.
  assert (Old : forall b, b < List.length h -> cpa 0 (h ++ [o]) b) by (intros b Lb; apply (cpa_older _ h); [apply older_app|auto]).
  destruct (Nat.eq_dec a (List.length h)) as [->|Ne]; [|apply Old; lia].
  econstructor; [lia|apply nth_last|exact T|]. intros x b I. apply Old. eauto.
Qed.
Lemma cp_store h a o o' ts : Cp h -> nth_error h a = Some o -> ftasks o' = Some ts ->
  (forall x b, In (x, b) (ffuns o') -> (exists y, In (y, b) (ffuns o)) \/ cpa (S a) h b) -> Cp (store h a o').
Proof.
  intros C N T F c L. rewrite store_length in L. assert (Lt := nth_lt _ _ _ N).
  assert (Ag : forall b, cpa (S a) h b -> cpa 0 (store h a o') b).
  { intros b Hb. apply (cpa_le (S a)); [lia|]. eapply cpa_agree; [|exact Hb]. intros d od Ld Nd. rewrite nth_store_ne by lia. exact Nd. }
  specialize (C c L). clear L. induction C as [c oc tc Lc Nc Tc Sub IH]. destruct (Nat.eq_dec a c) as [<-|Ne].
  - rewrite N in Nc. injection Nc as <-. econstructor; [lia|now apply nth_store_eq|exact T|]. intros x b I. destruct (F x b I) as [[y J]|J]; eauto.
  - econstructor; [lia|rewrite nth_store_ne by auto; exact Nc|exact Tc|]. eauto.
Qed.
Lemma in_set_at {A} x (a : A) m y b : In (y, b) (set_at x a m) -> b = a \/ In (y, b) m.
Proof.
  induction m as [|[z d] m IH]; cbn; [intros [[= <- <-]|[]]; auto|]. destruct (String.eqb x z); cbn.
  - intros [[= <- <-]|I]; auto.
  - intros [I|I]; auto. destruct (IH I); auto.
Qed.
Lemma cp_assign h o ob x b h' : Cp h -> nth_error h o = Some ob -> cpa (S o) h b -> set_fun h o x b = Done h' -> Cp h'.
Proof.
  intros C N V E. rewrite (set_fun_store _ _ _ _ _ _ E N). assert (Lt := nth_lt _ _ _ N). destruct (C o Lt) as [o' oo ts _ N' T _]. rewrite N in N'. injection N' as <-.
  eapply cp_store; [exact C|exact N|exact T|]. unfold assigned. cbn [with_funs ffuns]. intros y d I. apply in_set_at in I. destruct I as [->|I]; eauto.
Qed.

(** ** Copies *)
Lemma copy_lands k h a : cpa k h a -> forall h0 ctx, older h h0 -> Cp h0 ->
  lands (fun n => flat_copy_in n h0 a ctx) (fun p => Cp (fst p) /\ cpa (List.length h0) (fst p) (snd p)).
Proof.
  induction 1 as [a o ts L N T Sub IH]. intros h0 ctx O C. apply lands_S. cbn [flat_copy_in].
  eapply lands_pure; [unfold fetch; rewrite (older_nth _ _ _ _ O N); reflexivity|]. cbn [alloc].
  set (c := List.length h0). set (h1 := h0 ++ [_]).
  assert (C1 : Cp h1) by (eapply cp_alloc; [exact C|reflexivity|intros ? ? []]).
  assert (O1 : older h0 h1) by apply older_app.
  assert (L1 : List.length h1 = S c) by (unfold h1; rewrite app_length; cbn; unfold c; lia).
  assert (G : forall m, (forall x b, In (x, b) m -> In (x, b) (ffuns o)) -> forall h2, older h1 h2 -> Cp h2 ->
      lands (fun n => copy_funs (flat_copy_in n) h2 c m) (fun p => Cp (fst p) /\ older h2 (fst p) /\ forall x b, In (x, b) (snd p) -> cpa (S c) (fst p) b)).
  { induction m as [|[x b] m IHm]; intros Hm h2 O2 C2; cbn [copy_funs].
    - apply lands_done. cbn. split; auto. split; [apply older_refl|]. intros ? ? [].
    - eapply lands_bind; [eapply (IH x b); [apply Hm; now left| |exact C2]|].
      { eapply older_trans; [exact O|]. eapply older_trans; [exact O1|exact O2]. }
      intros [h3 b'] n [C3 V3] E3. cbn [fst snd] in *. destruct (flat_copy_shape _ _ _ _ _ _ E3) as (O3 & _).
      eapply lands_bind; [apply (IHm (fun y d I => Hm y d (or_intror I)) h3); [eapply older_trans; eauto|exact C3]|].
      intros [h4 m'] n' (C4 & O4 & V4) _. cbn [fst snd] in *. apply lands_done. cbn [fst snd]. split; auto. split; [eapply older_trans; eauto|].
      intros y d [[= <- <-]|I]; [|eauto]. apply (cpa_le (List.length h2)); [apply older_length in O2; lia|]. eapply cpa_older; eauto. }
  eapply lands_bind; [apply G; [auto|apply older_refl|exact C1]|]. intros [h2 m] n (C2 & O2 & V2) _. cbn [fst snd] in *.
  rewrite T. cbn [get bind]. apply lands_done. cbn [fst snd].
  assert (N2 : nth_error h2 c = Some (FObj (fname o) None (finputs o) ctx [] (Some []) (fcons o))) by (eapply older_nth; [exact O2|apply nth_last]).
  split.
  - eapply cp_store; [exact C2|exact N2|reflexivity|]. cbn [ffuns]. intros x b I. right. eauto.
  - econstructor; [auto|apply nth_store_eq; eapply nth_lt; exact N2|reflexivity|]. cbn [ffuns]. intros x b I.
    apply (cpa_le (S c)); [fold c; lia|]. eapply cpa_agree; [|eauto]. intros d od Ld Nd. rewrite nth_store_ne by lia. exact Nd.
Qed.
Lemma copy_at_lands h a o : Cp h -> nth_error h a = Some o ->
  lands (fun n => flat_copy n h a) (fun p => Cp (fst p) /\ cpa (List.length h) (fst p) (snd p)).
Proof.
  intros C N. unfold flat_copy. eapply lands_pure; [unfold fetch; rewrite N; reflexivity|]. eapply copy_lands; [apply C; eapply nth_lt; eauto|apply older_refl|exact C].
Qed.

(** ** Values *)
Lemma factor_tasks x : exists ts, ftasks (factor_function x) = Some ts /\ ffuns (factor_function x) = [].
Proof. unfold factor_function. destruct (is_number x); [eexists; split; reflexivity|]. destruct (mult x =? 1)%Z; eexists; split; reflexivity. Qed.
Lemma cp_factor h x : Cp h -> Cp (h ++ [factor_function x]).
Proof. intros C. destruct (factor_tasks x) as (ts & T & F). eapply cp_alloc; [exact C|exact T|]. rewrite F. intros ? ? []. Qed.
Lemma function_total q : forall f h, f <> [] -> Cp h -> exists h' a, factors_function q h f = Done (h', a) /\ Cp h' /\ a < List.length h' /\ older h h'.
Proof.
  induction f as [|x f IH]; intros h Ne C; [easy|]. destruct f as [|y f].
  - eexists _, _. split; [reflexivity|]. split; [now apply cp_factor|]. split; [rewrite app_length; cbn; lia|apply older_app].
  - remember (y :: f) as g eqn:Eg. cbn [factors_function]. rewrite Eg. rewrite <- Eg. cbn [alloc].
    destruct (IH (h ++ [factor_function x])) as (h2 & b & E & C2 & Lb & O2); [now rewrite Eg|now apply cp_factor|]. rewrite E. cbn [bind].
    assert (La : List.length h < List.length h2) by (apply older_length in O2; rewrite app_length in O2; cbn in O2; lia).
    assert (Oh : older h h2) by (eapply older_trans; [apply older_app|exact O2]).
    unfold combine_functions, fetch. destruct (nth_error h2 (List.length h)) as [oa|] eqn:Na; [|apply nth_error_None in Na; lia].
    destruct (nth_error h2 b) as [ob|] eqn:Nb; [|apply nth_error_None in Nb; lia]. cbn [get bind].
    assert (X : forall o ts, ftasks o = Some ts -> (forall z d, In (z, d) (ffuns o) -> d < List.length h2) ->
       exists h' a, Done (alloc h2 o) = Done (h', a) /\ Cp h' /\ a < List.length h' /\ older h h').
    { intros o ts T F. eexists _, _. split; [reflexivity|]. split; [eapply cp_alloc; eauto|]. split; [rewrite app_length; cbn; lia|].
      eapply older_trans; [exact Oh|apply older_app]. }
    assert (Y : exists h' a, Done (alloc h2 (FObj "" None [] None (set_at (fname ob) b (set_at (fname oa) (List.length h) []))
                     (Some [ret_of [leaf (Tok TArith "+"); call_of (fname oa); call_of (fname ob)]]) [])) = Done (h', a) /\ Cp h' /\ a < List.length h' /\ older h h').
    { eapply X; [reflexivity|]. cbn [ffuns]. intros z d I. apply in_set_at in I. destruct I as [->|I]; auto. cbn in I. destruct I as [[= <- <-]|[]]. auto. }
    destruct (fnum oa); [|exact Y]. destruct (fnum ob); [|exact Y]. cbn zeta. destruct (factor_tasks (Fac (Tok TNumber (dec (fadd q z z0))) (fadd q z z0))) as (ts & T & F).
    eapply X; [exact T|]. rewrite F. intros ? ? [].
Qed.
Lemma function_new q h f h' a : factors_function q h f = Done (h', a) -> good q f -> distinct_names f -> cpa (List.length h) h' a.
Proof.
  intros E (N & F & C) D. destruct (factors_function_vobj q h f h' a E N C D) as (_ & V & _).
  { eapply Forall_impl; [|exact F]. intros x Hx. now apply fac_ok_name in Hx. }
  now apply vobj_cpa in V.
Qed.
Lemma arguments_total q : forall rs h, Forall (good q) (map (fun r => strip (rvals r)) rs) -> Forall distinct_names (map (fun r => strip (rvals r)) rs) -> Cp h ->
  exists args h2, argument_functions q rs h = Done (args, h2) /\ Cp h2 /\ older h h2 /\ Forall (cpa (List.length h) h2) args.
Proof.
  induction rs as [|r rs IH]; intros h G D C; cbn [argument_functions].
  - exists [], h. repeat split; auto. apply older_refl.
  - cbn [map] in *. inversion G as [|? ? G1 G2]; inversion D as [|? ? D1 D2]; subst.
    destruct (function_total q (strip (rvals r)) h) as (h1 & a & E1 & C1 & La & O1); [apply G1|auto|].
    assert (E1' : match strip (rvals r), rfun r with [], Some a => Done (h, a) | f, _ => factors_function q h f end = Done (h1, a)).
    { destruct (strip (rvals r)); [destruct G1 as [G1 _]; easy|exact E1]. }
    rewrite E1'. cbn [bind]. destruct (IH h1 G2 D2 C1) as (args & h2 & E2 & C2 & O2 & F2). rewrite E2. cbn [bind].
    exists (a :: args), h2. split; auto. split; auto. split; [eapply older_trans; eauto|]. constructor.
    + eapply cpa_older; [exact O2|]. eapply function_new; eauto.
    + eapply Forall_impl; [|exact F2]. intros b. apply cpa_le. now apply older_length.
Qed.
Lemma load_none h c o : nth_error h c = Some o -> finputs o = [] -> gets_loaded_with h c [] = Done (h, true).
Proof.
  intros N I. unfold gets_loaded_with, fetch. rewrite N. cbn [get bind]. rewrite I. cbn [List.length Nat.ltb Nat.leb load_inputs bind Nat.eqb].
  rewrite N. cbn [get bind]. rewrite with_inputs_nil by auto. now rewrite store_same.
Qed.

(** ** The meaning is a function *)
Record functional (D : domain) : Prop := {
  f_num : forall x v v', dnum D x v -> dnum D x v' -> v' = v;
  f_read : forall u v v', dread D u v -> dread D u v' -> v' = v;
  f_op : forall o s a b v s1 v' s1', dop D o s a b v s1 -> dop D o s a b v' s1' -> v' = v /\ s1' = s1;
  f_base : forall s a v s1 v' s1', dbase D s a v s1 -> dbase D s a v' s1' -> v' = v /\ s1' = s1;
  f_equal : forall s a b s1 s1', dequal D s a b s1 -> dequal D s a b s1' -> s1' = s1;
  f_cmp : forall o a b t t', dcmp D o a b t -> dcmp D o a b t' -> t' = t;
  f_elem : forall u v v', delem D u v -> delem D u v' -> v' = v;
  f_index : forall v i i', dindex D v i -> dindex D v i' -> i' = i }.
Section Functional.
Variable D : domain.
Variable fs : defs.
Hypothesis F : functional D.
Ltac same := repeat match goal with
  | IH : forall v s, ev D fs ?m ?s0 ?e v s -> _, H : ev D fs ?m ?s0 ?e _ _ |- _ => destruct (IH _ _ H) as [? ?]; clear IH; subst
  | IH : forall v s, evs D fs ?m ?s0 ?e v s -> _, H : evs D fs ?m ?s0 ?e _ _ |- _ => destruct (IH _ _ H) as [? ?]; clear IH; subst
  | IH : forall v s, call D fs ?s0 ?f ?vs v s -> _, H : call D fs ?s0 ?f ?vs _ _ |- _ => destruct (IH _ _ H) as [? ?]; clear IH; subst
  | IH : forall m1 r b s1, xs D fs ?m ?s ?t m1 r b s1 -> _, H : xs D fs ?m ?s ?t _ _ _ _ |- _ => destruct (IH _ _ _ _ H) as (? & ? & ? & ?); clear IH; subst
  | IH : forall m1 r s1, xb D fs ?m ?s ?t m1 r s1 -> _, H : xb D fs ?m ?s ?t _ _ _ |- _ => destruct (IH _ _ _ H) as (? & ? & ?); clear IH; subst
  | IH : forall l, idxs D fs ?m ?es l -> _, H : idxs D fs ?m ?es _ |- _ => assert (X := IH _ H); clear IH; subst
  | IH : forall b, test D fs ?m ?c b -> _, H : test D fs ?m ?c _ |- _ => assert (X := IH _ H); clear IH; try discriminate X; subst
  end.
Lemma sem_functional :
  (forall m s e v s1, ev D fs m s e v s1 -> forall v' s1', ev D fs m s e v' s1' -> v' = v /\ s1' = s1) /\
  (forall m s es vs s1, evs D fs m s es vs s1 -> forall vs' s1', evs D fs m s es vs' s1' -> vs' = vs /\ s1' = s1) /\
  (forall s f vs r s1, call D fs s f vs r s1 -> forall r' s1', call D fs s f vs r' s1' -> r' = r /\ s1' = s1) /\
  (forall m s t m1 r b s1, xs D fs m s t m1 r b s1 -> forall m1' r' b' s1', xs D fs m s t m1' r' b' s1' -> m1' = m1 /\ r' = r /\ b' = b /\ s1' = s1) /\
  (forall m s B m1 r s1, xb D fs m s B m1 r s1 -> forall m1' r' s1', xb D fs m s B m1' r' s1' -> m1' = m1 /\ r' = r /\ s1' = s1) /\
  (forall m c b, test D fs m c b -> forall b', test D fs m c b' -> b' = b) /\
  (forall m es l, idxs D fs m es l -> forall l', idxs D fs m es l' -> l' = l).
Proof using F.
  apply sem_ind.
  - intros m s x v H v' s1' E. inversion E; subst. split; auto. eapply f_num; eauto.
  - intros m s x u v Fx R v' s1' E. inversion E; subst. assert (u0 = u) by congruence. subst. split; auto. eapply f_read; eauto.
  - intros m s o a b s1 va s2 vb v s3 _ IHa _ IHb O v' s1' E. inversion E; subst. same. eapply f_op; eauto.
  - intros m s a va s1 v s2 _ IHa O v' s1' E. inversion E; subst. same. eapply f_base; eauto.
  - intros m s f args vs s1 v s2 _ IHa _ IHc v' s1' E. inversion E; subst. same. split; congruence.
  - intros m s a es l u v _ IH Fx Re v' s1' E. inversion E; subst. same. assert (u0 = u) by congruence. subst. split; auto. eapply f_elem; eauto.
  - intros m s vs' s1' E. inversion E; subst. auto.
  - intros m s e v s1 es vs s2 _ IHe _ IHs vs' s1' E. inversion E; subst. same. auto.
  - intros s f ps body vs m r s1 Ff L _ IH r' s1' E. inversion E; subst. rewrite Ff in H. injection H as <- <-. same. auto.
  - intros m s x e v s1 _ IH m1' r' b' s1' E. inversion E; subst. same. auto.
  - intros m s x e v s1 _ IH _ m1' r' b' s1' E. inversion E; subst. same. auto.
  - intros m s a b va s1 vb s2 s3 _ IHa _ IHb O m1' r' b' s1' E. inversion E; subst. same. repeat split; auto. eapply f_equal; eauto.
  - intros m s f args vs s1 r s2 _ IHa _ IHc m1' r' b' s1' E. inversion E; subst. same. auto.
  - intros m s e v s1 _ IH m1' r' b' s1' E. inversion E; subst. same. auto.
  - intros m s c x e body _ IH m1' r' b' s1' E. inversion E; subst; same. auto.
  - intros m s c x e body m1 s1 v s2 m2 s3 _ IHt _ IHb _ IHe _ _ IHf m1' r' b' s1' E. inversion E; subst; same. auto.
  - intros m s c body _ IH m1' r' b' s1' E. inversion E; subst; same. auto.
  - intros m s c body m1 r s1 _ IHt _ IHb m1' r' b' s1' E. inversion E; subst; same. auto.
  - intros m s x m1' r' b' s1' E. inversion E; subst. auto.
  - intros m s a es e l v s1 _ IHi _ IH _ m1' r' b' s1' E. inversion E; subst. same. auto.
  - intros m s x m1' r' b' s1' E. inversion E; subst. auto.
  - intros m s m1' r' s1' E. inversion E; subst. auto.
  - intros m s t ts m1 v s1 _ IH m1' r' s1' E. inversion E; subst; same; auto. discriminate.
  - intros m s t ts m1 v s1 m2 r s2 _ IH _ IHb m1' r' s1' E. inversion E; subst; same; auto. discriminate.
  - intros m c va s1 vb s2 b _ IHa _ IHb O b' E. inversion E; subst. same. eapply f_cmp; eauto.
  - intros m l' E. inversion E; subst. auto.
  - intros m e v s1 i es l _ IHe Di _ IHi l' E. inversion E; subst. same. f_equal; auto. eapply f_index; eauto.
Qed.
End Functional.

Section P.
Variable sort : factors -> factors.
Variable hash : string -> Z.
Variable q : Z.
Variable fs : defs.
Notation compile := (compile sort hash q).
Notation operate := (operate sort hash q).
Notation good := (good q).
Notation sym := (sym sort hash q).
Notation chain := (chain q fs).
Notation world := (world fs).
Hypothesis Pok : prog_ok fs.

Lemma sym_functional : functional sym.
Proof.
  split; cbn.
  - intros x v v' (z & b & E & ->) (z' & b' & E' & ->). rewrite E in E'. now injection E' as <- <-.
  - intros u v v'. unfold read_as. destruct (is_single_number u); [destruct u; [easy|now intros -> ->]|]. intros -> [= ->]. reflexivity.
  - intros o [c t] a b v [c1 t1] v' [c1' t1'] E E'. cbn in *. rewrite E in E'. injection E' as <- <- <-. auto.
  - intros [c t] a v [c1 t1] v' [c1' t1'] (E & g & G & T) (E' & g' & G' & T'). cbn in *. rewrite E in E'. injection E' as <- <-. rewrite G in G'. injection G' as <-. subst. auto.
  - intros [c t] a b [c1 t1] [c1' t1'] (E & g & G & T) (E' & g' & G' & T'). cbn in *. rewrite E in E'. injection E' as <-. rewrite G in G'. injection G' as <-. subst. auto.
  - intros o a b t t' (x & y & -> & -> & _ & _ & E) (x' & y' & [= <-] & [= <-] & _ & _ & E'). rewrite E in E'. now injection E' as <-.
  - intros u v v' R R'. congruence.
  - intros v i i' (x & -> & _ & E) (x' & [= <-] & _ & E'). congruence.
Qed.

(** The meaning over factor lists, with values whose factors have different names only. *)
Definition strict : domain := {|
  dval := factors; drec := collector * list gate;
  dnum := dnum sym;
  dread := fun u v => dread sym u v /\ distinct_names v;
  delem := fun u v => delem sym u v /\ distinct_names v;
  dindex := dindex sym;
  dop := fun o s a b v s' => dop sym o s a b v s' /\ distinct_names v;
  dbase := dbase sym; dequal := dequal sym; dcmp := dcmp sym; dnew := dnew sym; ddone := ddone sym |}.
Lemma strict_sym :
  (forall m s e v s1, ev strict fs m s e v s1 -> ev sym fs m s e v s1) /\
  (forall m s es vs s1, evs strict fs m s es vs s1 -> evs sym fs m s es vs s1) /\
  (forall s f vs r s1, call strict fs s f vs r s1 -> call sym fs s f vs r s1) /\
  (forall m s t m1 r b s1, xs strict fs m s t m1 r b s1 -> xs sym fs m s t m1 r b s1) /\
  (forall m s B m1 r s1, xb strict fs m s B m1 r s1 -> xb sym fs m s B m1 r s1) /\
  (forall m c b, test strict fs m c b -> test sym fs m c b) /\
  (forall m es l, idxs strict fs m es l -> idxs sym fs m es l).
Proof.
  apply sem_ind; intros.
  - now apply (ev_num sym).
  - eapply (ev_var sym); [eassumption|apply H0].
  - eapply (ev_bin sym); [eassumption|eassumption|apply H3].
  - eapply (ev_base sym); eauto.
  - eapply (ev_call sym); eauto.
  - eapply (ev_idx sym); [eassumption|eassumption|apply H2].
  - apply (evs_nil sym).
  - eapply (evs_cons sym); eauto.
  - eapply (call_fun sym); eauto.
  - now apply (xs_decl sym).
  - now apply (xs_assign sym).
  - eapply (xs_equal sym); eauto.
  - eapply (xs_do sym); eauto.
  - now apply (xs_return sym).
  - now apply (xs_for_end sym).
  - eapply (xs_for sym); eauto.
  - now apply (xs_if_not sym).
  - eapply (xs_if sym); eauto.
  - apply (xs_public sym).
  - eapply (xs_set sym); eauto.
  - apply (xs_array sym).
  - apply (xb_nil sym).
  - eapply (xb_return sym); eauto.
  - eapply (xb_cons sym); eauto.
  - eapply (test_cmp sym); eauto.
  - apply (idxs_nil sym).
  - eapply (idxs_cons sym); eauto.
Qed.
Lemma single_distinct x : distinct_names [x].
Proof. constructor; [intros []|constructor]. Qed.
Lemma strict_distinct :
  (forall m s e v s1, ev strict fs m s e v s1 -> distinct_names v) /\
  (forall m s es vs s1, evs strict fs m s es vs s1 -> Forall distinct_names vs) /\
  (forall s f vs r s1, call strict fs s f vs r s1 -> all_opt distinct_names r) /\
  (forall m s t m1 r b s1, xs strict fs m s t m1 r b s1 -> all_opt distinct_names r) /\
  (forall m s B m1 r s1, xb strict fs m s B m1 r s1 -> all_opt distinct_names r) /\
  (forall m c b, test strict fs m c b -> True) /\
  (forall m es l, idxs strict fs m es l -> True).
Proof.
  apply sem_ind; intros; cbn [all_opt]; auto.
  - destruct H as (z & b & _ & ->). apply single_distinct.
  - apply H0.
  - apply H3.
  - destruct H1 as (E & _). unfold compile_base in E. destruct (collect _ _ _ _ _) as [[c2 i]|]; [|discriminate]. injection E as _ <-. apply single_distinct.
  - apply H2.
Qed.

(** ** Lookups *)
Definition Q (st : state) : Prop := Cp (sheap st) /\ Forall distinct_names (sstored st).
Lemma find_var_total {A} (fld : fobj -> list (string * A)) ns L h fr x :
  (forall o, In x (keys (fcons o)) -> In x (keys (ffuns o)) -> lookup x (fld o) <> None) ->
  (name_ok x -> forall fo, fcons fo = [] -> blind (ffuns fo) -> lookup x (fld fo) = None) ->
  chain ns L h fr -> forall a m fr' n, fr = (a, m) :: fr' -> In x (keys (env_of fr)) -> a < n -> exists w, find_in n fld h (Some a) x = Done w.
Proof using Type.
  intros Hf Hb. induction 1 as [a o m La Pa N C F|a o m c p mp fr Ch IH N C Se Lt F D]; intros a' m' fr' n [= <- <- <-] I Ln;
    (destruct n as [|n]; [lia|]); cbn [find_in]; unfold fetch; rewrite N; cbn [get bind].
  - cbn in I. destruct (frame_names _ _ _ _ _ _ _ F I) as (Ic & _). assert (If := frame_entry _ _ _ _ _ _ _ F I).
    specialize (Hf o Ic If). destruct (lookup x (fld o)); [eauto|easy].
  - destruct (lookup x (fld o)) eqn:E; [eauto|]. rewrite C.
    change (env_of ((a, m) :: (p, mp) :: fr)) with (env_of ((p, mp) :: fr) ++ m) in I. rewrite keys_app, in_app_iff in I.
    destruct I as [I|I].
    + destruct (chain_names _ _ _ _ _ _ _ Ch I) as [Nx _]. destruct Se as [->|[Lp (fo & Nf & Cf & Kf & Bf)]].
      * eapply IH; eauto. lia.
      * destruct n as [|n]; [lia|]. cbn [find_in]. unfold fetch. rewrite Nf. cbn [get bind]. rewrite Hb, Cf by auto. eapply IH; eauto. lia.
    + destruct (frame_names _ _ _ _ _ _ _ F I) as (Ic & _). assert (If := frame_entry _ _ _ _ _ _ _ F I). exfalso. now apply (Hf o Ic If).
Qed.
Lemma find_global_total ns L h fr x : name_ok x -> find_at x fs <> None -> x <> "main" -> world h ->
  chain ns L h fr -> forall a m fr' n, fr = (a, m) :: fr' -> a < n -> exists w, find_in n ffuns h (Some a) x = Done w.
Proof using Type.
  intros Nx Fx Nm (g & Ng & _ & Wg). destruct (find_at x fs) as [d|] eqn:Ex; [|easy]. destruct (Wg x d Ex Nm) as (b & Lb & _).
  induction 1 as [a o m La Pa N C F|a o m c p mp fr Ch IH N C Se Lt F D]; intros a' m' fr' n [= <- <- <-] Ln;
    (destruct n as [|n]; [lia|]); cbn [find_in]; unfold fetch; rewrite N; cbn [get bind].
  all: (destruct (lookup x (ffuns o)); [eauto|]; rewrite C).
  - destruct n as [|n]; [lia|]. cbn [find_in]. unfold fetch. rewrite Ng. cbn [get bind]. rewrite Lb. eauto.
  - destruct Se as [->|[Lp (fo & Nf & Cf & Kf & Bf)]].
    + eapply IH; eauto. lia.
    + destruct n as [|n]; [lia|]. cbn [find_in]. unfold fetch. rewrite Nf. cbn [get bind]. rewrite (Bf x Nx), Cf. eapply IH; eauto. lia.
Qed.
Lemma see_total {A} (fld : fobj -> list (string * A)) h cur p x : sees h cur p -> p < List.length h ->
  (forall fo, fcons fo = [] -> blind (ffuns fo) -> lookup x (fld fo) = None) ->
  (forall n, p < n -> exists w, find_in n fld h (Some p) x = Done w) -> exists w, find_in (S (List.length h)) fld h (Some cur) x = Done w.
Proof using Type.
  intros [->|[Lp (fo & Nf & Cf & Kf & Bf)]] Ln Hb H; [apply H; lia|]. assert (Lc := nth_lt _ _ _ Nf). destruct (List.length h) as [|k]; [lia|].
  change (find_in (S (S k)) fld h (Some cur) x) with (ob <- fetch h cur ;; match lookup x (fld ob) with Some v => Done (Some (cur, v)) | None => find_in (S k) fld h (fctx ob) x end).
  unfold fetch. rewrite Nf. cbn [get bind]. rewrite Hb, Cf by auto. apply H. lia.
Qed.
Lemma chain_len ns L h a m fr : chain ns L h ((a, m) :: fr) -> a < List.length h.
Proof using Type. intros Ch. destruct (chain_head _ _ _ _ _ _ _ _ Ch) as (o & N & _). eapply nth_lt; eauto. Qed.
Lemma var_fun ns L h a m fr cur x u : chain ns L h ((a, m) :: fr) -> sees h cur a -> find_at x (env_of ((a, m) :: fr)) = Some u ->
  exists o b, find_fun h cur x = Done (Some (o, b)) /\ stored_at h b u /\ good u.
Proof using Type.
  intros Ch Se Hu. assert (Ix := find_in_keys _ _ _ Hu). destruct (chain_names _ _ _ _ _ _ _ Ch Ix) as [Nx _].
  destruct (see_total ffuns h cur a x Se (chain_len _ _ _ _ _ _ Ch) (fun fo => blind_funs x fo Nx)) as [w Ew].
  { intros n Ln. eapply (find_var_total ffuns ns L h); eauto using blind_funs. intros o _ I. rewrite lookup_find_at. apply find_at_in. exact I. }
  destruct (find_sees _ _ _ _ _ _ _ (fun fo => blind_funs x fo Nx) Se Ew) as [n1 Ew1].
  destruct (chain_find_fun q fs ns L _ _ Ch a m fr x u n1 w eq_refl Hu Ew1) as (o & b & -> & Sb & Gu). exists o, b. auto.
Qed.
Lemma var_con ns L h a m fr cur x : chain ns L h ((a, m) :: fr) -> sees h cur a -> In x (keys (env_of ((a, m) :: fr))) ->
  exists o, find_con h cur x = Done (Some (o, call_of x)).
Proof using Type.
  intros Ch Se Ix. destruct (chain_names _ _ _ _ _ _ _ Ch Ix) as [Nx _].
  destruct (see_total fcons h cur a x Se (chain_len _ _ _ _ _ _ Ch) (fun fo => blind_cons x fo Nx)) as [w Ew].
  { intros n Ln. eapply (find_var_total fcons ns L h); eauto using blind_cons. intros o I _. rewrite lookup_find_at. apply find_at_in. exact I. }
  destruct (find_sees _ _ _ _ _ _ _ (fun fo => blind_cons x fo Nx) Se Ew) as [n1 Ew1].
  destruct (chain_find_con q fs ns L _ _ Ch a m fr x n1 w eq_refl Ix Ew1) as (o & ->). exists o. auto.
Qed.
Lemma global_fun ns L h a m fr cur f d : chain ns L h ((a, m) :: fr) -> sees h cur a -> world h -> find_at f fs = Some d -> f <> "main" ->
  exists af o, find_fun h cur f = Done (Some (0, af)) /\ nth_error h af = Some o /\ tree h af (Some 0) (fparams d) (fbody d).
Proof.
  intros Ch Se W Fd Nm. destruct (find_fun_ok fs Pok _ _ Fd) as (Nf & _).
  assert (Nn : find_at f fs <> None) by (rewrite Fd; discriminate).
  destruct (see_total ffuns h cur a f Se (chain_len _ _ _ _ _ _ Ch) (fun fo => blind_funs f fo Nf)) as [w Ew].
  { intros n Ln. eapply (find_global_total ns L h); eauto. }
  destruct (find_sees _ _ _ _ _ _ _ (fun fo => blind_funs f fo Nf) Se Ew) as [n1 Ew1].
  destruct (chain_find_global q fs ns L _ _ Ch a m fr f n1 w eq_refl Nf Nn Ew1) as [n2 Ew2].
  destruct W as (g & Ng & Cg & Wg). destruct (Wg f d Fd Nm) as (af & Laf & Tf).
  destruct n2 as [|n2]; [discriminate|]. cbn [find_in] in Ew2. unfold fetch in Ew2. rewrite Ng in Ew2. cbn [get bind] in Ew2. rewrite Laf in Ew2. injection Ew2 as <-.
  inversion Tf as [? ? ? ? o ts N]; subst. exists af, o. auto.
Qed.

(** ** Reading a value *)
Definition RUN (f : factors) : Prop := forall st a o ts, vobj 0 (sheap st) a f -> nth_error (sheap st) a = Some o -> ftasks o = Some ts -> Cp (sheap st) ->
  lands (fun n => run_tasks (compile n a) ts st) (fun p => Cp (sheap (snd p))).
Lemma call_value f : RUN f -> forall cur x a b st, ~ In x reserved -> find_fun (sheap st) cur x = Done (Some (b, a)) -> vobj 0 (sheap st) a f -> Cp (sheap st) ->
  lands (fun n => compile n cur (call_of x) st) (fun p => Cp (sheap (snd p))).
Proof using Type.
  intros R cur x a b st N F V C. apply lands_S. eapply lands_ext; [intros n; unfold call_of, leaf; now apply step_call|]. unfold user_call.
  eapply lands_pure; [exact F|]. assert (No : exists o, nth_error (sheap st) a = Some o) by (destruct V; eauto). destruct No as (o & No).
  eapply lands_bind; [eapply copy_at_lands; eauto|]. intros [h1 c] n [C1 V1] E1. cbn [fst snd] in *.
  unfold flat_copy in E1. apply bind_inv in E1. destruct E1 as (ob & Eo & Ec).
  destruct (flat_copy_vobj _ _ _ _ V _ _ _ _ _ (older_refl _) Ec) as (O & -> & V2 & o2 & No2 & _).
  cbn [comp_all bind argument_functions with_heap sheap map]. destruct (vobj_name _ _ _ _ _ V2 No2) as (_ & Fi & _).
  eapply lands_pure; [eapply load_none; eauto|]. cbn beta iota zeta.
  eapply lands_pure; [unfold fetch; rewrite No2; reflexivity|]. cbn beta. inversion V1 as [? o3 ts Lc N3 T3 ?]; subst. rewrite No2 in N3. injection N3 as <-.
  eapply lands_pure; [rewrite T3; reflexivity|]. cbn beta.
  eapply lands_bind; [eapply R; cbn [sheap stored with_heap]; [eapply vobj_le; [|exact V2]; lia|exact No2|exact T3|exact C1]|].
  intros [r st'] n' C' _. apply lands_done. exact C'.
Qed.
Lemma run_one x : fac_ok q x -> RUN [x].
Proof using Type.
  intros Gx st a o ts V N Et C. inversion V as [? ? o' _ No _ _ _ _ T|]; subst a0 x0. rewrite N in No. injection No as <-. rewrite Et in T.
  revert T. unfold factor_function. destruct Gx as [[Tn (z & Sz & _)]|[Ta [Ne Nr]]].
  - assert (In1 : is_number x = true) by (unfold is_number; now rewrite Tn). rewrite In1. cbn [ftasks token_function with_tasks].
    destruct x as [[tt i] m]; cbn [ftok ttyp ident] in *. subst tt. intros [= ->]. apply lands_S, lands_S.
    eapply lands_ext; [|apply (lands_done (Ret [(Fac (Tok TNumber i) (z mod q), false)] true None, st)); exact C].
    intros n. cbn [run_tasks]. unfold ret_of, leaf. rewrite step_return, step_number. unfold string_to_field. rewrite Sz. reflexivity.
  - assert (In0 : is_number x = false) by (unfold is_number; now rewrite Ta). rewrite In0.
    destruct x as [[tt i] m]; cbn [ftok ttyp ident mult] in *. subst tt. destruct (m =? 1)%Z eqn:Em; cbn [ftasks token_function with_tasks]; intros [= ->]; apply lands_S, lands_S.
    + eapply lands_ext; [|apply (lands_done (Ret (plain (wire i 1)) true None, st)); exact C]. intros n. reflexivity.
    + eapply lands_ext; [|apply (lands_done (Ret (plain [Fac (Tok TArgument i) (fmul q 1 (m mod q))]) true None, st)); exact C].
      intros n. cbn [run_tasks]. unfold ret_of, leaf. rewrite step_return3 by (cbn; tauto). rewrite step_number. unfold string_to_field. rewrite set_string_dec. reflexivity.
Qed.
Lemma run_value f : Forall (fac_ok q) f -> RUN f.
Proof using Type.
  induction f as [|x f IH]; intros G st a o ts V N Et C; [apply vobj_nonempty in V; easy|].
  inversion G as [|? ? Gx Gf]; subst x0 l. destruct f as [|y f]; [eapply run_one; eauto|].
  inversion V as [|? ? ? ? o' a1 a2 _ No _ _ _ Fu Ne T V1 V2]; subst a0 x0 y0 f0. rewrite N in No. injection No as <-. rewrite Et in T. injection T as ->.
  destruct (fac_ok_name q x Gx) as [Nx1 Nx2].
  assert (Nr : ~ In (rest_name (y :: f)) reserved).
  { unfold rest_name. destruct f; [|cbn; intuition discriminate]. inversion Gf; subst. now apply (fac_ok_name q). }
  assert (Fa : find_fun (sheap st) a (ident (ftok x)) = Done (Some (a, a1))).
  { unfold find_fun. cbn [find_in]. unfold fetch. rewrite N. cbn [get bind]. rewrite Fu. cbn. now rewrite String.eqb_refl. }
  assert (Fb : forall h', older (sheap st) h' -> find_fun h' a (rest_name (y :: f)) = Done (Some (a, a2))).
  { intros h' O. unfold find_fun. cbn [find_in]. unfold fetch. rewrite (older_nth _ _ _ _ O N). cbn [get bind]. rewrite Fu. cbn [lookup].
    destruct (String.eqb_spec (rest_name (y :: f)) (ident (ftok x))) as [Q0|_]; [now symmetry in Q0|]. now rewrite String.eqb_refl. }
  apply lands_S. cbn [run_tasks].
  eapply lands_bind with (P := fun p => Cp (sheap (snd p)) /\ rflag (fst p) = true).
  2: { intros [r st'] n [C' Fl] _. cbn [fst snd] in *. rewrite Fl. apply lands_done. exact C'. }
  eapply lands_ext; [intros n; unfold ret_of, leaf; apply step_return3; cbn; tauto|].
  eapply lands_bind; [apply (call_value [x] (run_one x Gx) a _ _ _ _ Nx2 Fa V1 C)|]. intros [r1 st1] n1 C1 E1. cbn [fst snd] in *.
  destruct (call_vobj sort hash q [x] (runs_one sort hash q x Gx) _ _ _ _ _ _ _ _ Nx2 Fa V1 E1) as (fa & _ & Va & _ & Oa & _).
  eapply lands_bind; [apply (call_value (y :: f) (IH Gf) a _ _ _ st1 Nr (Fb _ Oa) (vobj_older _ _ _ _ _ Oa V2) C1)|]. intros [r2 st2] n2 C2 E2. cbn [fst snd] in *.
  unfold CircuitModel.operate. change (String.eqb "+" "+") with true. cbn beta iota. cbn [bind]. apply lands_done. cbn. auto.
Qed.

(** ** Operations *)
Lemma operate_total st o l r v s' : good (strip l) -> good (strip r) -> In o ["+"; "-"; "*"; "/"] -> dop sym o (record_of st) (strip l) (strip r) v s' ->
  (exists p, operate st o l r = Done p) \/ operate st o l r = Alias.
Proof using Type.
  intros Gl Gr I. unfold CircuitModel.operate. cbn [dop LangSym.sym]. unfold record_of, compile_op_tr. cbn [fst snd].
  destruct I as [<-|[<-|[<-|[<-|[]]]]]; cbn [String.eqb Ascii.eqb Bool.eqb andb].
  - eauto.
  - intros _. destruct (shared r); eauto.
  - assert (Cl : compile_op sort hash q (scoll st) "*" (strip l) (strip r) = if is_single_number (strip l) || is_single_number (strip r)
       then match mul_factors q (strip l) (strip r) with Some f => Some (scoll st, f) | None => None end else compile_mul sort hash q (scoll st) (strip l) (strip r)) by reflexivity.
    rewrite Cl. clear Cl. destruct (is_single_number (strip l) || is_single_number (strip r)) eqn:Es; cbn [negb].
    + destruct l as [|lx l]; [destruct Gl as [Gl _]; now destruct Gl|]. destruct r as [|rx r]; [destruct Gr as [Gr _]; now destruct Gr|].
      destruct (mul_factors q (strip (lx :: l)) (strip (rx :: r))) as [f|]; [|discriminate]. cbn. eauto.
    + destruct (compile_mul sort hash q (scoll st) (strip l) (strip r)) as [[c f]|]; [|discriminate]. cbn [get bind].
      destruct (extract_constant sort q (strip l) (strip r)) as [[[k l'] r']|]; [|discriminate].
      unfold submit. destruct (with_id sort hash _) as [g|]; [|discriminate]. cbn. eauto.
  - assert (Cl : compile_op sort hash q (scoll st) "/" (strip l) (strip r) = if is_single_number (strip r)
       then match invert_factors q (strip r) with
         | Some i => match mul_factors q (strip l) i with Some f => Some (scoll st, f) | None => None end
         | None => None
         end else compile_div sort hash q (scoll st) (strip l) (strip r)) by reflexivity.
    rewrite Cl. clear Cl. destruct (is_single_number (strip r)) eqn:Es; cbn [negb].
    + destruct (invert_factors q (strip r)) as [i|]; [|discriminate]. destruct (mul_factors q (strip l) i) as [f|]; [|discriminate]. cbn. eauto.
    + destruct (compile_div sort hash q (scoll st) (strip l) (strip r)) as [[c f]|]; [|discriminate]. cbn [get bind].
      destruct (factor_signature sort (strip l)) as [[gl l']|]; [|discriminate]. destruct (factor_signature sort (strip r)) as [[gr r']|]; [|discriminate].
      unfold submit. destruct (with_id sort hash _) as [g|]; [|discriminate]. cbn. eauto.
Qed.

(** ** What compiling reaches *)
Definition FE (st : state) (v : factors) (s1 : collector * list gate) (p : ret * state) : Prop :=
  Q (snd p) /\ strip (rvals (fst p)) = v /\ record_of (snd p) = s1 /\ good v /\ rflag (fst p) = false /\ older (sheap st) (sheap (snd p)).
Definition FA (st : state) (vs : list factors) (s1 : collector * list gate) (p : list ret * state) : Prop :=
  Q (snd p) /\ map (fun r => strip (rvals r)) (fst p) = vs /\ record_of (snd p) = s1 /\ Forall good vs /\ older (sheap st) (sheap (snd p)).
Definition FS ns (st : state) a (mm : list (string * factors)) fr L t m1 r b (s1 : collector * list gate) (p : ret * state) : Prop :=
  Q (snd p) /\ opt (strip (rvals (fst p))) = r /\ rflag (fst p) = b /\ record_of (snd p) = s1 /\
  exists mm' fr', env_of ((a, mm') :: fr') = m1 /\ chain ns L (sheap (snd p)) ((a, mm') :: fr') /\ same_frames fr fr' /\ keys mm' = keys mm ++ decls [t] /\
    keeps L (sheap st) (sheap (snd p)).
Definition FB ns (st : state) a fr L m1 r (s1 : collector * list gate) (p : ret * state) : Prop :=
  Q (snd p) /\ opt (strip (rvals (fst p))) = r /\ record_of (snd p) = s1 /\ (rflag (fst p) = true <-> strip (rvals (fst p)) <> []) /\
  exists mm' fr', env_of ((a, mm') :: fr') = m1 /\ chain ns L (sheap (snd p)) ((a, mm') :: fr') /\ same_frames fr fr' /\
    keeps L (sheap st) (sheap (snd p)).
Definition load_run (n nxt : nat) (args : list nat) (vs : list factors) (st : state) : res (ret * state) :=
  '(h3, ready) <- gets_loaded_with (sheap st) nxt args ;;
  let st3 := stored (with_heap st h3) vs in
  if ready then
    ob <- fetch h3 nxt ;; ts <- get (ftasks ob) ;;
    '(r, st4) <- run_tasks (compile n nxt) ts st3 ;; Done (Ret (rvals r) false (rfun r), st4)
  else Done (Ret [] false (Some nxt), st3).
Notation QQ := (fun p => Q (snd p)).

Definition PEv (m : list (string * factors)) s e v s1 : Prop := forall ns c cur st a mm fr L,
  enc e c -> chain ns L (sheap st) ((a, mm) :: fr) -> env_of ((a, mm) :: fr) = m -> sees (sheap st) cur a -> world (sheap st) ->
  exp_ok fs ns (keys m) e -> record_of st = s -> Q st -> lands (fun n => compile n cur c st) (FE st v s1).
Definition PEvs (m : list (string * factors)) s es vs s1 : Prop := forall ns cs cur st a mm fr L,
  encs es cs -> chain ns L (sheap st) ((a, mm) :: fr) -> env_of ((a, mm) :: fr) = m -> sees (sheap st) cur a -> world (sheap st) ->
  Forall (exp_ok fs ns (keys m)) es -> record_of st = s -> Q st -> lands (fun n => comp_all (compile n cur) cs st) (FA st vs s1).
Definition PCall (s : collector * list gate) f vs (r : option factors) (s1 : collector * list gate) : Prop := forall d st hb c args,
  find_at f fs = Some d -> tree (sheap st) c (Some 0) (fparams d) (fbody d) -> older hb (sheap st) -> List.length hb <= c -> world hb ->
  Forall2 (stored_at (sheap st)) args vs -> Forall good vs -> Forall distinct_names vs -> Forall (cpa (S c) (sheap st)) args ->
  record_of st = s -> Q st -> lands (fun n => load_run n c args vs st) QQ.
Definition PXs (m : list (string * factors)) s t m1 r b s1 : Prop := forall ns c st a mm fr L inl ini o,
  nth_error (sheap st) a = Some o -> kid (sheap st) a t c -> (forall x, In x (decls [t]) -> In x (keys (fcons o)) /\ In x (keys (ffuns o))) ->
  chain ns L (sheap st) ((a, mm) :: fr) -> env_of ((a, mm) :: fr) = m -> world (sheap st) -> stmt_ok fs ns inl ini (keys m) t ->
  record_of st = s -> Q st -> lands (fun n => compile n a c st) (FS ns st a mm fr L t m1 r b s1).
Definition PXb (m : list (string * factors)) s B m1 r s1 : Prop := forall ns ts st a mm fr L inl ini o,
  nth_error (sheap st) a = Some o -> kids (sheap st) a B ts -> (forall x, In x (decls B) -> In x (keys (fcons o)) /\ In x (keys (ffuns o))) ->
  chain ns L (sheap st) ((a, mm) :: fr) -> env_of ((a, mm) :: fr) = m -> world (sheap st) -> block_ok fs ns inl ini (keys m) B ->
  record_of st = s -> Q st -> lands (fun n => run_tasks (compile n a) ts st) (FB ns st a fr L m1 r s1).
Definition PTest (m : list (string * factors)) c b : Prop := forall ns cc cur st a mm fr L,
  enc_cond c cc -> chain ns L (sheap st) ((a, mm) :: fr) -> env_of ((a, mm) :: fr) = m -> sees (sheap st) cur a -> world (sheap st) ->
  cond_ok fs ns (keys m) c -> Q st ->
  lands (fun n => static_condition (compile n cur) cc st) (fun p => fst p = b /\ Q (snd p) /\ older (sheap st) (sheap (snd p)) /\ record_of (snd p) = record_of st).

Definition PIdxs (m : list (string * factors)) es l : Prop := forall ns cs cur st a mm fr L,
  encs es cs -> chain ns L (sheap st) ((a, mm) :: fr) -> env_of ((a, mm) :: fr) = m -> sees (sheap st) cur a -> world (sheap st) ->
  Forall (exp_ok fs ns (keys m)) es -> Q st ->
  lands (fun n => index_names (compile n cur) cs st) (fun p => fst p = brackets l /\ Q (snd p) /\ older (sheap st) (sheap (snd p)) /\ record_of (snd p) = record_of st).

(** Once it is known that the computation ends, [simulates] tells what it returns. *)
Lemma ev_full ns m s e v s1 c cur st a mm fr L : ev strict fs m s e v s1 ->
  enc e c -> chain ns L (sheap st) ((a, mm) :: fr) -> env_of ((a, mm) :: fr) = m -> sees (sheap st) cur a -> world (sheap st) ->
  exp_ok fs ns (keys m) e -> record_of st = s -> lands (fun n => compile n cur c st) QQ -> lands (fun n => compile n cur c st) (FE st v s1).
Proof.
  intros V En Ch Em Se W Ok Rs H. eapply lands_mono; [exact H|]. intros [r st'] n [C D] E. subst m s. cbn [fst snd] in *.
  destruct (proj1 (simulates sort hash q fs Pok n) _ _ _ _ _ _ _ _ _ _ _ E En Ch Se W Ok D) as (V' & G & Fl & O).
  apply (proj1 strict_sym) in V. destruct (proj1 (sem_functional _ fs sym_functional) _ _ _ _ _ V _ _ V') as [E1 E2].
  rewrite E1 in G. split; [split; auto|]. cbn [fst snd]. auto 10.
Qed.
Definition enc_top (c : ctree) : Prop := forall s c1, c <> Con (Tok TUnassigned s) [c1].
Lemma ev_up ns m s e v s1 c cur st a mm fr L : ev strict fs m s e v s1 ->
  enc e c -> chain ns L (sheap st) ((a, mm) :: fr) -> env_of ((a, mm) :: fr) = m -> sees (sheap st) cur a -> world (sheap st) ->
  exp_ok fs ns (keys m) e -> record_of st = s -> (forall c', enc_top c' -> enc e c' -> lands (fun n => compile n cur c' st) QQ) ->
  lands (fun n => compile n cur c st) (FE st v s1).
Proof.
  intros V En Ch Em Se W Ok Rs H. eapply ev_full; eauto.
  assert (En' := En). clear V Ok. induction En; try (apply H; [intros ? ? X; discriminate X|exact En']).
  apply lands_S. eapply lands_ext; [intros n; apply step_wrap|]. apply IHEn; auto.
Qed.

Lemma xs_full ns m s t m1 r b s1 c st a mm fr L inl ini o : xs strict fs m s t m1 r b s1 ->
  nth_error (sheap st) a = Some o -> kid (sheap st) a t c -> (forall x, In x (decls [t]) -> In x (keys (fcons o)) /\ In x (keys (ffuns o))) ->
  chain ns L (sheap st) ((a, mm) :: fr) -> env_of ((a, mm) :: fr) = m -> world (sheap st) -> stmt_ok fs ns inl ini (keys m) t ->
  record_of st = s -> lands (fun n => compile n a c st) QQ -> lands (fun n => compile n a c st) (FS ns st a mm fr L t m1 r b s1).
Proof.
  intros V No K Dk Ch Em W Ok Rs H. eapply lands_mono; [exact H|]. intros [r0 st'] n [C D] E. subst m s. cbn [fst snd] in *.
  destruct (proj2 (proj2 (simulates sort hash q fs Pok n)) _ _ _ _ _ _ _ _ _ _ _ _ _ E No K Dk Ch W Ok D) as (mm' & fr' & V' & Ch' & Sf & Km & Kp & _).
  apply (proj1 (proj2 (proj2 (proj2 strict_sym)))) in V.
  destruct (proj1 (proj2 (proj2 (proj2 (sem_functional _ fs sym_functional)))) _ _ _ _ _ _ _ V _ _ _ _ V') as (E1 & E2 & E3 & E4).
  split; [split; auto|]. cbn [fst snd]. split; auto. split; auto. split; auto. exists mm', fr'. auto.
Qed.
Lemma xb_full ns m s B m1 r s1 ts st a mm fr L inl ini o : xb strict fs m s B m1 r s1 ->
  nth_error (sheap st) a = Some o -> kids (sheap st) a B ts -> (forall x, In x (decls B) -> In x (keys (fcons o)) /\ In x (keys (ffuns o))) ->
  chain ns L (sheap st) ((a, mm) :: fr) -> env_of ((a, mm) :: fr) = m -> world (sheap st) -> block_ok fs ns inl ini (keys m) B ->
  record_of st = s -> lands (fun n => run_tasks (compile n a) ts st) QQ -> lands (fun n => run_tasks (compile n a) ts st) (FB ns st a fr L m1 r s1).
Proof.
  intros V No K Dk Ch Em W Ok Rs H. eapply lands_mono; [exact H|]. intros [r0 st'] n [C D] E. subst m s. cbn [fst snd] in *.
  destruct (proj1 (proj2 (simulates sort hash q fs Pok n)) _ _ _ _ _ _ _ _ _ _ _ _ _ E No K Dk Ch W Ok D) as (mm' & fr' & V' & Ch' & Sf & Kp & _ & Rf & _).
  apply (proj1 (proj2 (proj2 (proj2 (proj2 strict_sym))))) in V.
  destruct (proj1 (proj2 (proj2 (proj2 (proj2 (sem_functional _ fs sym_functional))))) _ _ _ _ _ _ V _ _ _ V') as (E1 & E2 & E3).
  split; [split; auto|]. cbn [fst snd]. split; auto. split; auto. split; auto. exists mm', fr'. auto.
Qed.

Lemma q_submit st c g st' : submit (with_coll st c) g = Done st' -> Q st -> Q st'.
Proof using Type. unfold submit. destruct g; [|discriminate]. cbn. intros [= <-] [A B]. split; auto. Qed.
Lemma find_here h a o x b : nth_error h a = Some o -> lookup x (ffuns o) = Some b -> find_fun h a x = Done (Some (a, b)).
Proof using Type. intros N E. unfold find_fun. cbn [find_in]. unfold fetch. rewrite N. cbn [get bind]. now rewrite E. Qed.
Lemma find_owner h n cur x o b : find_in n ffuns h cur x = Done (Some (o, b)) -> exists ob, nth_error h o = Some ob.
Proof using Type.
  revert cur. induction n as [|n IH]; intros [c|]; cbn [find_in]; try discriminate. unfold fetch. destruct (nth_error h c) as [oc|] eqn:N; [|discriminate].
  cbn [get bind]. destruct (lookup x (ffuns oc)); [intros [= <- <-]; eauto|apply IH].
Qed.

(** ** Calls *)
Lemma load_cp : forall names new h a o h' rest, load_inputs h a names new = Done (h', rest) -> Cp h -> nth_error h a = Some o -> Forall (cpa (S a) h) new ->
  Cp h' /\ exists o', nth_error h' a = Some o'.
Proof using Type.
  induction names as [|x names IH]; intros [|v new] h a o h' rest E C N F; cbn [load_inputs] in E; try discriminate; try (injection E as <- <-; eauto; fail).
  - apply bind_inv in E. destruct E as (h1 & E1 & E). inversion F as [|? ? F1 F2]; subst.
    assert (C1 : Cp h1) by (eapply cp_assign; eauto). rewrite (set_fun_store _ _ _ _ _ _ E1 N) in *.
    eapply IH; [exact E|exact C1|apply nth_store_eq; eapply nth_lt; eauto|]. eapply Forall_impl; [|exact F2]. intros b Hb. eapply cpa_agree; [|exact Hb].
    intros d od Ld Nd. rewrite nth_store_ne by lia. exact Nd.
Qed.
Lemma loaded_cp h a new h' b : gets_loaded_with h a new = Done (h', b) -> Cp h -> Forall (cpa (S a) h) new -> Cp h'.
Proof using Type.
  unfold gets_loaded_with. intros E C F. apply bind_inv in E. destruct E as (o & Eo & E). apply fetch_inv in Eo. destruct (Nat.ltb _ _); [discriminate|].
  apply bind_inv in E. destruct E as ([h1 rest] & E1 & E). apply bind_inv in E. destruct E as (o1 & Eo1 & E). apply fetch_inv in Eo1. injection E as <- <-.
  destruct (load_cp _ _ _ _ _ _ _ E1 C Eo F) as (C1 & _). destruct (C1 a (nth_lt _ _ _ Eo1)) as [a o2 ts _ N2 T2 _]. rewrite Eo1 in N2. injection N2 as <-.
  eapply cp_store; [exact C1|exact Eo1|exact T2|]. cbn [with_inputs ffuns]. eauto.
Qed.
Lemma load_ends : forall names new h a o, List.length names = List.length new -> nth_error h a = Some o -> exists h' rest, load_inputs h a names new = Done (h', rest).
Proof using Type.
  induction names as [|x names IH]; intros [|v new] h a o Ln N; try discriminate; cbn [load_inputs]; [eauto|].
  assert (E : set_fun h a x v = Done (store h a (assigned o x v))).
  { unfold set_fun, fetch. rewrite N. reflexivity. }
  rewrite E. cbn [bind]. eapply IH; [now injection Ln|]. apply nth_store_eq. eapply nth_lt; eauto.
Qed.
Lemma body_ready h c d args vs f : find_at f fs = Some d -> tree h c (Some 0) (fparams d) (fbody d) -> 0 < c ->
  Forall2 (stored_at h) args vs -> Forall good vs -> List.length (fparams d) = List.length vs ->
  exists o3 ts, gets_loaded_with h c args = Done (store h c o3, true) /\ nth_error (store h c o3) c = Some o3 /\ ftasks o3 = Some ts /\
    kids (store h c o3) c (fbody d) ts /\ (forall x, In x (decls (fbody d)) -> In x (keys (fcons o3)) /\ In x (keys (ffuns o3))) /\
    exists nf, block_ok fs nf false false (fparams d) (fbody d) /\ chain nf c (store h c o3) [(c, combine (fparams d) vs)].
Proof.
  intros Fd T2 Pc Sa Gs Lv. destruct (find_fun_ok fs Pok _ _ Fd) as (Nf & Ndp & Pp & nf & Inf & Bok).
  inversion T2 as [? ? ? ? o2 ts2 N2 Ctx2 In2 Ts2 K1 K2 K3 Kd]; subst a ctx ps B.
  unfold gets_loaded_with, fetch. rewrite N2. cbn [get bind]. rewrite In2.
  assert (La : List.length args = List.length (fparams d)) by (rewrite (Forall2_len _ _ _ Sa); auto).
  rewrite La, Nat.ltb_irrefl, Nat.eqb_refl.
  destruct (load_ends (fparams d) args h c o2 (eq_sym La) N2) as (h4 & rest & El). rewrite El. cbn [bind].
  destruct (load_inputs_spec _ _ _ _ _ _ _ El (eq_sym La) N2 Ndp) as (-> & mm & -> & Km & Lm).
  { intros x I. apply K2. apply in_app_iff. now left. }
  rewrite nth_store_eq by (eapply nth_lt; eauto). cbn [get bind]. rewrite store_store.
  set (o3 := with_inputs (with_funs o2 mm) []) in *.
  assert (N3 : nth_error (store h c o3) c = Some o3) by (apply nth_store_eq; eapply nth_lt; eauto).
  assert (Sub : forall x b, find_at x (combine (fparams d) args) = Some b -> In x (fparams d)).
  { intros x b Hx. apply find_in_keys in Hx. rewrite keys_combine in Hx by congruence. exact Hx. }
  assert (Kmm : forall x, ~ In x (keys (fcons o2)) -> lookup x mm = lookup x (ffuns o2)).
  { intros x Nx. rewrite Lm. destruct (find_at x (combine (fparams d) args)) as [b|] eqn:Eb; [|reflexivity].
    exfalso. apply Nx, K2, in_app_iff. left. eauto. }
  assert (Unch : fcons o2 = [] -> o3 = o2).
  { intros Z0. assert (P0 : fparams d = []).
    { destruct (fparams d) as [|p ps] eqn:Ep; auto. assert (X : In p (keys (fcons o2))) by (apply K2; now left). rewrite Z0 in X. destruct X. }
    unfold o3. assert (mm = ffuns o2) as ->.
    { rewrite P0 in El. cbn in El. destruct args; [|rewrite P0 in La; discriminate]. injection El as El.
      assert (X : nth_error h c = Some (with_funs o2 mm)) by (rewrite El at 1; apply nth_store_eq; eapply nth_lt; eauto). rewrite N2 in X. injection X as X. rewrite X. reflexivity. }
    rewrite <- P0, <- In2. destruct o2; reflexivity. }
  assert (G23 : forall y oy, nth_error h y = Some oy -> fcons oy = [] -> nth_error (store h c o3) y = Some oy).
  { intros y oy Ny Ey. destruct (Nat.eq_dec c y) as [<-|Ne]; [|now rewrite nth_store_ne]. rewrite N2 in Ny. injection Ny as <-. rewrite N3. f_equal. auto. }
  assert (Ev : evolves h (store h c o3) (fun x => c < x)).
  { intros y oy Ny. destruct (Nat.eq_dec c y) as [<-|Ne].
    - rewrite N2 in Ny. injection Ny as <-. exists o3. split; auto. split; [unfold o3; repeat split; cbn; auto|]. split; [lia|auto].
    - exists oy. rewrite nth_store_ne by auto. split; auto. split; [repeat split; auto|auto]. }
  exists o3, ts2. split; [reflexivity|]. split; [exact N3|]. split; [exact Ts2|].
  split; [eapply (proj1 (proj2 (kids_evolves h _))); [exact Kd|exact Ev|auto]|]. split; [intros x I; unfold o3; cbn [with_inputs with_funs fcons ffuns]; rewrite Km; apply K2, in_app_iff; now right|].
  exists nf. split; [exact Bok|].
  apply chain_fun with (o := o3); auto. split; [|split]; unfold o3; cbn [with_inputs with_funs fcons ffuns].
  - intros x I. destruct (K1 x I) as (I1 & I2). rewrite Km. apply in_app_iff in I1. destruct I1 as [I1|I1].
    + rewrite Forall_forall in Pp. destruct (Pp x I1). auto.
    + destruct (block_decls fs _ _ _ _ _ _ Bok I1) as (B1 & _ & B3 & B4). auto.
  - intros x Nx I. rewrite Km in I. auto.
  - intros x v Hx. destruct (Forall2_combine _ _ _ _ Sa x v Hx) as (b & Hb & Sb). split; [|split].
    + apply K2, in_app_iff. left. eauto.
    + apply find_at_In in Hx. apply in_combine_r in Hx. rewrite Forall_forall in Gs. auto.
    + exists b. rewrite Lm, Hb. split; auto. eapply stored_agree; [|exact Sb]. exact G23.
Qed.
Lemma call_lands ns m s f es vs s1 r s2 cs cur st a mm fr L : PEvs m s es vs s1 -> PCall s1 f vs r s2 -> Forall distinct_names vs ->
  encs es cs -> chain ns L (sheap st) ((a, mm) :: fr) -> env_of ((a, mm) :: fr) = m -> sees (sheap st) cur a -> world (sheap st) ->
  callable fs f (List.length es) -> Forall (exp_ok fs ns (keys m)) es -> record_of st = s -> Q st ->
  lands (fun n => compile n cur (Con (Tok TCall f) cs) st) QQ.
Proof.
  intros IHa IHc Dv En Ch Em Se W [Nm (d & Fd & Ld)] Ok Rs [C D]. destruct (find_fun_ok fs Pok _ _ Fd) as ([_ Nr] & _).
  apply lands_S. eapply lands_ext; [intros n; now apply step_call|]. unfold user_call.
  destruct (global_fun _ _ _ _ _ _ _ _ _ Ch Se W Fd Nm) as (af & oa & Ef & Na & Tf). eapply lands_pure; [exact Ef|].
  eapply lands_bind; [eapply copy_at_lands; eauto|]. intros [h1 c] n [C1 _] E1. cbn [fst snd] in *.
  unfold flat_copy in E1. apply bind_inv in E1. destruct E1 as (oa' & Eo & Ec). apply fetch_inv in Eo. rewrite Na in Eo. injection Eo as <-.
  assert (Hctx : fctx oa = Some 0) by (inversion Tf; subst; congruence).
  rewrite Hctx in Ec. assert (Tc := copy_tree_at _ _ _ _ _ _ _ _ _ Tf Ec). destruct (flat_copy_shape _ _ _ _ _ _ Ec) as (O1 & Lc & Llt & _).
  eapply lands_bind.
  { eapply (IHa ns cs cur (with_heap st h1) a mm fr L En); cbn [with_heap sheap]; auto.
    - eapply chain_older; eauto.
    - eapply sees_older; eauto.
    - eapply world_older; eauto.
    - split; auto. }
  intros [rs st2] n2 ([C2 D2] & Ev & R2 & Gv & O2) _. cbn [fst snd with_heap sheap] in *.
  destruct (arguments_total q rs (sheap st2)) as (args & h2 & Ea & C3 & O3 & Fa); [now rewrite Ev|now rewrite Ev|exact C2|].
  eapply lands_pure; [exact Ea|]. cbn beta iota. rewrite Ev.
  destruct (arguments_stored q _ _ _ _ Ea) as (_ & Sa); [now rewrite Ev|now rewrite Ev|]. rewrite Ev in Sa.
  assert (O13 : older h1 h2) by (eapply older_trans; eauto).
  assert (L12 := older_length _ _ O2).
  apply (IHc d (with_heap st2 h2) (sheap st) c args); auto.
  - eapply tree_keeps; [apply (keeps_older 0); exact O13|exact Tc].
  - eapply older_trans; eauto.
  - lia.
  - eapply Forall_impl; [|exact Fa]. intros b Hb. eapply cpa_le; [|exact Hb]. lia.
  - split; auto.
Qed.

(** ** Assignments *)
Lemma overload_lands ns m s e v s1 sx lhs l x ce st a mm fr L : PEv m s e v s1 -> distinct_names v -> ttyp lhs <> TArrCall -> ident lhs = x ->
  (forall h', older (sheap st) h' -> exists o b, find_fun h' a x = Done (Some (o, b))) ->
  enc e ce -> chain ns L (sheap st) ((a, mm) :: fr) -> env_of ((a, mm) :: fr) = m -> world (sheap st) -> exp_ok fs ns (keys m) e -> record_of st = s -> Q st ->
  lands (fun n => compile n a (Con (Tok TOverload sx) [Con lhs l; ce]) st) QQ.
Proof using Type.
  intros IH Dv Nt Ix Fx En Ch Em W Ok Rs Qs. apply lands_S. cbn [CircuitModel.compile output ttyp ident inputs].
  eapply lands_bind with (P := fun p => p = (x, st)); [destruct (ttyp lhs); try (apply lands_done; now rewrite Ix); now destruct Nt|]. intros [x' st'] n0 [= -> ->] _.
  eapply lands_bind; [eapply (IH ns ce a st a mm fr L); eauto; now left|]. intros [r st1] n ([C1 D1] & Ev & R1 & Gv & Fl & O1) _. cbn [fst snd] in *.
  destruct (Fx _ O1) as (o & b0 & Ef). eapply lands_pure; [exact Ef|]. cbn beta iota. unfold find_fun in Ef. destruct (find_owner _ _ _ _ _ _ Ef) as (ob & No).
  rewrite Ev. destruct (function_total q v (sheap st1)) as (h1 & b & E1 & C2 & Lb & O2); [apply Gv|exact C1|].
  assert (Nb := function_new _ _ _ _ _ E1 Gv Dv).
  assert (No1 := older_nth _ _ _ _ O2 No).
  assert (E2 : set_fun h1 o x b = Done (store h1 o (assigned ob x b))) by (unfold set_fun, fetch; rewrite No1; reflexivity).
  assert (C3 : Cp (store h1 o (assigned ob x b))).
  { eapply cp_assign; [exact C2|exact No1| |exact E2]. eapply cpa_le; [|exact Nb]. apply nth_lt in No. lia. }
  assert (Hl : lands (fun _ : nat => '(h1, a) <- factors_function q (sheap st1) v ;; h <- set_fun h1 o x a ;; Done (Ret (rvals r) false None, stored (with_heap st1 h) [v])) QQ).
  { eapply lands_pure; [exact E1|]. cbn beta iota. eapply lands_pure; [exact E2|]. apply lands_done. cbn. split; [exact C3|]. cbn. apply Forall_app. split; auto. }
  destruct v as [|v0 v1]; [destruct Gv as [Gv _]; easy|]. exact Hl.
Qed.
Lemma decl_found h a o x : nth_error h a = Some o -> In x (keys (ffuns o)) -> exists w b, find_fun h a x = Done (Some (w, b)).
Proof using Type. intros N I. destruct (keys_find_in _ _ I) as [b E]. exists a, b. eapply find_here; [exact N|now rewrite lookup_find_at]. Qed.
Lemma assign_pxs m s x e v s1 : PEv m s e v s1 -> ev strict fs m s e v s1 -> find_at x m <> None -> PXs m s (Assign x e) (put_at x v m) (Some v) false s1.
Proof.
  intros IH V F ns c st a mm fr L inl ini o No K Dk Ch Em W Ok Rs Qs. eapply xs_full; eauto; [now apply (xs_assign strict)|].
  inversion K as [|? ? ? ce sx l En| | | | | |]; subst. cbn [stmt_ok] in Ok. destruct Ok as [Ok I].
  eapply (overload_lands _ _ _ e v s1 sx (Tok TIdent x) l x ce st a mm fr L IH); eauto; [eapply (proj1 strict_distinct); exact V|discriminate|].
  intros h' O. destruct (keys_find_in _ _ I) as [u Hu]. destruct (var_fun ns L h' a mm fr a x u (chain_older _ _ _ _ _ _ _ O Ch) (or_introl eq_refl) Hu) as (w & b & E & _). eauto.
Qed.

Lemma strict_total :
  (forall m s e v s1, ev strict fs m s e v s1 -> PEv m s e v s1) /\
  (forall m s es vs s1, evs strict fs m s es vs s1 -> PEvs m s es vs s1) /\
  (forall s f vs r s1, call strict fs s f vs r s1 -> PCall s f vs r s1) /\
  (forall m s t m1 r b s1, xs strict fs m s t m1 r b s1 -> PXs m s t m1 r b s1) /\
  (forall m s B m1 r s1, xb strict fs m s B m1 r s1 -> PXb m s B m1 r s1) /\
  (forall m c b, test strict fs m c b -> PTest m c b) /\
  (forall m es l, idxs strict fs m es l -> PIdxs m es l).
Proof.
  apply sem_ind.
  - (* number *)
    intros m s x v H ns c cur st a mm fr L En Ch Em Se W Ok Rs Qs. eapply ev_up; eauto; [now apply (ev_num strict)|]. intros c' Tp Ec. inversion Ec as [| | |? ? ? ? X1 X2| | |]; subst; [|exfalso; eapply Tp; reflexivity].
    destruct H as (z & b & E & ->). apply lands_S. eapply lands_ext; [intros n; apply step_number|]. eapply lands_pure; [rewrite E; reflexivity|]. now apply lands_done.
  - (* variable *)
    intros m s x u v F [R Dv] ns c cur st a mm fr L En Ch Em Se W Ok Rs Qs. eapply ev_up; eauto; [eapply (ev_var strict); [exact F|split; [exact R|exact Dv]]|].
    intros c' Tp Ec. inversion Ec as [| | |? ? ? ? X1 X2| | |]; subst; [|exfalso; eapply Tp; reflexivity].
    destruct (var_fun _ _ _ _ _ _ _ _ _ Ch Se F) as (o & b & Ef & Sb & Gu). destruct (chain_names _ _ _ _ _ _ _ Ch (find_in_keys _ _ _ F)) as [[_ Nr] _].
    apply lands_S. cbn [CircuitModel.compile output ttyp ident]. eapply lands_pure; [exact Ef|]. cbn beta iota.
    assert (Sb' := Sb). destruct Sb' as (ob & Nb & Cb & Ib & Mb). eapply lands_pure; [unfold fetch; rewrite Nb; reflexivity|]. cbn beta iota.
    destruct (fnum ob) as [z|] eqn:Efn; [now apply lands_done|]. rewrite Ib.
    destruct (var_con _ _ _ _ _ _ _ _ Ch Se (find_in_keys _ _ _ F)) as (o' & Ek). eapply lands_pure; [exact Ek|]. cbn beta iota.
    assert (Mv : vobj 0 (sheap st) b u).
    { destruct u as [|y [|]]; try (now destruct Mb). destruct (is_number y); [destruct Mb as [Mb _]; congruence|now destruct Mb]. }
    destruct Qs as [C D]. assert (Gf : Forall (fac_ok q) u) by apply Gu.
    eapply lands_mono; [apply (call_value u (run_value u Gf) cur x b o st Nr Ef Mv C)|]. intros [r st'] n C' E. cbn [snd] in *.
    destruct (call_vobj sort hash q u (runs_all sort hash q u Gf) _ _ _ _ _ _ _ _ Nr Ef Mv E) as (_ & _ & _ & _ & _ & (_ & _ & Ss)). split; auto. now rewrite Ss.
  - (* operation *)
    intros m s o e1 e2 s1 va s2 vb v s3 V1 IH1 V2 IH2 O ns c cur st a mm fr L En Ch Em Se W Ok Rs Qs. eapply ev_up; eauto; [eapply (ev_bin strict); eauto|].
    intros c' Tp Ec. cbn [exp_ok] in Ok. destruct Ok as (Io & Ok1 & Ok2). inversion Ec as [| |s0 o0 e1' e2' c1 c2 En1 En2|? ? ? ? X1 X2| | |]; [subst o0 e1' e2' c'|exfalso; subst; eapply Tp; reflexivity].
    apply lands_S. eapply lands_ext; [intros n; now apply step_bin|].
    eapply lands_bind; [eapply (IH1 ns c1 cur st a mm fr L); eauto|]. intros [r1 st1] n1 (Q1 & E1 & R1 & G1 & _ & O1) _. cbn [fst snd] in *.
    eapply lands_bind; [eapply (IH2 ns c2 cur st1 a mm fr L); eauto using chain_older, sees_older, world_older|]. intros [r2 st2] n2 (Q2 & E2 & R2 & G2 & _ & O2) _. cbn [fst snd] in *.
    destruct O as [O _]. rewrite <- E1, <- E2, <- R2 in O. rewrite <- E1 in G1. rewrite <- E2 in G2.
    destruct (operate_total _ _ _ _ _ _ G1 G2 Io O) as [([w st3] & E)|E].
    + eapply lands_pure; [exact E|]. apply lands_done. destruct (operate_op _ _ _ _ _ _ _ _ _ G1 G2 Io E) as (H1 & H2 & _). cbn [snd]. destruct Q2 as [Q2a Q2b]. split; [rewrite H1; exact Q2a|rewrite H2; exact Q2b].
    + rewrite E. apply lands_alias.
  - (* base *)
    intros m s e va s1 v s2 V IH O ns c cur st a mm fr L En Ch Em Se W Ok Rs Qs. eapply ev_up; eauto; [eapply (ev_base strict); eauto|].
    intros c' Tp Ec. cbn [exp_ok] in Ok. inversion Ec as [| | |? ? ? ? X1 X2|e0 c1 En1| |]; [exfalso; subst; eapply Tp; reflexivity|subst e0 c'].
    apply lands_S. eapply lands_ext; [intros n; apply step_base|].
    eapply lands_bind; [eapply (IH ns c1 cur st a mm fr L); eauto|]. intros [r1 st1] n1 (Q1 & E1 & R1 & G1 & _ & O1) _. cbn [fst snd] in *.
    destruct O as (Eb & g & Eg & _). rewrite <- R1 in Eb. cbn [record_of fst] in Eb. rewrite E1. eapply lands_pure; [rewrite Eb; reflexivity|]. cbn beta iota.
    eapply lands_pure; [unfold submit; rewrite Eg; reflexivity|]. apply lands_done. destruct Q1. split; auto.
  - (* call *)
    intros m s f es vs s1 v s2 Vs IHa Vc IHc ns c cur st a mm fr L En Ch Em Se W Ok Rs Qs. eapply ev_up; eauto; [eapply (ev_call strict); eauto|].
    intros c' Tp Ec. cbn [exp_ok] in Ok. destruct Ok as (Ca & _ & Ok). apply exps_all in Ok. inversion Ec as [| | |? ? ? ? X1 X2| |f0 es0 cs En1|]; [exfalso; subst; eapply Tp; reflexivity|subst f0 es0 c'].
    eapply call_lands; eauto. eapply (proj1 (proj2 strict_distinct)); exact Vs.
  - (* element *)
    intros m s x es l u v Is IHi F [Re Dv] ns c cur st a mm fr L En Ch Em Se W Ok Rs Qs. eapply ev_up; eauto; [eapply (ev_idx strict); [exact Is|exact F|split; [exact Re|exact Dv]]|].
    intros c' Tp Ec. cbn [exp_ok] in Ok. destruct Ok as ((Na & Sc) & Nes & Ok). apply exps_all in Ok. inversion Ec as [| | |? ? ? ? X1 X2| | |f0 es0 cs En1]; [exfalso; subst; eapply Tp; reflexivity|subst f0 es0 c'].
    assert (Nl : l <> []) by (inversion Is; subst; [easy|discriminate]). assert (Nn := element_name _ _ Na Nl).
    apply lands_S. eapply lands_ext; [intros n; apply step_index|].
    eapply lands_bind with (P := fun p => fst p = element x l /\ Q (snd p) /\ older (sheap st) (sheap (snd p)) /\ record_of (snd p) = record_of st).
    { unfold resolve_name. cbn [inputs output ident]. eapply lands_bind; [eapply (IHi ns cs cur st a mm fr L); eauto|].
      intros [b st0] n (Eb & Q0 & O0 & R0) _. cbn [fst snd] in *. subst b. apply lands_done. cbn [fst snd]. auto. }
    intros [name st0] n (Eb & Q0 & O0 & R0) _. cbn [fst snd] in *. subst name. rewrite <- Em in F.
    assert (Ch0 := chain_older _ _ _ _ _ _ _ O0 Ch). assert (Se0 := sees_older _ _ _ _ O0 Se).
    destruct (var_con _ _ _ _ _ _ _ _ Ch0 Se0 (find_in_keys _ _ _ F)) as (o' & Ek). eapply lands_pure; [exact Ek|]. cbn beta iota.
    destruct (var_fun _ _ _ _ _ _ _ _ _ Ch0 Se0 F) as (o & b & Ef & Sb & Gu). destruct Nn as [_ Nr].
    assert (Mv : vobj 0 (sheap st0) b u).
    { destruct Sb as (ob & _ & _ & _ & Mb). destruct u as [|y [|]]; [apply Mb|destruct (is_number y); apply Mb|apply Mb]. }
    destruct Q0 as [C D]. assert (Gf : Forall (fac_ok q) u) by apply Gu.
    eapply lands_bind; [apply (call_value u (run_value u Gf) cur _ b o st0 Nr Ef Mv C)|]. intros [r st'] n' C' E. cbn [snd] in *.
    destruct (call_vobj sort hash q u (runs_all sort hash q u Gf) _ _ _ _ _ _ _ _ Nr Ef Mv E) as (_ & _ & _ & _ & _ & (_ & _ & Ss)). apply lands_done. split; auto. cbn [snd]. now rewrite Ss.
  - (* arguments *)
    intros m s ns cs cur st a mm fr L En Ch Em Se W Ok Rs Qs. inversion En; subst. cbn [comp_all]. apply lands_done. split; auto. cbn. split; auto. split; auto. split; [constructor|apply older_refl].
  - intros m s e v s1 es vs s2 V IH Vs IHs ns cs cur st a mm fr L En Ch Em Se W Ok Rs Qs. inversion En as [|? c ? cs' E1 E2]; subst e0 es0 cs. inversion Ok as [|? ? Ok1 Ok2]; subst x l.
    cbn [comp_all]. eapply lands_bind; [eapply (IH ns c cur st a mm fr L); eauto|]. intros [r1 st1] n1 (Q1 & Ev1 & R1 & G1 & _ & O1) _. cbn [fst snd] in *.
    eapply lands_bind; [eapply (IHs ns cs' cur st1 a mm fr L); eauto using chain_older, sees_older, world_older|]. intros [rs st2] n2 (Q2 & Ev2 & R2 & G2 & O2) _. cbn [fst snd] in *.
    apply lands_done. split; auto. cbn [fst snd map]. split; [rewrite Ev1, Ev2; reflexivity|]. split; auto. split; [now constructor|]. eapply older_trans; eauto.
  - (* function *)
    intros s f ps body vs m r s1 Fd Ln X IH d st hb c args Fd' T O Lc W Sa Gs Ds Fa Rs [C D]. rewrite Fd in Fd'. injection Fd' as <-. cbn [fparams fbody] in *.
    assert (Pc : 0 < c) by (destruct W as (g & Ng & _); apply nth_lt in Ng; lia).
    destruct (body_ready _ _ _ _ _ _ Fd T Pc Sa Gs Ln) as (o3 & ts & Eg & N3 & T3 & K3 & Dk & nf & Bok & Ch). cbn [fparams fbody] in *.
    unfold load_run. eapply lands_pure; [exact Eg|]. cbn beta iota zeta. eapply lands_pure; [unfold fetch; rewrite N3; reflexivity|]. cbn beta.
    eapply lands_pure; [rewrite T3; reflexivity|]. cbn beta.
    eapply lands_bind.
    { eapply (IH nf ts (stored (with_heap st (store (sheap st) c o3)) vs) c (combine ps vs) [] c false false o3); cbn [stored with_heap sheap]; auto.
      - eapply world_older; [|exact W]. apply older_store; auto.
      - rewrite keys_combine by auto. exact Bok.
      - split; [eapply loaded_cp; eauto|]. cbn. apply Forall_app. auto. }
    intros [r1 st4] n ([C4 D4] & _) _. apply lands_done. split; auto.
  - (* declaration *)
    intros m s x e v s1 V IH ns c st a mm fr L inl ini o No K Dk Ch Em W Ok Rs Qs. eapply xs_full; eauto; [now apply (xs_decl strict)|].
    inversion K as [? ? ? ce sx l En| | | | | | |]; subst. cbn [stmt_ok] in Ok. destruct Ok as [Ok _].
    eapply (overload_lands _ _ _ e v s1 sx (Tok TVarDecl x) l x ce st a mm fr L IH); eauto; [eapply (proj1 strict_distinct); exact V|discriminate|].
    intros h' Oh. apply decl_found with (o := o); [eapply older_nth; eauto|].
    apply Dk. now left.
  - (* assignment *) intros m s x e v s1 V IH F. now apply assign_pxs.
  - (* equal *)
    intros m s e1 e2 va s1 vb s2 s3 V1 IH1 V2 IH2 O ns c st a mm fr L inl ini o No K Dk Ch Em W Ok Rs Qs. eapply xs_full; eauto; [eapply (xs_equal strict); eauto|].
    inversion K as [| | |? ? ? c1 c2 En1 En2| | | |]; subst a0 e0 e3 c. cbn [stmt_ok] in Ok. destruct Ok as [Ok1 Ok2].
    apply lands_S. eapply lands_ext; [intros n; apply step_equal|]. assert (Se : sees (sheap st) a a) by now left.
    eapply lands_bind; [eapply (IH1 ns c1 a st a mm fr L); eauto|]. intros [r1 st1] n1 (Q1 & E1 & R1 & G1 & _ & O1) _. cbn [fst snd] in *.
    eapply lands_bind; [eapply (IH2 ns c2 a st1 a mm fr L); eauto using chain_older, sees_older, world_older|]. intros [r2 st2] n2 (Q2 & E2 & R2 & G2 & _ & O2) _. cbn [fst snd] in *.
    destruct O as (Eb & g & Eg & _). rewrite <- R2 in Eb. cbn [record_of fst] in Eb. rewrite E1, E2. eapply lands_pure; [rewrite Eb; reflexivity|]. cbn beta iota.
    eapply lands_pure; [unfold submit; rewrite Eg; reflexivity|]. apply lands_done. destruct Q2. split; auto.
  - (* do *)
    intros m s f es vs s1 r s2 Vs IHa Vc IHc ns c st a mm fr L inl ini o No K Dk Ch Em W Ok Rs Qs. eapply xs_full; eauto; [eapply (xs_do strict); eauto|].
    inversion K as [| | | |? ? ? cs En| | |]; subst a0 f0 es0 c. cbn [stmt_ok] in Ok. destruct Ok as [Ca Ok].
    eapply call_lands; eauto; [eapply (proj1 (proj2 strict_distinct)); exact Vs|now left].
  - (* return *)
    intros m s e v s1 V IH ns c st a mm fr L inl ini o No K Dk Ch Em W Ok Rs Qs. eapply xs_full; eauto; [now apply (xs_return strict)|].
    inversion K as [| | | | |? sx ? ce En| |]; subst a0 e0 c. cbn [stmt_ok] in Ok. destruct Ok as [Ok _].
    apply lands_S. eapply lands_ext; [intros n; apply step_return|].
    eapply lands_bind; [eapply (IH ns ce a st a mm fr L); eauto; now left|]. intros [r1 st1] n1 (Q1 & _) _. apply lands_done. exact Q1.
  - (* for, end *)
    intros m s c x e body T IH ns ct st a mm fr L inl ini o No K Dk Ch Em W Ok Rs Qs. eapply xs_full; eauto; [now apply (xs_for_end strict)|].
    inversion K as [| | | | | |? o1 name b ? cc sx l ? ? ce ? Ec En N1 Lk Nk Nr Lt Tb|]; subst a0 c0 x0 e0 body0 ct. cbn [stmt_ok] in Ok. destruct Ok as (Okc & _).
    apply lands_S. cbn [CircuitModel.compile output ttyp ident inputs].
    eapply lands_bind; [eapply (IH ns cc a st a mm fr L); eauto; now left|]. intros [go st1] n1 (Eg & Q1 & _) _. cbn [fst snd] in *. subst go. apply lands_done. exact Q1.
  - (* for, once more *)
    intros m s c x e body m1 s1 v s2 m2 s3 T IHt X IHb V IHe F Xr IHr ns ct st a mm fr L inl ini o No K Dk Ch Em W Ok Rs Qs.
    eapply xs_full; [eapply (xs_for strict); [exact T|exact X|exact V|exact F|exact Xr]|exact No|exact K|exact Dk|exact Ch|exact Em|exact W|exact Ok|exact Rs|].
    inversion K as [| | | | | |? o1 name b ? cc sx l ? ? ce ? Ec En N1 Lk Nk Nr Lt Tb|]; subst a0 c0 x0 e0 body0 ct. rewrite No in N1. injection N1 as <-.
    assert (Ok0 := Ok). cbn [stmt_ok] in Ok. destruct Ok as (Okc & Iv & Oke & Okb). apply stmt_block in Okb.
    apply lands_S. cbn [CircuitModel.compile output ttyp ident inputs].
    eapply lands_bind; [eapply (IHt ns cc a st a mm fr L); eauto; now left|]. intros [go st1] n1 (Eg & Q1 & O1 & R1) _. cbn [fst snd] in *. subst go.
    eapply lands_bind with (P := fun p => rflag (fst p) = false /\ Q (snd p) /\ record_of (snd p) = s1 /\ exists m5 fr5, chain ns L (sheap (snd p)) ((a, m5) :: fr5) /\
        env_of ((a, m5) :: fr5) = firstn (List.length m) m1 /\ same_frames ((a, mm) :: fr) ((a, m5) :: fr5) /\ keeps L (sheap st) (sheap (snd p))).
    { (* the body *)
      apply lands_S. eapply lands_ext; [intros n; unfold call_of, leaf; now apply step_call|]. unfold user_call.
      eapply lands_pure; [eapply find_here; [eapply older_nth; eauto|exact Lk]|]. cbn beta iota.
      assert (Tb1 : tree (sheap st1) b (Some a) [] body) by (eapply tree_keeps; [apply (keeps_older 0); exact O1|exact Tb]).
      assert (Nb : exists ob, nth_error (sheap st1) b = Some ob /\ fctx ob = Some a) by (inversion Tb1; subst; eauto). destruct Nb as (ob & Nb & Cb).
      eapply lands_bind; [eapply copy_at_lands; [apply Q1|exact Nb]|]. intros [h1 k] n [C1 _] Ek. cbn [fst snd] in *.
      unfold flat_copy in Ek. apply bind_inv in Ek. destruct Ek as (ob' & Eob & Ek). apply fetch_inv in Eob. rewrite Nb in Eob. injection Eob as <-. rewrite Cb in Ek.
      assert (Tk := copy_tree_at _ _ _ _ _ _ _ _ _ Tb1 Ek). destruct (flat_copy_shape _ _ _ _ _ _ Ek) as (O2 & Ek1 & Lk1 & _).
      cbn [comp_all bind argument_functions with_heap sheap map]. inversion Tk as [? ? ? ? ok ts Nk1 Ck Ik Tsk K1 K2 K3 Kd]; subst a0 ctx ps B.
      eapply lands_pure; [eapply load_none; eauto|]. cbn beta iota zeta. eapply lands_pure; [unfold fetch; rewrite Nk1; reflexivity|]. cbn beta.
      eapply lands_pure; [rewrite Tsk; reflexivity|]. cbn beta.
      assert (O3 : older (sheap st) h1) by (eapply older_trans; eauto).
      assert (Lak : a < k) by (apply nth_lt in No; apply older_length in O1; lia).
      rewrite <- Em in Okb.
      destruct (chain_enter q fs ns L h1 a mm fr k ok a body true ini ts (chain_older _ _ _ _ _ _ _ O3 Ch) Nk1 Ck (or_introl eq_refl) Lak Tk Tsk Okb) as (Chk & Kk & Dkk).
      set (stb := stored (with_heap (with_heap st1 h1) h1) []).
      eapply lands_bind; [eapply (IHb ns ts stb k [] ((a, mm) :: fr) L true ini ok Nk1 Kk Dkk Chk)|].
      - change (env_of ((k, []) :: (a, mm) :: fr)) with (env_of ((a, mm) :: fr) ++ []). now rewrite app_nil_r.
      - eapply world_older; [exact O3|exact W].
      - rewrite Em in Okb. exact Okb.
      - unfold stb, stored, with_heap, record_of in *. cbn. rewrite <- Rs. exact R1.
      - destruct Q1 as [_ D1]. split; [exact C1|]. cbn. now rewrite app_nil_r.
      - intros [r5 st5] n5 (Q5 & Or & R5 & Rf & mk & frk & Ee & Ch5 & Sf5 & Kp5) _. cbn [fst snd] in *. apply lands_done. cbn [fst snd rflag]. split; auto. split; [exact Q5|]. split; [exact R5|].
        destruct frk as [|[a5 m5] fr5]; [inversion Ch5; subst; destruct Sf5 as [Sf5 _]; discriminate Sf5|].
        destruct (same_pop _ _ _ _ _ _ Sf5) as (-> & Km5 & Sf5'). apply chain_pop in Ch5. exists m5, fr5. split; [exact Ch5|].
        change (env_of ((k, mk) :: (a, m5) :: fr5)) with (env_of ((a, m5) :: fr5) ++ mk) in Ee. rewrite <- Ee, <- Em.
        split; [symmetry; apply env_pop; now apply same_frames_keys|]. split; [exact Sf5|]. eapply keeps_trans; [apply keeps_older; exact O3|exact Kp5]. }
    intros [r5 st5] n5 (Fl & Q5 & R5 & m5 & fr5 & Ch5 & Ee5 & Sf5 & Kp5) _. cbn [fst snd] in *. rewrite Fl.
    assert (Ke5 := same_frames_keys _ _ Sf5). rewrite Em, Ee5 in Ke5.
    assert (No5 : exists o5, nth_error (sheap st5) a = Some o5 /\ fcons o5 = fcons o).
    { destruct Kp5 as [_ Kp5]. destruct (Kp5 a o No) as (o5 & N5 & (_ & _ & _ & _ & Fc & _) & _). eauto. }
    destruct No5 as (o5 & N5 & Fc5).
    assert (Fx : find_at x (firstn (List.length m) m1) <> None) by (apply find_at_in; exact (eq_ind_r (fun l => In x l) Iv Ke5)).
    eapply lands_bind.
    { eapply (assign_pxs _ _ x e v s2 IHe V Fx ns _ st5 a m5 fr5 L inl ini o5 N5 (kid_assign _ _ _ _ _ sx l En)); auto.
      - intros y [].
      - eapply world_keeps; [exact Kp5|exact W].
      - exact (conj (eq_ind_r (fun l => exp_ok fs ns l e) Oke Ke5) (eq_ind_r (fun l => In x l) Iv Ke5)). }
    intros [r6 st6] n6 (Q6 & _ & _ & R6 & m6 & fr6 & Ee6 & Ch6 & Sf6 & Km6 & Kp6) _. cbn [fst snd] in *.
    assert (K06 := keeps_trans _ _ _ _ Kp5 Kp6).
    assert (No6 : exists o6, nth_error (sheap st6) a = Some o6 /\ fcons o6 = fcons o).
    { destruct K06 as [_ K06]. destruct (K06 a o No) as (o6 & N6 & (_ & _ & _ & _ & Fc & _) & _). eauto. }
    destruct No6 as (o6 & N6 & Fc6). cbn in Km6. rewrite app_nil_r in Km6.
    assert (Sf06 : same_frames ((a, m5) :: fr5) ((a, m6) :: fr6)) by (apply same_push; auto).
    assert (Ke6 := same_frames_keys _ _ Sf06).
    eapply lands_mono; [eapply (IHr ns _ st6 a m6 fr6 L inl ini o6 N6)|].
    + eapply (proj2 (proj2 (kids_evolves (sheap st) (sheap st6)))); [|eapply keeps_evolves; exact K06|cbn; auto]. eapply kid_for; eauto.
    + intros y [].
    + exact Ch6.
    + exact Ee6.
    + eapply world_keeps; [exact K06|exact W].
    + assert (Kx : keys (env_of ((a, m6) :: fr6)) = keys m) by (rewrite Ke6, Ee5; exact Ke5).
      exact (eq_ind _ (fun z => stmt_ok fs ns inl ini (keys z) (For c x e body)) (eq_ind_r (fun l => stmt_ok fs ns inl ini l (For c x e body)) Ok0 Kx) _ Ee6).
    + exact R6.
    + exact Q6.
    + intros p np (Qp & _) _. exact Qp.
  - (* if not *)
    intros m s c body T IH ns ct st a mm fr L inl ini o No K Dk Ch Em W Ok Rs Qs. eapply xs_full; eauto; [now apply (xs_if_not strict)|].
    inversion K as [| | | | | | |? o1 name f fo name2 b ? cc ? ctx Ec N1 Lk Nk Lt Nf Cf Kf Ff Nn Tf Lt2 X Tb]; subst a0 c0 body0 ct. rewrite No in N1. injection N1 as <-.
    cbn [stmt_ok] in Ok. destruct Ok as (_ & Okc & _).
    assert (Bl : blind (ffuns fo)) by (intros y Ny; rewrite Ff; cbn; destruct (String.eqb_spec y name2) as [->|_]; [easy|reflexivity]).
    assert (Sf : sees (sheap st) f a) by (right; split; auto; exists fo; auto).
    apply lands_S. unfold leaf. cbn [CircuitModel.compile output ttyp ident inputs].
    eapply lands_pure; [eapply find_here; [exact No|exact Lk]|]. cbn beta iota. eapply lands_pure; [unfold fetch; rewrite Nf; reflexivity|]. cbn beta.
    eapply lands_pure; [rewrite Tf; reflexivity|]. cbn beta. cbn [run_tasks].
    eapply lands_bind with (P := fun p => rflag (fst p) = false /\ Q (snd p)).
    { apply lands_S. cbn [CircuitModel.compile output ttyp ident inputs].
      eapply lands_bind; [eapply (IH ns cc f st a mm fr L); eauto|]. intros [go st1] n1 (Eg & Q1 & _) _. cbn [fst snd] in *. subst go. apply lands_done. split; [reflexivity|exact Q1]. }
    intros [r1 st1] n1 [Fl Q1] _. cbn [fst snd] in *. rewrite Fl. apply lands_done. exact Q1.
  - (* if *)
    intros m s c body m1 r s1 T IHt Xb IHb ns ct st a mm fr L inl ini o No K Dk Ch Em W Ok Rs Qs. eapply xs_full; eauto; [now apply (xs_if strict)|].
    inversion K as [| | | | | | |? o1 name f fo name2 b ? cc ? ctx Ec N1 Lk Nk Lt Nf Cf Kf Ff Nn Tf Lt2 X Tb]; subst a0 c0 body0 ct. rewrite No in N1. injection N1 as <-.
    cbn [stmt_ok] in Ok. destruct Ok as (_ & Okc & Okb). apply stmt_block in Okb.
    assert (Bl : blind (ffuns fo)) by (intros y Ny; rewrite Ff; cbn; destruct (String.eqb_spec y name2) as [->|_]; [easy|reflexivity]).
    assert (Sf : sees (sheap st) f a) by (right; split; auto; exists fo; auto).
    apply lands_S. unfold leaf. cbn [CircuitModel.compile output ttyp ident inputs].
    eapply lands_pure; [eapply find_here; [exact No|exact Lk]|]. cbn beta iota. eapply lands_pure; [unfold fetch; rewrite Nf; reflexivity|]. cbn beta.
    eapply lands_pure; [rewrite Tf; reflexivity|]. cbn beta. cbn [run_tasks].
    eapply lands_bind with (P := QQ).
    2: { intros [r1 st1] n1 Q1 _. cbn [fst snd] in *. destruct (rflag r1); apply lands_done; exact Q1. }
    apply lands_S. cbn [CircuitModel.compile output ttyp ident inputs].
    eapply lands_bind; [eapply (IHt ns cc f st a mm fr L); eauto|]. intros [go st1] n1 (Eg & Q1 & O & R1) _. cbn [fst snd] in *. subst go.
    apply lands_S. unfold leaf. cbn [CircuitModel.compile output ttyp ident inputs].
    assert (Lk2 : lookup name2 (ffuns fo) = Some b) by (rewrite Ff; cbn; now rewrite String.eqb_refl).
    eapply lands_pure; [eapply find_here; [eapply older_nth; eauto|exact Lk2]|]. cbn beta iota.
    assert (Tb1 : tree (sheap st1) b (Some ctx) [] body) by (eapply tree_keeps; [apply (keeps_older 0); exact O|exact Tb]).
    inversion Tb1 as [? ? ? ? ob ts Nb Cb Ib Tsb K1 K2 K3 Kd]; subst a0 ctx0 ps B.
    eapply lands_pure; [unfold fetch; rewrite Nb; reflexivity|]. cbn beta. eapply lands_pure; [rewrite Tsb; reflexivity|]. cbn beta.
    assert (Sc : sees (sheap st1) ctx a) by (destruct X as [->| ->]; [now left|eapply sees_older; eauto]).
    assert (Lcb : ctx < b) by (destruct X as [->| ->]; lia).
    rewrite <- Em in Okb.
    destruct (chain_enter q fs ns L (sheap st1) a mm fr b ob ctx body inl true ts (chain_older _ _ _ _ _ _ _ O Ch) Nb Cb Sc Lcb Tb1 Tsb Okb) as (Chb & Kb & Dkb).
    eapply lands_mono; [eapply (IHb ns ts st1 b [] ((a, mm) :: fr) L inl true ob Nb Kb Dkb Chb)|].
    + change (env_of ((b, []) :: (a, mm) :: fr)) with (env_of ((a, mm) :: fr) ++ []). now rewrite app_nil_r.
    + eapply world_older; [exact O|exact W].
    + rewrite Em in Okb. exact Okb.
    + rewrite <- Rs. exact R1.
    + exact Q1.
    + intros p np (Qp & _) _. exact Qp.
  - (* public *) intros m s x ns c st a mm fr L inl ini o No K. inversion K.
  - (* assignment to an element *)
    intros m s x es e l v s1 Is IHi V IH F ns c st a mm fr L inl ini o No K Dk Ch Em W Ok Rs Qs. eapply xs_full; eauto; [eapply (xs_set strict); eauto|].
    inversion K as [| |? ? ? cs ? ce sx Ens En| | | | |]; subst a0 x0 es0 e0 c. cbn [stmt_ok] in Ok. destruct Ok as ((Na & Sc) & Nes & Oks & Oke).
    apply lands_S. cbn [CircuitModel.compile output ttyp ident inputs].
    eapply lands_bind with (P := fun p => fst p = element x l /\ Q (snd p) /\ older (sheap st) (sheap (snd p)) /\ record_of (snd p) = record_of st).
    { unfold resolve_name. cbn [inputs output ident]. eapply lands_bind; [eapply (IHi ns cs a st a mm fr L); eauto; now left|].
      intros [b st0] n (Eb & Q0 & O0 & R0) _. cbn [fst snd] in *. subst b. apply lands_done. cbn [fst snd]. auto. }
    intros [name st0] n (Eb & Q0 & O0 & R0) _. cbn [fst snd] in *. subst name.
    apply (lands_pred (fun n => compile n a (Con (Tok TOverload sx) [Con (Tok TVarDecl (element x l)) []; ce]) st0)).
    eapply (overload_lands _ _ _ e v s1 sx (Tok TVarDecl (element x l)) [] (element x l) ce st0 a mm fr L IH); eauto using chain_older, world_older;
      [eapply (proj1 strict_distinct); exact V|discriminate| |congruence].
    intros h' O. apply find_at_in in F. destruct (keys_find_in _ _ F) as [u Hu]. rewrite <- Em in Hu.
    destruct (var_fun ns L h' a mm fr a (element x l) u (chain_older _ _ _ _ _ _ _ O (chain_older _ _ _ _ _ _ _ O0 Ch)) (or_introl eq_refl) Hu) as (w & b & E & _). eauto.
  - (* array *) intros m s x ns c st a mm fr L inl ini o No K. inversion K.
  - (* blocks *)
    intros m s ns ts st a mm fr L inl ini o No K Dk Ch Em W Ok Rs Qs. eapply xb_full; eauto; [apply (xb_nil strict)|]. inversion K; subst. cbn [run_tasks]. now apply lands_done.
  - intros m s t ts0 m1 v s1 X IH ns ts st a mm fr L inl ini o No K Dk Ch Em W Ok Rs Qs. eapply xb_full; eauto; [eapply (xb_return strict); eauto|].
    destruct Ok as [Ok _]. inversion K as [|? x ? ? K2|? x ? ? K2|? ? c ? ts' K1 K2]; subst; [inversion X|inversion X|].
    cbn [run_tasks]. eapply lands_bind; [eapply (IH ns c st a mm fr L inl ini o); eauto; intros y Hy; apply Dk; rewrite decls_cons; apply in_app_iff; now left|].
    intros [r1 st1] n1 (Q1 & _ & Fl & _) _. cbn [fst snd] in *. rewrite Fl. apply lands_done. exact Q1.
  - intros m s t ts0 m1 v s1 m2 r s2 X IH Xr IHr ns ts st a mm fr L inl ini o No K Dk Ch Em W Ok Rs Qs. eapply xb_full; [eapply (xb_cons strict); [exact X|exact Xr]|exact No|exact K|exact Dk|exact Ch|exact Em|exact W|exact Ok|exact Rs|].
    destruct Ok as [Ok1 Ok2]. inversion K as [|? x ? ? K2|? x ? ? K2|? ? c ? ts' K1 K2]; subst.
    + inversion X; subst. eapply lands_mono; [eapply (IHr ns ts st a mm fr L inl ini o); eauto|]. intros p np (Qp & _) _. exact Qp.
    + inversion X; subst. eapply lands_mono; [eapply (IHr ns ts st a mm fr L inl ini o); eauto|]. intros p np (Qp & _) _. exact Qp.
    + cbn [run_tasks]. eapply lands_bind; [eapply (IH ns c st a mm fr L inl ini o); eauto; intros y Hy; apply Dk; rewrite decls_cons; apply in_app_iff; now left|].
      intros [r1 st1] n1 (Q1 & _ & Fl & R1 & mm' & fr' & Ee & Ch1 & Sf1 & Km1 & Kp1) _. cbn [fst snd] in *. rewrite Fl.
      assert (N1 : exists o1, nth_error (sheap st1) a = Some o1 /\ fcons o1 = fcons o /\ keys (ffuns o1) = keys (ffuns o)).
      { destruct Kp1 as [_ Kp1]. destruct (Kp1 a o No) as (o1 & N1 & (_ & _ & _ & _ & Fc & Fk & _) & _). eauto. }
      destruct N1 as (o1 & N1 & Fc1 & Fk1).
      eapply lands_mono; [eapply (IHr ns ts' st1 a mm' fr' L inl ini o1 N1)|].
      * eapply kids_keeps; eauto.
      * intros y Hy. rewrite Fc1, Fk1. apply Dk. rewrite decls_cons. apply in_app_iff. now right.
      * exact Ch1.
      * exact Ee.
      * eapply world_keeps; eauto.
      * rewrite <- Ee. rewrite (next_keys _ _ _ _ _ _ Sf1 Km1). destruct t; exact Ok2.
      * exact R1.
      * exact Q1.
      * intros p np (Qp & _) _. exact Qp.
  - (* conditions *)
    intros m c va s1 vb s2 b V1 IH1 V2 IH2 Dc ns cc cur st a mm fr L En Ch Em Se W [Ok1 Ok2] Qs. destruct En as [sx o e1 e2 c1 c2 En1 En2]. cbn [cleft cright cop] in *.
    destruct Qs as [C D]. unfold static_condition. cbn [inputs]. unfold aside.
    eapply lands_bind with (P := fun p => strip (rvals (fst p)) = va /\ Q (snd p) /\ older (sheap st) (sheap (snd p)) /\ record_of (snd p) = record_of st).
    { eapply lands_bind; [eapply (IH1 ns c1 cur (St (sheap st) (Coll [] []) [] (sstored st)) a mm fr L); eauto; split; auto|].
      intros [r1 st1] n1 (Q1 & E1 & _ & _ & _ & O1) _. cbn [fst snd sheap] in *. apply lands_done. cbn. auto. }
    intros [r1 st1] n1 (E1 & [C1 D1] & O1 & R1) _. cbn [fst snd] in *.
    eapply lands_bind with (P := fun p => strip (rvals (fst p)) = vb /\ Q (snd p) /\ older (sheap st1) (sheap (snd p)) /\ record_of (snd p) = record_of st1).
    { eapply lands_bind; [eapply (IH2 ns c2 cur (St (sheap st1) (Coll [] []) [] (sstored st1)) a mm fr L); cbn [sheap]; eauto using chain_older, sees_older, world_older; split; auto|].
      intros [r2 st2] n2 (Q2 & E2 & _ & _ & _ & O2) _. cbn [fst snd sheap] in *. apply lands_done. cbn. auto. }
    intros [r2 st2] n2 (E2 & Q2 & O2 & R2) _. cbn [fst snd] in *. destruct Dc as (x & y & -> & -> & Nx & Ny & Ecmp). rewrite E1, E2, Nx, Ny. cbn [andb].
    eapply lands_pure; [exact Ecmp|]. apply lands_done. cbn [fst snd]. split; auto. split; [exact Q2|]. split; [eapply older_trans; eauto|congruence].
  - (* indices *)
    intros m ns cs cur st a mm fr L En Ch Em Se W Ok Qs. inversion En; subst. cbn [index_names]. apply lands_done. cbn. split; auto. split; auto. split; [apply older_refl|auto].
  - intros m e v s1 i es l V IH (f & -> & Nf & Ei) Is IHi ns cs cur st a mm fr L En Ch Em Se W Ok Qs. inversion En as [|? c ? cs' E1 E2]; subst e0 es0 cs. inversion Ok as [|? ? Ok1 Ok2]; subst x l0.
    destruct Qs as [C D]. cbn [index_names]. unfold aside.
    eapply lands_bind with (P := fun p => strip (rvals (fst p)) = [f] /\ Q (snd p) /\ older (sheap st) (sheap (snd p)) /\ record_of (snd p) = record_of st).
    { eapply lands_bind; [eapply (IH ns c cur (St (sheap st) (Coll [] []) [] (sstored st)) a mm fr L); eauto; split; auto|].
      intros [r1 st1] n1 (Q1 & Ev1 & _ & _ & _ & O1) _. cbn [fst snd sheap] in *. apply lands_done. cbn. auto. }
    intros [r1 st1] n1 (Ev1 & Q1 & O1 & R1) _. cbn [fst snd] in *. rewrite Ev1, Nf. eapply lands_pure; [rewrite Ei; reflexivity|]. cbn beta.
    eapply lands_bind; [eapply (IHi ns cs' cur st1 a mm fr L); eauto using chain_older, sees_older, world_older|].
    intros [b st2] n2 (Eb & Q2 & O2 & R2) _. cbn [fst snd] in *. subst b. apply lands_done. cbn [fst snd]. split; [reflexivity|]. split; [exact Q2|]. split; [eapply older_trans; eauto|congruence].
Qed.

(** ** Main *)
Lemma complete_total st r v s' : ddone sym (record_of st) v s' -> opt (strip (rvals r)) = v ->
  exists st', complete sort hash st (strip (rvals r)) = Done st' /\ sheap st' = sheap st /\ sstored st' = sstored st /\ record_of st' = s'.
Proof using Type.
  intros Dn Ov.
  assert (Ec : complete sort hash (St [] (scoll st) (strace st) []) (strip (rvals r)) = Done (St [] (fst s') (snd s') [])).
  { subst v. revert Dn. cbn. destruct (strip (rvals r)); intros Dn; exact Dn. }
  assert (E : exists st', complete sort hash st (strip (rvals r)) = Done st').
  { revert Ec. generalize (strip (rvals r)). intros f. unfold complete. cbn [scoll].
    destruct (complete_function sort hash (scoll st) f) as [c|]; [|discriminate]. cbn [get bind].
    destruct f as [|x [|y f]]; [eauto| |].
    - destruct (is_number x || (mult x =? 1)%Z); [eauto|]. destruct (list_signature hash [x]); [|discriminate]. cbn. eauto.
    - destruct (list_signature hash (x :: y :: f)); [|discriminate]. cbn. eauto. }
  destruct E as (st' & E). exists st'. split; auto. destruct (complete_done _ _ _ _ _ E) as (H1 & H2). split; auto.
  split; [now rewrite (complete_stored _ _ _ _ _ E)|].
  rewrite Ec in H2. injection H2 as H2 H3. unfold record_of. rewrite <- H2, <- H3. now destruct s'.
Qed.
Lemma main_total m s B r s1 : mb strict fs m s B r s1 -> forall ns ts st a mm fr L o,
  nth_error (sheap st) a = Some o -> kids (sheap st) a B ts -> (forall x, In x (decls B) -> In x (keys (fcons o)) /\ In x (keys (ffuns o))) ->
  chain ns L (sheap st) ((a, mm) :: fr) -> env_of ((a, mm) :: fr) = m -> world (sheap st) -> block_ok fs ns false false (keys m) B ->
  record_of st = s -> Q st ->
  lands (fun n => execute_tasks sort hash (compile n a) ts st) (fun p => Q (snd p) /\ opt (strip (rvals (fst p))) = r /\ record_of (snd p) = s1).
Proof.
  destruct strict_total as (_ & _ & _ & PX & _).
  induction 1 as [m s|m s t B m1 v s1 s2 X Dn|m s t B m1 v s1 s2 r s3 X Dn Xr IHr]; intros ns ts st a mm fr L o No K Dk Ch Em W Ok Rs Qs.
  - inversion K; subst. cbn [execute_tasks]. apply lands_done. cbn. auto.
  - destruct Ok as [Ok1 Ok2]. inversion K as [|? x ? ? K2|? x ? ? K2|? ? c ? ts' K1 K2]; subst; [inversion X|inversion X|].
    all: cbn [execute_tasks]; eapply lands_bind; [eapply (PX _ _ _ _ _ _ _ X ns c st a mm fr L false false o); eauto; intros y Hy; apply Dk; rewrite decls_cons; apply in_app_iff; now left|].
    all: intros [r1 st1] n1 (Q1 & Or & Fl & R1 & _) _; cbn [fst snd] in *.
    all: rewrite <- R1 in Dn; destruct (complete_total _ _ _ _ Dn Or) as (st2 & E2 & H1 & H2 & H3).
    all: eapply lands_pure; [exact E2|]; rewrite Fl; apply lands_done; cbn [fst snd]; destruct Q1 as [Q1a Q1b]; split; [split; [rewrite H1|rewrite H2]; assumption|]; auto.
  - destruct Ok as [Ok1 Ok2]. inversion K as [|? x ? ? K2|? x ? ? K2|? ? c ? ts' K1 K2].
    + subst. inversion X; subst. assert (Es : s2 = record_of st).
      { cbn in Dn. destruct s2 as [c2 t2]. cbn in Dn. injection Dn as <- <-. reflexivity. }
      subst s2. eapply IHr; eauto.
    + subst. inversion X; subst. assert (Es : s2 = record_of st).
      { cbn in Dn. destruct s2 as [c2 t2]. cbn in Dn. injection Dn as <- <-. reflexivity. }
      subst s2. eapply IHr; eauto.
    + subst. cbn [execute_tasks]. eapply lands_bind; [eapply (PX _ _ _ _ _ _ _ X ns c st a mm fr L false false o); eauto; intros y Hy; apply Dk; rewrite decls_cons; apply in_app_iff; now left|].
      intros [r1 st1] n1 ([Q1a Q1b] & Or & Fl & R1 & mm' & fr' & Ee & Ch1 & Sf1 & Km1 & Kp1) _. cbn [fst snd] in *.
      rewrite <- R1 in Dn. destruct (complete_total _ _ _ _ Dn Or) as (st2 & E2 & H1 & H2 & H3).
      eapply lands_pure; [exact E2|]. rewrite Fl. rewrite <- H1 in Ch1, Kp1.
      assert (N1 : exists o1, nth_error (sheap st2) a = Some o1 /\ fcons o1 = fcons o /\ keys (ffuns o1) = keys (ffuns o)).
      { destruct Kp1 as [_ Kp1]. destruct (Kp1 a o No) as (o1 & N1 & (_ & _ & _ & _ & Fc & Fk & _) & _). eauto. }
      destruct N1 as (o1 & N1 & Fc1 & Fk1).
      eapply (IHr ns ts' st2 a mm' fr' L o1 N1).
      * eapply kids_keeps; eauto.
      * intros y Hy. rewrite Fc1, Fk1. apply Dk. rewrite decls_cons. apply in_app_iff. now right.
      * exact Ch1.
      * exact Ee.
      * eapply world_keeps; eauto.
      * rewrite <- Ee. rewrite (next_keys _ _ _ _ _ _ Sf1 Km1). destruct t; exact Ok2.
      * exact H3.
      * split; [rewrite H1|rewrite H2]; assumption.
Qed.
End P.

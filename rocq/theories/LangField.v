(** The meaning over factor lists and the meaning over the field agree. *)
Require Import ZArith Znumtheory Lia Bool Ascii String List Permutation.
Require Import Verif.Cong Verif.FqModel Verif.FqProofs Verif.FactorModel Verif.FactorSpec Verif.FactorProofs Verif.ExprModel Verif.ExprSpec Verif.ExprProofs Verif.SolveProofs
  Verif.ParserModel Verif.CircuitModel Verif.LangSpec Verif.LangHeap Verif.LangSym.
Import ListNotations.
Local Open Scope string_scope.
Local Open Scope list_scope.
Local Open Scope nat_scope.

Scheme ev_mut := Minimality for ev Sort Prop with evs_mut := Minimality for evs Sort Prop with call_mut := Minimality for call Sort Prop
  with xs_mut := Minimality for xs Sort Prop with xb_mut := Minimality for xb Sort Prop with test_mut := Minimality for test Sort Prop
  with idxs_mut := Minimality for idxs Sort Prop.
Combined Scheme sem_ind from ev_mut, evs_mut, call_mut, xs_mut, xb_mut, test_mut, idxs_mut.

(** ** Related environments *)
Section Env.
Variables A B : Type.
Variable R : A -> B -> Prop.
Definition related (m : list (string * A)) (m' : list (string * B)) : Prop := Forall2 (fun p p' => fst p = fst p' /\ R (snd p) (snd p')) m m'.
Lemma related_find m m' x u v : related m m' -> find_at x m = Some u -> find_at x m' = Some v -> R u v.
Proof.
  induction 1 as [|[y a] [y' b] m m' [E H] F IH]; cbn; [discriminate|]. cbn in E, H. subst y'. destruct (String.eqb x y); [intros [= <-] [= <-]; auto|auto].
Qed.
Lemma related_app m1 m1' m2 m2' : related m1 m1' -> related m2 m2' -> related (m1 ++ m2) (m1' ++ m2').
Proof. apply Forall2_app. Qed.
Lemma related_one x a b : R a b -> related [(x, a)] [(x, b)].
Proof. intros H. constructor; [split; auto|constructor]. Qed.
Lemma related_put m m' x a b : R a b -> related m m' -> related (put_at x a m) (put_at x b m').
Proof.
  intros H. induction 1 as [|[y c] [y' d] m m' [E Hc] F IH]; cbn; [constructor|]. cbn in E, Hc. subst y'. destruct (String.eqb x y); constructor; auto; split; auto.
Qed.
Lemma related_firstn n : forall m m', related m m' -> related (firstn n m) (firstn n m').
Proof. induction n as [|n IH]; intros m m' H; [constructor|]. destruct H; cbn; [constructor|]. constructor; auto. now apply IH. Qed.
Lemma related_combine ps : forall l l', Forall2 R l l' -> related (combine ps l) (combine ps l').
Proof. induction ps as [|p ps IH]; intros l l' H; [constructor|]. destruct H; cbn; [constructor|]. constructor; [split; auto|]. now apply IH. Qed.
Lemma related_length m m' : related m m' -> List.length m = List.length m'.
Proof. induction 1; cbn; auto. Qed.
Lemma related_cut n n' m m' : n = n' -> related m m' -> related (firstn n m) (firstn n' m').
Proof. intros <-. apply related_firstn. Qed.
End Env.
Arguments related {A B}.
Lemma related_impl {A B} (R S : A -> B -> Prop) m m' : (forall a b, R a b -> S a b) -> related R m m' -> related S m m'.
Proof. intros H. induction 1 as [|p p' m m' [E1 E2] F IH]; constructor; auto. Qed.

Definition all_env {A} (P : A -> Prop) (m : list (string * A)) : Prop := Forall (fun p => P (snd p)) m.
Lemma all_find {A} (P : A -> Prop) m x u : all_env P m -> find_at x m = Some u -> P u.
Proof. induction 1 as [|[y a] m H F IH]; cbn; [discriminate|]. destruct (String.eqb x y); [intros [= <-]; auto|auto]. Qed.
Lemma all_put {A} (P : A -> Prop) m x a : P a -> all_env P m -> all_env P (put_at x a m).
Proof. intros H. induction 1 as [|[y c] m Hc F IH]; cbn; [constructor|]. destruct (String.eqb x y); constructor; auto. Qed.
Lemma all_firstn {A} (P : A -> Prop) n m : all_env P m -> all_env P (firstn n m).
Proof. revert m. induction n as [|n IH]; intros m H; [constructor|]. destruct H; cbn; constructor; auto. now apply IH. Qed.
Lemma all_combine {A} (P : A -> Prop) ps : forall l, Forall P l -> all_env P (combine ps l).
Proof. induction ps as [|p ps IH]; intros l H; [constructor|]. destruct H; cbn; constructor; auto. now apply IH. Qed.
Lemma all_app {A} (P : A -> Prop) m1 m2 : all_env P m1 -> all_env P m2 -> all_env P (m1 ++ m2).
Proof. intros. apply Forall_app. auto. Qed.
Definition all_opt {A} (P : A -> Prop) (o : option A) : Prop := match o with Some a => P a | None => True end.
Definition opt_rel {A B} (R : A -> B -> Prop) (a : option A) (b : option B) : Prop :=
  match a, b with Some x, Some y => R x y | None, None => True | _, _ => False end.

Section P.
Variable sort : factors -> factors.
Hypothesis sort_perm : forall l, Permutation (sort l) l.
Variable hash : string -> Z.
Variable q : Z.
Hypothesis Hq : prime q.
Variable gx : Z -> Z.
Variable fs : defs.
Notation sym := (sym sort hash q).
Notation F := (field_values q gx).
Notation good := (good q).
Notation gate_holds := (gate_holds q gx).
Notation all_hold := (all_hold q gx).

Lemma fac_plain x : fac_ok q x -> FactorProofs.plain x.
Proof. intros [[T _]|[T _]]; [now right|now left]. Qed.
Lemma good_plain f : good f -> f <> [] /\ Forall FactorProofs.plain f.
Proof. intros (A & B & _). split; auto. eapply Forall_impl; [|exact B]. apply fac_plain. Qed.

(** ** The gates only grow *)
Definition gr (s s' : collector * list gate) : Prop := grows (fst s) (snd s) (fst s') (snd s').
Definition inv (s : collector * list gate) : Prop := Inv (fst s) (snd s).
Lemma gr_trans s s1 s2 : gr s s1 -> gr s1 s2 -> gr s s2.
Proof. apply grows_trans. Qed.
Lemma gr_inv s s' : gr s s' -> inv s'.
Proof. intros [A _]. exact A. Qed.
Lemma gr_refl s : inv s -> gr s s.
Proof. apply grows_refl. Qed.

Lemma base_step s a v s' : dbase sym s a v s' -> inv s ->
  gr s s' /\ exists g i, with_id sort hash (Gate GBase "" [] [] a [] false no_token) = Some g /\ snd s' = snd s ++ [g] /\ v = wire i 1 /\ gid g = i /\
    collect sort hash (fst s) (Gate GBase "" [] [] a [] false no_token) (fun g => g) = Some (fst s', i).
Proof.
  destruct s' as [c' t']. intros [E (g & Eg & Es)] Hi. cbn [fst snd] in *. unfold compile_base in E. destruct (collect _ _ _ _ _) as [[c i]|] eqn:EC; [|discriminate]. injection E as <- <-.
  destruct (base_gate sort sort_perm hash q gx g a Eg) as (Wg & Fg & _).
  destruct (collect_Inv sort hash q gx (fst s) (snd s) _ g _ _ i Hi EC Eg (eq_sym Fg) Wg) as (_ & Ei & _).
  split; [unfold gr; cbn [fst snd]; rewrite Es; apply (step_grows sort hash q gx (fst s) (snd s) _ g _ _ i Hi EC Eg (eq_sym Fg) Wg)|]. exists g, i. auto.
Qed.
Lemma equal_step s a b s' : dequal sym s a b s' -> inv s ->
  gr s s' /\ exists g i, with_id sort hash (Gate GEqual "" a b [] [] true no_token) = Some g /\ snd s' = snd s ++ [g] /\ gid g = i /\
    collect sort hash (fst s) (Gate GEqual "" a b [] [] true no_token) (fun g => g) = Some (fst s', i).
Proof.
  destruct s' as [c' t']. intros [E (g & Eg & Es)] Hi. cbn [fst snd] in *. unfold compile_equal in E. destruct (collect _ _ _ _ _) as [[c i]|] eqn:EC; [|discriminate]. injection E as <-.
  destruct (equal_gate sort sort_perm hash q gx g a b Eg) as (Wg & Fg & _).
  destruct (collect_Inv sort hash q gx (fst s) (snd s) _ g _ _ i Hi EC Eg (eq_sym Fg) Wg) as (_ & Ei & _).
  split; [unfold gr; cbn [fst snd]; rewrite Es; apply (step_grows sort hash q gx (fst s) (snd s) _ g _ _ i Hi EC Eg (eq_sym Fg) Wg)|]. exists g, i. auto.
Qed.
Lemma op_step o s a b v s' : dop sym o s a b v s' -> inv s -> good a -> good b -> gr s s' /\ good v.
Proof.
  cbn [dop LangSym.sym]. intros E Hi Ga Gb. destruct (good_plain _ Ga), (good_plain _ Gb).
  destruct (op_sound sort sort_perm hash q Hq gx (fst s) o a b (snd s) _ _ _ E Hi) as (G & _); auto. split; [exact G|]. eapply good_op; [exact Ga|exact Gb|exact E].
Qed.

Lemma grow_all :
  (forall m s e v s', ev sym fs m s e v s' -> all_env good m -> inv s -> gr s s' /\ good v) /\
  (forall m s es vs s', evs sym fs m s es vs s' -> all_env good m -> inv s -> gr s s' /\ Forall good vs) /\
  (forall s f vs r s', call sym fs s f vs r s' -> Forall good vs -> inv s -> gr s s' /\ all_opt good r) /\
  (forall m s t m' r b s', xs sym fs m s t m' r b s' -> all_env good m -> inv s -> gr s s' /\ all_opt good r /\ all_env good m') /\
  (forall m s ts m' r s', xb sym fs m s ts m' r s' -> all_env good m -> inv s -> gr s s' /\ all_opt good r /\ all_env good m') /\
  (forall m c b, test sym fs m c b -> True) /\ (forall m es l, idxs sym fs m es l -> True).
Proof.
  apply sem_ind.
  - intros m s x v (z & b & Ez & ->) Em Hi. split; [now apply gr_refl|]. split; [discriminate|]. split; [|cbn; lia]. constructor; auto. left. split; auto. cbn [ftok ident mult].
    unfold string_to_field in Ez. destruct (set_string10 x) as [y|]; [|discriminate]. injection Ez as <- _. exists y. split; auto. now rewrite Zmod_mod.
  - intros m s x u v Fx Rd Em Hi. split; [now apply gr_refl|]. eapply good_read; [eapply all_find; eauto|exact Rd].
  - intros m s o a b s1 va s2 vb v s3 _ IHa _ IHb Do Em Hi. destruct (IHa Em Hi) as [G1 Ga]. destruct (IHb Em (gr_inv _ _ G1)) as [G2 Gb].
    destruct (op_step _ _ _ _ _ _ Do (gr_inv _ _ G2) Ga Gb) as [G3 Gv]. split; auto. eapply gr_trans; [eapply gr_trans; eauto|eauto].
  - intros m s a va s1 v s2 _ IHa Do Em Hi. destruct (IHa Em Hi) as [G1 Ga]. destruct (base_step _ _ _ _ Do (gr_inv _ _ G1)) as [G2 _].
    split; [eapply gr_trans; eauto|]. destruct Do as [E _]. eapply good_base; exact E.
  - intros m s f args vs s1 v s2 _ IHa _ IHc Em Hi. destruct (IHa Em Hi) as [G1 Ga]. destruct (IHc Ga (gr_inv _ _ G1)) as [G2 Gv]. split; [eapply gr_trans; eauto|exact Gv].
  - intros m s a es l u v _ _ Fx Re Em Hi. split; [now apply gr_refl|]. eapply good_reload; [|exact Re]. apply (all_find _ _ _ _ Em Fx).
  - intros m s Em Hi. split; [now apply gr_refl|constructor].
  - intros m s e v s1 es vs s2 _ IHa _ IHc Em Hi. destruct (IHa Em Hi) as [G1 Ga]. destruct (IHc Em (gr_inv _ _ G1)) as [G2 Gv]. split; [eapply gr_trans; eauto|now constructor].
  - intros s f ps body vs m r s1 _ _ _ IH Gv Hi. destruct (IH (all_combine _ _ _ Gv) Hi) as (G & Gr & _). auto.
  - intros m s x e v s1 _ IH Em Hi. destruct (IH Em Hi) as [G Gv]. split; auto. split; auto. apply all_app; auto. constructor; auto.
  - intros m s x e v s1 _ IH _ Em Hi. destruct (IH Em Hi) as [G Gv]. split; auto. split; auto. now apply all_put.
  - intros m s a b va s1 vb s2 s3 _ IHa _ IHb Do Em Hi. destruct (IHa Em Hi) as [G1 Ga]. destruct (IHb Em (gr_inv _ _ G1)) as [G2 Gb].
    destruct (equal_step _ _ _ _ Do (gr_inv _ _ G2)) as [G3 _]. split; [eapply gr_trans; [eapply gr_trans; eauto|eauto]|]. split; [exact I|auto].
  - intros m s f args vs s1 r s2 _ IHa _ IHc Em Hi. destruct (IHa Em Hi) as [G1 Ga]. destruct (IHc Ga (gr_inv _ _ G1)) as [G2 Gv]. split; [eapply gr_trans; eauto|auto].
  - intros m s e v s1 _ IH Em Hi. destruct (IH Em Hi) as [G Gv]. auto.
  - intros m s c x e body _ _ Em Hi. split; [now apply gr_refl|]. split; [exact I|auto].
  - intros m s c x e body m1 s1 v s2 m2 s3 _ _ _ IHb _ IHe _ _ IHf Em Hi. destruct (IHb Em Hi) as (G1 & _ & E1).
    destruct (IHe (all_firstn _ _ _ E1) (gr_inv _ _ G1)) as (G2 & Gv).
    destruct (IHf (all_put _ _ _ _ Gv (all_firstn _ _ _ E1)) (gr_inv _ _ G2)) as (G3 & _ & E3). split; [eapply gr_trans; [eapply gr_trans; eauto|eauto]|]. split; [exact I|auto].
  - intros m s c body _ _ Em Hi. split; [now apply gr_refl|]. split; [exact I|auto].
  - intros m s c body m1 r s1 _ _ _ IHb Em Hi. destruct (IHb Em Hi) as (G1 & Gr & E1). split; auto. split; auto. now apply all_firstn.
  - intros m s x Em Hi. split; [now apply gr_refl|]. split; [exact I|auto].
  - intros m s a es e l v s1 _ _ _ IH _ Em Hi. destruct (IH Em Hi) as [G Gv]. split; auto. split; auto. now apply all_put.
  - intros m s x Em Hi. split; [now apply gr_refl|]. split; [exact I|auto].
  - intros m s Em Hi. split; [now apply gr_refl|]. split; [exact I|auto].
  - intros m s t ts m1 v s1 _ IH Em Hi. auto.
  - intros m s t ts m1 v s1 m2 r s2 _ IH1 _ IH2 Em Hi. destruct (IH1 Em Hi) as (G1 & _ & E1). destruct (IH2 E1 (gr_inv _ _ G1)) as (G2 & Gr & E2).
    split; [eapply gr_trans; eauto|auto].
  - auto.
  - auto.
  - auto.
Qed.

(** ** Numbers known at compile time *)
Definition krel (f : factors) (v : value) : Prop :=
  match v with Known z => exists x, f = [x] /\ is_number x = true /\ mult x = z /\ (0 <= z < q)%Z /\ fac_ok q x | Wire _ => True end.
Lemma q_pos : (0 < q)%Z.
Proof. destruct Hq; lia. Qed.
Lemma small_eq a b : (0 <= a < q)%Z -> (0 <= b < q)%Z -> a ==[q] b -> a = b.
Proof. apply cong_canon_unique. Qed.
Definition shape (f : factors) : Prop := exists x, f = [x] /\ is_number x = true /\ (0 <= mult x < q)%Z.
Lemma shape_mul x y f : is_number x = true -> is_number y = true -> mul_factors q [x] [y] = Some f -> shape f.
Proof.
  intros Nx Ny. cbn. unfold mul_factor. rewrite Nx, Ny. cbn [andb].
  assert (Ix : is_in (ttyp (ftok x)) = false) by (apply is_number_iff in Nx; now rewrite Nx).
  assert (Iy : is_in (ttyp (ftok y)) = false) by (apply is_number_iff in Ny; now rewrite Ny).
  rewrite Ix, Iy. cbn [andb]. unfold both_number. apply is_number_iff in Nx, Ny. rewrite Nx, Ny. cbn. intros [= <-]. eexists. split; [reflexivity|]. split; [reflexivity|].
  cbn [mult]. apply Z.mod_pos_bound, q_pos.
Qed.
Lemma shape_add x y : is_number x = true -> is_number y = true -> shape (add_factors q [x] [y]).
Proof.
  intros Nx Ny. unfold add_factors. cbn [add_loop add_into]. unfold add_factor, both_number. apply is_number_iff in Nx, Ny. rewrite Nx, Ny. cbn [andb ttype_eqb].
  assert (Q := Z.mod_pos_bound (mult x + mult y) q q_pos). cbn [app filter mult]. unfold fadd.
  destruct (((mult x + mult y) mod q =? 0)%Z); cbn [negb]; (eexists; split; [reflexivity|]; split; [reflexivity|]); cbn [mult]; assert (P := q_pos); lia.
Qed.
Lemma known_op o c tr c' f tr' x y a b v : compile_op_tr sort hash q c o [x] [y] tr = Some (c', f, tr') ->
  is_number x = true -> is_number y = true -> fac_ok q x -> fac_ok q y -> mult x = a -> mult y = b -> value_op q o (Known a) (Known b) v -> krel f v.
Proof.
  intros E Nx Ny Ox Oy Ma Mb V.
  assert (Gf : good f).
  { assert (G1 : forall z, fac_ok q z -> good [z]) by (intros z Oz; split; [discriminate|]; split; [now constructor|]; cbn; destruct (is_number z); cbn; lia).
    eapply good_op; [exact (G1 x Ox)|exact (G1 y Oy)|exact E]. } assert (Sx : is_single_number [x] = true) by exact Nx. assert (Sy : is_single_number [y] = true) by exact Ny.
  assert (Px : Forall FactorProofs.plain [x]) by (constructor; auto; right; now apply is_number_iff).
  assert (Py : Forall FactorProofs.plain [y]) by (constructor; auto; right; now apply is_number_iff).
  set (w := fun _ : string => 0%Z).
  assert (Lx : lin w [x] = a) by (cbn; rewrite (fac_val_number w x Nx); lia).
  assert (Ly : lin w [y] = b) by (cbn; rewrite (fac_val_number w y Ny); lia).
  assert (Q : shape f /\ op_val q o w [x] [y] f).
  { unfold compile_op_tr, compile_op in E. rewrite Sx, Sy in E. cbn [orb negb] in E. rewrite !andb_false_r in E.
    destruct (String.eqb_spec o "*") as [->|_].
    { destruct (mul_factors q [x] [y]) as [g|] eqn:Em; [|discriminate]. injection E as <- <- <-. split; [now apply (shape_mul x y)|]. left. split; auto.
      apply mul_factors_val; auto. left. split; auto. discriminate. }
    destruct (String.eqb_spec o "/") as [->|_].
    { destruct (invert_factors q [y]) as [i|] eqn:Ei; [|discriminate]. destruct (mul_factors q [x] i) as [g|] eqn:Em; [|discriminate]. injection E as <- <- <-.
      assert (NZ : ~ b ==[q] 0).
      { inversion V as [? ? ? ? _ R| |]; subst. inversion R; subst; auto. }
      destruct (invert_val q w _ _ Hq Sy ltac:(rewrite Ly; exact NZ) Ei) as [_ Iv].
      cbn in Ei. destruct (finv q (mult y)) as [j|]; [|discriminate]. rewrite Ny in Ei. injection Ei as <-. split; [eapply shape_mul; [exact Nx| |exact Em]; reflexivity|].
      right. left. split; auto. assert (MV := mul_factors_val q w [x] [Fac (Tok TNumber (dec j)) j] g ltac:(left; split; [exact Sx|discriminate]) Em). rewrite MV.
      rewrite <- Z.mul_assoc, (Z.mul_comm _ (lin w [y])), Iv, Z.mul_1_r. reflexivity. }
    destruct (String.eqb_spec o "+") as [->|_].
    { injection E as <- <- <-. split; [now apply shape_add|]. right. right. left. split; auto. apply add_factors_val. }
    destruct (String.eqb_spec o "-") as [->|_]; [|discriminate].
    injection E as <- <- <-. split.
    - cbn. rewrite Ny. now apply shape_add.
    - right. right. right. split; auto. rewrite (add_factors_val q w [x] (negate_factors [y])), (negate_val w [y]). now rewrite Z.add_opp_r. }
  destruct Q as ((x' & -> & Nx' & Bx') & OV).
  assert (Lx' : lin w [x'] = mult x') by (cbn; rewrite (fac_val_number w x' Nx'); lia).
  unfold op_val in OV. rewrite Lx, Ly, Lx' in OV.
  inversion V as [? ? ? z Bz R| |]; subst. exists x'. split; auto. split; auto. split; [|split; [exact Bz|destruct Gf as (_ & Gf & _); now inversion Gf]]. apply small_eq; auto.
  inversion R; subst; destruct OV as [[N OV]|[[N OV]|[[N OV]|[N OV]]]]; try discriminate N; try (now rewrite OV).
  match goal with H : ~ mult y ==[q] 0, K : z * mult y ==[q] mult x |- _ => rewrite <- K in OV; rewrite (Z.mul_comm (mult x')), (Z.mul_comm z) in OV; revert OV end.
  now apply cong_cancel.
Qed.
Lemma known_read u v u' : krel u u' -> read_as q u v -> krel v u'.
Proof.
  destruct u' as [z|z]; [|exact (fun _ _ => I)]. intros (x & -> & Nx & Mx & Bz & Ox). unfold read_as. change (is_single_number [x]) with (is_number x). rewrite Nx. intros ->.
  exists (Fac (Tok TNumber (ident (ftok x))) (mult x)). split; auto. split; auto. split; auto. split; auto. left. split; auto.
  destruct Ox as [[_ Ox]|[T _]]; [exact Ox|]. apply is_number_iff in Nx. rewrite T in Nx. discriminate.
Qed.
Lemma known_reload u v u' : krel u u' -> reload q u = Some v -> krel v u'.
Proof.
  destruct u' as [z|z]; [|exact (fun _ _ => I)]. intros (x & -> & Nx & Mx & Bz & Ox). cbn [reload]. unfold reread. rewrite Nx. unfold string_to_field.
  destruct Ox as [[_ (y & Y1 & Y2)]|[T _]]; [|apply is_number_iff in Nx; rewrite T in Nx; discriminate]. rewrite Y1. intros [= <-].
  exists (Fac (Tok TNumber (ident (ftok x))) (y mod q)%Z). split; auto. split; auto. cbn [mult ftok ident ttyp].
  split; [rewrite Y2, Mx; now apply Z.mod_small|]. split; auto. left. split; auto. exists y. split; auto. cbn [mult]. now rewrite Zmod_mod.
Qed.
Lemma known_index f v i i' : krel f v -> dindex sym f i -> dindex F v i' -> i = i'.
Proof.
  intros Kf (x & -> & Nx & Px) [-> Bi]. destruct Kf as (x' & E & _ & Mx & Bz & Ox). injection E as <-. unfold parse_index in Px.
  destruct Ox as [[_ (y & Y1 & Y2)]|[T _]]; [|apply is_number_iff in Nx; rewrite T in Nx; discriminate]. rewrite Y1 in Px.
  destruct ((0 <=? y)%Z && (y <? 2 ^ 63)%Z) eqn:By; [|discriminate]. injection Px as <-. apply andb_true_iff in By. destruct By as [B1 B2]. apply Z.leb_le in B1. apply Z.ltb_lt in B2.
  rewrite Mx, (Z.mod_small i') in Y2 by exact Bz. rewrite <- Y2. symmetry. apply Z.mod_small. lia.
Qed.
Lemma known_num s f v : dnum sym s f -> dnum F s v -> krel f v.
Proof.
  intros (z & b & E & ->) (z' & E' & ->). unfold string_to_field in E. rewrite E' in E. injection E as <- _. exists (Fac (Tok TNumber s) (z' mod q)). split; auto. split; auto. split; auto. split; [apply Z.mod_pos_bound, q_pos|].
  left. split; auto. exists z'. split; auto. cbn [mult]. now rewrite Zmod_mod.
Qed.
Lemma known_cmp o f g u v b b' : krel f u -> krel g v -> dcmp sym o f g b -> dcmp F o u v b' -> b = b'.
Proof.
  intros Ku Kv (x & y & -> & -> & _ & _ & C) C'. cbn [dcmp field_values] in C'.
  destruct C'; destruct Ku as (x' & [= <-] & _ & <- & _), Kv as (y' & [= <-] & _ & <- & _); cbn in C; now injection C.
Qed.
Ltac inv H := inversion H; subst; clear H.

Lemma op_krel o s a b v s' r u1 u2 u r' : dop sym o s a b v s' -> krel a u1 -> krel b u2 -> dop F o r u1 u2 u r' -> krel v u.
Proof.
  cbn [dop LangSym.sym]. intros E K1 K2 [V _]. inversion V; subst; try exact I.
  destruct K1 as (x & -> & Nx & Mx & _ & Ox), K2 as (y & -> & Ny & My & _ & Oy). eapply known_op; [exact E|exact Nx|exact Ny|exact Ox|exact Oy|exact Mx|exact My|exact V].
Qed.

Lemma known_all :
  (forall m s e v s', ev sym fs m s e v s' -> forall m' r v' r', related krel m m' -> ev F fs m' r e v' r' -> krel v v') /\
  (forall m s es vs s', evs sym fs m s es vs s' -> forall m' r vs' r', related krel m m' -> evs F fs m' r es vs' r' -> Forall2 krel vs vs') /\
  (forall s f vs v s', call sym fs s f vs v s' -> forall r vs' v' r', Forall2 krel vs vs' -> call F fs r f vs' v' r' -> opt_rel krel v v') /\
  (forall m s t m1 v b s', xs sym fs m s t m1 v b s' -> forall m' r m1' v' b' r', related krel m m' -> xs F fs m' r t m1' v' b' r' ->
     related krel m1 m1' /\ opt_rel krel v v' /\ b = b') /\
  (forall m s ts m1 v s', xb sym fs m s ts m1 v s' -> forall m' r m1' v' r', related krel m m' -> xb F fs m' r ts m1' v' r' ->
     related krel m1 m1' /\ opt_rel krel v v') /\
  (forall m c b, test sym fs m c b -> forall m' b', related krel m m' -> test F fs m' c b' -> b = b') /\
  (forall m es l, idxs sym fs m es l -> forall m' l', related krel m m' -> idxs F fs m' es l' -> l = l').
Proof.
  apply sem_ind.
  - intros m s x v Hn m' r v' r' Em H. inv H. eapply known_num; eauto.
  - intros m s x u v Fx Rd m' r v' r' Em H. inv H. cbn in *. subst. eapply known_read; [eapply related_find; eauto|exact Rd].
  - intros m s o a b s1 va s2 vb v s3 _ IHa _ IHb Do m' r v' r' Em H. inv H. eapply op_krel; [exact Do|eapply IHa; eauto|eapply IHb; eauto|eauto].
  - intros m s a va s1 v s2 _ _ _ m' r v' r' Em H. inv H. match goal with K : dbase F _ _ _ _ |- _ => destruct K as [(z & _ & ->) _] end. exact I.
  - intros m s f args vs s1 v s2 _ IHa _ IHc m' r v' r' Em H. inv H. refine (IHc _ _ (Some _) _ _ _); [eapply IHa; eauto|eauto].
  - intros m s a es l u v _ IHi Fx Re m' r v' r' Em H. inv H. match goal with K : idxs F _ _ _ _ |- _ => specialize (IHi _ _ Em K) end. subst. cbn in *. subst.
    eapply known_reload; [eapply related_find; eauto|exact Re].
  - intros m s m' r vs' r' Em H. inv H. constructor.
  - intros m s e v s1 es vs s2 _ IHa _ IHc m' r vs' r' Em H. inv H. constructor; eauto.
  - intros s f ps body vs m v s1 Ff _ _ IH r vs' v' r' Rv H. inv H. match goal with K : find_at f fs = Some (Fun _ _) |- _ => rewrite Ff in K; injection K as <- <- end.
    eapply IH; [|eauto]. now apply related_combine.
  - intros m s x e v s1 _ IH m' r m1' v' b' r' Em H. inv H. assert (Kv : krel v v0) by eauto. split; [|split; auto]. apply related_app; auto. now apply related_one.
  - intros m s x e v s1 _ IH _ m' r m1' v' b' r' Em H. inv H. assert (Kv : krel v v0) by eauto. split; [|split; auto]. now apply related_put.
  - intros m s a b va s1 vb s2 s3 _ IHa _ IHb Do m' r m1' v' b' r' Em H. inv H. split; auto. split; [exact I|auto].
  - intros m s f args vs s1 v s2 _ IHa _ IHc m' r m1' v' b' r' Em H. inv H. split; auto. split; eauto.
  - intros m s e v s1 _ IH m' r m1' v' b' r' Em H. inv H. split; auto. split; auto. cbn. eauto.
  - intros m s c x e body _ IHt m' r m1' v' b' r' Em H. inv H; [split; auto; split; [exact I|auto]|]. exfalso. match goal with K : test F _ _ _ true |- _ => specialize (IHt _ _ Em K) end. discriminate.
  - intros m s c x e body m1 s1 v s2 m2 s3 _ IHt _ IHb _ IHe _ _ IHf m' r m1' v' b' r' Em H.
    inv H; [exfalso; match goal with K : test F _ _ _ false |- _ => specialize (IHt _ _ Em K) end; discriminate|].
    assert (E1 : related krel (firstn (List.length m) m1) (firstn (List.length m') m3)) by (apply related_cut; [exact (related_length _ _ _ _ _ Em)|eapply IHb; eauto]).
    eapply IHf; [|eauto]. apply related_put; auto. eapply IHe; eauto.
  - intros m s c body _ IHt m' r m1' v' b' r' Em H. inv H; [split; auto; split; [exact I|auto]|]. exfalso. match goal with K : test F _ _ _ true |- _ => specialize (IHt _ _ Em K) end. discriminate.
  - intros m s c body m1 v s1 _ IHt _ IHb m' r m1' v' b' r' Em H.
    inv H; [exfalso; match goal with K : test F _ _ _ false |- _ => specialize (IHt _ _ Em K) end; discriminate|].
    match goal with K : xb F _ _ _ _ _ _ _ |- _ => destruct (IHb _ _ _ _ _ Em K) as [E1 E2] end. split; [apply related_cut; [exact (related_length _ _ _ _ _ Em)|exact E1]|]. split; auto.
    destruct v, v'; auto; destruct E2.
  - intros m s x m' r m1' v' b' r' Em H. inv H. split; auto. split; [exact I|auto].
  - intros m s a es e l v s1 _ IHi _ IH _ m' r m1' v' b' r' Em H. inv H. match goal with K : idxs F _ _ _ _ |- _ => specialize (IHi _ _ Em K) end. subst.
    assert (Kv : krel v v0) by eauto. split; [|split; auto]. now apply related_put.
  - intros m s x m' r m1' v' b' r' Em H. inv H. split; auto. split; [exact I|auto].
  - intros m s m' r m1' v' r' Em H. inv H. split; auto. exact I.
  - intros m s t ts m1 v s1 _ IH m' r m1' v' r' Em H. inv H.
    + match goal with K : xs F _ _ _ _ _ _ _ _ |- _ => destruct (IH _ _ _ _ _ _ Em K) as (E1 & E2 & _) end. auto.
    + match goal with K : xs F _ _ _ _ _ _ _ _ |- _ => destruct (IH _ _ _ _ _ _ Em K) as (_ & _ & N) end. discriminate.
  - intros m s t ts m1 v s1 m2 v2 s2 _ IH1 _ IH2 m' r m1' v' r' Em H. inv H.
    + match goal with K : xs F _ _ _ _ _ _ _ _ |- _ => destruct (IH1 _ _ _ _ _ _ Em K) as (_ & _ & N) end. discriminate.
    + match goal with K : xs F _ _ _ _ _ _ _ _ |- _ => destruct (IH1 _ _ _ _ _ _ Em K) as (E1 & _) end. eapply IH2; eauto.
  - intros m c va s1 vb s2 b _ IHa _ IHb C m' b' Em H. inv H. eapply known_cmp; [eapply IHa; eauto|eapply IHb; eauto|exact C|eauto].
  - intros m m' l' Em H. inv H. reflexivity.
  - intros m e v s1 i es l _ IHe Di _ IHi m' l' Em H. inv H. f_equal; [|eauto]. eapply known_index; [eapply IHe; eauto|exact Di|eauto].
Qed.

(** ** What the gates force *)
Definition vrel (w : assignment) (f : factors) (v : value) : Prop := krel f v /\ num_of v ==[q] lin w f.
Definition agree (p : Z * Z) : Prop := fst p ==[q] snd p.
Definition forced (w : assignment) (s : collector * list gate) : Prop := no_collision (snd s) /\ all_hold w (gates (fst s)).
Lemma vrel_krel w m m' : related (vrel w) m m' -> related krel m m'.
Proof. apply related_impl. intros a b [A _]. exact A. Qed.
Lemma forced_back w s s' : gr s s' -> forced w s' -> forced w s.
Proof. intros G [A B]. split; [eapply grows_nc; eauto|eapply grows_hold; eauto]. Qed.
Lemma value_result o u1 u2 u : value_op q o u1 u2 u -> result_of q o (num_of u1) (num_of u2) (num_of u).
Proof. intros V. inversion V; subst; auto. Qed.

Lemma reread_val w x f : fac_ok q x -> reread q x = Some f -> lin w f ==[q] fac_val w x.
Proof.
  intros Hx. unfold reread. destruct (is_number x) eqn:E.
  - destruct Hx as [[_ (z & Z1 & Z2)]|[T _]]; [|apply is_number_iff in E; rewrite T in E; discriminate].
    unfold string_to_field. rewrite Z1. intros [= <-]. cbn. rewrite (fac_val_number w x E). unfold fac_val. cbn. rewrite Z.add_0_r, cong_mod.
    apply cong_mod_iff; auto. destruct Hq; lia.
  - rewrite (fac_val_wire w x E). destruct (Z.eqb_spec (mult x) 1) as [->|_]; intros [= <-]; [now rewrite lin_wire|].
    change (lin w (wire (ident (ftok x)) (fmul q 1 (mult x mod q))) ==[q] mult x * w (ident (ftok x))).
    rewrite lin_wire. unfold fmul. now rewrite cong_mod, Z.mul_1_l, cong_mod.
Qed.
Lemma reload_val w : forall f g, Forall (fac_ok q) f -> reload q f = Some g -> lin w g ==[q] lin w f.
Proof.
  induction f as [|x f IH]; [discriminate|]. intros g H. inversion H as [|? ? Hx Hf]; subst. destruct f as [|y f].
  - cbn [reload]. intros E. rewrite (reread_val w x g Hx E). cbn. now rewrite Z.add_0_r.
  - remember (y :: f) as t. cbn [reload]. rewrite Heqt. rewrite <- Heqt. destruct (reread q x) as [a|] eqn:Ea; [|discriminate].
    destruct (reload q t) as [b|] eqn:Eb; [|discriminate]. intros [= <-]. rewrite add_factors_val. cbn [lin]. now rewrite (reread_val w x a Hx Ea), (IH b Hf eq_refl).
Qed.
Lemma read_val w u v : good u -> read_as q u v -> lin w v ==[q] lin w u.
Proof.
  intros (_ & H & _). unfold read_as. destruct (is_single_number u) eqn:E.
  - destruct (single_number_inv u E) as (x & -> & Nx). intros ->. cbn. rewrite (fac_val_number w x Nx). reflexivity.
  - now apply reload_val.
Qed.

Lemma op_vrel w o s a b v s' r u1 u2 u r' : dop sym o s a b v s' -> inv s -> good a -> good b -> forced w s' ->
  vrel w a u1 -> vrel w b u2 -> dop F o r u1 u2 u r' -> vrel w v u.
Proof.
  intros E Hi Ga Gb [NC HA] [K1 V1] [K2 V2] D. split; [eapply op_krel; eauto|]. destruct D as [V _]. apply value_result in V.
  cbn [dop LangSym.sym] in E. destruct (good_plain _ Ga), (good_plain _ Gb).
  destruct (op_sound sort sort_perm hash q Hq gx (fst s) o a b (snd s) _ _ _ E Hi) as (_ & _ & _ & OV); auto.
  specialize (OV w NC HA). inversion V as [x y z R Eo|x y z R Eo|x y z R Eo|x y z NZ R Eo]; subst o x y z.
  - destruct (OV ltac:(discriminate)) as [[N OW]|[[N OW]|[[N OW]|[N OW]]]]; try discriminate N. now rewrite OW, R, V1, V2.
  - destruct (OV ltac:(discriminate)) as [[N OW]|[[N OW]|[[N OW]|[N OW]]]]; try discriminate N. now rewrite OW, R, V1, V2.
  - destruct (OV ltac:(discriminate)) as [[N OW]|[[N OW]|[[N OW]|[N OW]]]]; try discriminate N. now rewrite OW, R, V1, V2.
  - destruct (OV ltac:(intros _ ZZ; apply NZ; now rewrite V2)) as [[N OW]|[[N OW]|[[N OW]|[N OW]]]]; try discriminate N.
    apply (cong_cancel q Hq (lin w b)); [now rewrite <- V2|]. rewrite (Z.mul_comm (lin w b) (lin w v)), OW, <- V1, <- R, Z.mul_comm, V2. reflexivity.
Qed.
Lemma base_vrel w s a v s' r u1 u r' : dbase sym s a v s' -> inv s -> forced w s' -> vrel w a u1 -> dbase F r u1 u r' -> vrel w v u.
Proof.
  intros E Hi [NC HA] [_ V1] [(z & Ez & ->) _]. split; [exact I|]. destruct (base_step _ _ _ _ E Hi) as (G & g & i & Eg & Es & -> & Ei & EC).
  destruct (base_gate sort sort_perm hash q gx g a Eg) as (Wg & Fg & Hg).
  assert (X : gate_holds w (finish g)).
  { eapply Inv_holds; [exact (gr_inv _ _ G)|exact NC|exact HA|]. rewrite Es. apply last_in. }
  apply Hg in X. rewrite lin_wire, Z.mul_1_l, <- Ei, <- X. cbn [num_of]. rewrite Ez. apply cong_eq. f_equal. apply cong_mod_iff; auto. destruct Hq; lia.
Qed.
Lemma equal_agree w s a b s' u1 u2 : dequal sym s a b s' -> inv s -> forced w s' -> vrel w a u1 -> vrel w b u2 -> num_of u1 ==[q] num_of u2.
Proof.
  intros E Hi [NC HA] [_ V1] [_ V2]. destruct (equal_step _ _ _ _ E Hi) as (G & g & i & Eg & Es & Ei & EC).
  destruct (equal_gate sort sort_perm hash q gx g a b Eg) as (Wg & Fg & Hg).
  assert (X : gate_holds w (finish g)).
  { eapply Inv_holds; [exact (gr_inv _ _ G)|exact NC|exact HA|]. rewrite Es. apply last_in. }
  apply Hg in X. now rewrite V1, V2.
Qed.

(** The equalities asked for hold, and no gate divides by zero. *)
Definition kept (w : assignment) (s : collector * list gate) (r : list (Z * Z)) : Prop := Forall agree r /\ Forall (div_ok q w) (gates (fst s)).
Lemma op_kept w o s a b v s' r u1 u2 u r' : dop sym o s a b v s' -> inv s -> good a -> good b ->
  vrel w a u1 -> vrel w b u2 -> dop F o r u1 u2 u r' -> kept w s r -> kept w s' r.
Proof.
  intros E Hi Ga Gb _ [_ V2] [V _] [A B]. split; auto. apply value_result in V. cbn [dop LangSym.sym] in E.
  eapply (op_divs sort sort_perm hash q gx (fst s) o a b (snd s)); [exact E|exact Hi| |exact B].
  intros -> Z0. inversion V as [| | |? ? ? NZ]; subst. apply NZ. now rewrite V2.
Qed.
Lemma base_kept w s a v s' r : dbase sym s a v s' -> inv s -> kept w s r -> kept w s' r.
Proof.
  intros E Hi [A B]. split; auto. destruct (base_step _ _ _ _ E Hi) as (_ & g & i & Eg & _ & _ & _ & EC).
  destruct (base_gate sort sort_perm hash q gx g a Eg) as (Wg & Fg & _).
  apply (collect_divs sort hash q gx (fst s) (snd s) _ g _ (fst s') i Hi EC Eg (eq_sym Fg) Wg w); auto.
  rewrite Fg. apply with_id_gid in Eg. intros T. rewrite Eg in T. discriminate.
Qed.
Lemma equal_kept w s a b s' r p : dequal sym s a b s' -> inv s -> agree p -> kept w s r -> kept w s' (r ++ [p]).
Proof.
  intros E Hi P [A B]. split; [apply Forall_app; auto|]. destruct (equal_step _ _ _ _ E Hi) as (_ & g & i & Eg & _ & _ & EC).
  destruct (equal_gate sort sort_perm hash q gx g a b Eg) as (Wg & Fg & _).
  apply (collect_divs sort hash q gx (fst s) (snd s) _ g _ (fst s') i Hi EC Eg (eq_sym Fg) Wg w); auto.
  rewrite Fg. apply with_id_gid in Eg. intros T. rewrite Eg in T. discriminate.
Qed.

Lemma sound_all w :
  (forall m s e v s', ev sym fs m s e v s' -> forall m' r v' r', all_env good m -> inv s -> forced w s' -> related (vrel w) m m' -> ev F fs m' r e v' r' ->
     vrel w v v' /\ (kept w s r -> kept w s' r')) /\
  (forall m s es vs s', evs sym fs m s es vs s' -> forall m' r vs' r', all_env good m -> inv s -> forced w s' -> related (vrel w) m m' -> evs F fs m' r es vs' r' ->
     Forall2 (vrel w) vs vs' /\ (kept w s r -> kept w s' r')) /\
  (forall s f vs v s', call sym fs s f vs v s' -> forall r vs' v' r', Forall good vs -> inv s -> forced w s' -> Forall2 (vrel w) vs vs' -> call F fs r f vs' v' r' ->
     opt_rel (vrel w) v v' /\ (kept w s r -> kept w s' r')) /\
  (forall m s t m1 v b s', xs sym fs m s t m1 v b s' -> forall m' r m1' v' b' r', all_env good m -> inv s -> forced w s' -> related (vrel w) m m' -> xs F fs m' r t m1' v' b' r' ->
     related (vrel w) m1 m1' /\ opt_rel (vrel w) v v' /\ b = b' /\ (kept w s r -> kept w s' r')) /\
  (forall m s ts m1 v s', xb sym fs m s ts m1 v s' -> forall m' r m1' v' r', all_env good m -> inv s -> forced w s' -> related (vrel w) m m' -> xb F fs m' r ts m1' v' r' ->
     related (vrel w) m1 m1' /\ opt_rel (vrel w) v v' /\ (kept w s r -> kept w s' r')) /\
  (forall m c b, test sym fs m c b -> forall m' b', related krel m m' -> test F fs m' c b' -> b = b') /\
  (forall m es l, idxs sym fs m es l -> forall m' l', related krel m m' -> idxs F fs m' es l' -> l = l').
Proof.
  destruct grow_all as (GE & GS & GC & GX & GB & _).
  apply sem_ind.
  - intros m s x v Hn m' r v' r' Em Hi HF Er H. inv H. split; auto. split; [eapply known_num; eauto|].
    match goal with K : dnum F _ _ |- _ => destruct K as (z & Ez & ->) end. destruct Hn as (z' & b & Ez' & ->). unfold string_to_field in Ez'. rewrite Ez in Ez'. injection Ez' as <- _. cbn.
    unfold fac_val. cbn. rewrite Z.add_0_r. reflexivity.
  - intros m s x u v Fx Rd m' r v' r' Em Hi HF Er H. inv H. match goal with K : dread F _ _ |- _ => cbn in K; subst end. split; auto.
    assert (R : vrel w u u0) by (eapply related_find; eauto). destruct R as [R1 R2]. split; [eapply known_read; eauto|].
    rewrite R2. symmetry. apply read_val; [eapply all_find; eauto|exact Rd].
  - intros m s o a b s1 va s2 vb v s3 Da IHa Db IHb Do m' r v' r' Em Hi HF Er H. inv H.
    destruct (GE _ _ _ _ _ Da Em Hi) as [G1 Ga]. destruct (GE _ _ _ _ _ Db Em (gr_inv _ _ G1)) as [G2 Gb].
    destruct (op_step _ _ _ _ _ _ Do (gr_inv _ _ G2) Ga Gb) as [G3 _].
    assert (F2 := forced_back _ _ _ G3 HF). assert (F1 := forced_back _ _ _ G2 F2).
    match goal with K : ev F _ _ r a _ _, K' : ev F _ _ _ b _ _ |- _ => destruct (IHa _ _ _ _ Em Hi F1 Er K) as [Ra Aa]; destruct (IHb _ _ _ _ Em (gr_inv _ _ G1) F2 Er K') as [Rb Ab] end.
    match goal with K : dop F _ _ _ _ _ _ |- _ => split; [exact (op_vrel w _ _ _ _ _ _ _ _ _ _ _ Do (gr_inv _ _ G2) Ga Gb HF Ra Rb K)|]; pose proof (op_kept w _ _ _ _ _ _ _ _ _ _ _ Do (gr_inv _ _ G2) Ga Gb Ra Rb K); destruct K as [_ ->] end. auto.
  - intros m s a va s1 v s2 Da IHa Do m' r v' r' Em Hi HF Er H. inv H.
    destruct (GE _ _ _ _ _ Da Em Hi) as [G1 Ga]. destruct (base_step _ _ _ _ Do (gr_inv _ _ G1)) as [G2 _]. assert (F1 := forced_back _ _ _ G2 HF).
    match goal with K : ev F _ _ r a _ _ |- _ => destruct (IHa _ _ _ _ Em Hi F1 Er K) as [Ra Aa] end.
    match goal with K : dbase F _ _ _ _ |- _ => split; [exact (base_vrel w _ _ _ _ _ _ _ _ Do (gr_inv _ _ G1) HF Ra K)|]; destruct K as [_ ->] end. intros A. apply (base_kept w _ _ _ _ _ Do (gr_inv _ _ G1)). auto.
  - intros m s f args vs s1 v s2 Da IHa Dc IHc m' r v' r' Em Hi HF Er H. inv H.
    destruct (GS _ _ _ _ _ Da Em Hi) as [G1 Ga]. destruct (GC _ _ _ _ _ Dc Ga (gr_inv _ _ G1)) as [G2 _]. assert (F1 := forced_back _ _ _ G2 HF).
    match goal with K : evs F _ _ r args _ _, K' : call F _ _ _ _ _ _ |- _ => destruct (IHa _ _ _ _ Em Hi F1 Er K) as [Ra Aa]; destruct (IHc _ _ _ _ Ga (gr_inv _ _ G1) HF Ra K') as [Rc Ac] end. auto.
  - intros m s a es l u v _ IHi Fx Re m' r v' r' Em Hi HF Er H. inv H. match goal with K : idxs F _ _ _ _ |- _ => specialize (IHi _ _ (vrel_krel _ _ _ Er) K) end. subst.
    match goal with K : delem F _ _ |- _ => cbn in K; subst end. split; auto.
    assert (R : vrel w u u0) by (eapply related_find; eauto). destruct R as [R1 R2]. split; [eapply known_reload; eauto|].
    rewrite R2. symmetry. apply reload_val; [|exact Re]. apply (all_find _ _ _ _ Em Fx).
  - intros m s m' r vs' r' Em Hi HF Er H. inv H. split; auto.
  - intros m s e v s1 es vs s2 Da IHa Dc IHc m' r vs' r' Em Hi HF Er H. inv H.
    destruct (GE _ _ _ _ _ Da Em Hi) as [G1 Ga]. destruct (GS _ _ _ _ _ Dc Em (gr_inv _ _ G1)) as [G2 _]. assert (F1 := forced_back _ _ _ G2 HF).
    match goal with K : ev F _ _ r e _ _, K' : evs F _ _ _ _ _ _ |- _ => destruct (IHa _ _ _ _ Em Hi F1 Er K) as [Ra Aa]; destruct (IHc _ _ _ _ Em (gr_inv _ _ G1) HF Er K') as [Rc Ac] end. auto.
  - intros s f ps body vs m v s1 Ff _ Db IH r vs' v' r' Gv Hi HF Rv H. inv H. match goal with K : find_at f fs = Some (Fun _ _) |- _ => rewrite Ff in K; injection K as <- <- end.
    match goal with K : xb F _ _ _ _ _ _ _ |- _ => destruct (IH _ _ _ _ _ (all_combine _ _ _ Gv) Hi HF (related_combine _ _ _ ps _ _ Rv) K) as (_ & A & B) end. auto.
  - intros m s x e v s1 _ IH m' r m1' v' b' r' Em Hi HF Er H. inv H. match goal with K : ev F _ _ _ _ _ _ |- _ => destruct (IH _ _ _ _ Em Hi HF Er K) as [A B] end.
    split; [|split; auto]. apply related_app; auto. now apply related_one.
  - intros m s x e v s1 _ IH _ m' r m1' v' b' r' Em Hi HF Er H. inv H. match goal with K : ev F _ _ _ _ _ _ |- _ => destruct (IH _ _ _ _ Em Hi HF Er K) as [A B] end.
    split; [|split; auto]. now apply related_put.
  - intros m s a b va s1 vb s2 s3 Da IHa Db IHb Do m' r m1' v' b' r' Em Hi HF Er H. inv H. split; auto. split; [exact I|]. split; auto.
    destruct (GE _ _ _ _ _ Da Em Hi) as [G1 Ga]. destruct (GE _ _ _ _ _ Db Em (gr_inv _ _ G1)) as [G2 Gb].
    destruct (equal_step _ _ _ _ Do (gr_inv _ _ G2)) as [G3 _].
    assert (F2 := forced_back _ _ _ G3 HF). assert (F1 := forced_back _ _ _ G2 F2).
    match goal with K : ev F _ _ r a _ _, K' : ev F _ _ _ b _ _ |- _ => destruct (IHa _ _ _ _ Em Hi F1 Er K) as [Ra Aa]; destruct (IHb _ _ _ _ Em (gr_inv _ _ G1) F2 Er K') as [Rb Ab] end.
    match goal with K : dequal F _ _ _ _ |- _ => cbn [dequal field_values] in K; rewrite K end. intros A. apply (equal_kept w _ _ _ _ _ _ Do (gr_inv _ _ G2)); auto.
    exact (equal_agree w _ _ _ _ _ _ Do (gr_inv _ _ G2) HF Ra Rb).
  - intros m s f args vs s1 v s2 Da IHa Dc IHc m' r m1' v' b' r' Em Hi HF Er H. inv H.
    destruct (GS _ _ _ _ _ Da Em Hi) as [G1 Ga]. destruct (GC _ _ _ _ _ Dc Ga (gr_inv _ _ G1)) as [G2 _]. assert (F1 := forced_back _ _ _ G2 HF).
    match goal with K : evs F _ _ r args _ _, K' : call F _ _ _ _ _ _ |- _ => destruct (IHa _ _ _ _ Em Hi F1 Er K) as [Ra Aa]; destruct (IHc _ _ _ _ Ga (gr_inv _ _ G1) HF Ra K') as [Rc Ac] end. split; auto.
  - intros m s e v s1 _ IH m' r m1' v' b' r' Em Hi HF Er H. inv H. match goal with K : ev F _ _ _ _ _ _ |- _ => destruct (IH _ _ _ _ Em Hi HF Er K) as [A B] end. auto.
  - intros m s c x e body _ IHt m' r m1' v' b' r' Em Hi HF Er H. inv H; [split; auto; split; [exact I|auto]|]. exfalso.
    match goal with K : test F _ _ _ true |- _ => specialize (IHt _ _ (vrel_krel _ _ _ Er) K) end. discriminate.
  - intros m s c x e body m1 s1 v s2 m2 s3 _ IHt Db IHb De IHe _ Df IHf m' r m1' v' b' r' Em Hi HF Er H.
    inv H; [exfalso; match goal with K : test F _ _ _ false |- _ => specialize (IHt _ _ (vrel_krel _ _ _ Er) K) end; discriminate|].
    destruct (GB _ _ _ _ _ _ Db Em Hi) as (G1 & _ & E1). assert (E1' := all_firstn _ (List.length m) _ E1).
    destruct (GE _ _ _ _ _ De E1' (gr_inv _ _ G1)) as (G2 & Gv). assert (E2' := all_put _ _ x _ Gv E1').
    destruct (GX _ _ _ _ _ _ _ Df E2' (gr_inv _ _ G2)) as (G3 & _).
    assert (F2 := forced_back _ _ _ G3 HF). assert (F1 := forced_back _ _ _ G2 F2).
    match goal with K : xb F _ _ _ _ _ _ _ |- _ => destruct (IHb _ _ _ _ _ Em Hi F1 Er K) as (R1 & _ & A1) end.
    assert (R1' := related_cut _ _ _ _ _ _ _ (related_length _ _ _ _ _ Er) R1).
    match goal with K : ev F _ _ _ _ _ _ |- _ => destruct (IHe _ _ _ _ E1' (gr_inv _ _ G1) F2 R1' K) as (R2 & A2) end.
    match goal with K : xs F _ _ _ _ _ _ _ _ |- _ => destruct (IHf _ _ _ _ _ _ E2' (gr_inv _ _ G2) HF (related_put _ _ _ _ _ x _ _ R2 R1') K) as (R3 & _ & _ & A3) end.
    split; auto. split; [exact I|auto].
  - intros m s c body _ IHt m' r m1' v' b' r' Em Hi HF Er H. inv H; [split; auto; split; [exact I|auto]|]. exfalso.
    match goal with K : test F _ _ _ true |- _ => specialize (IHt _ _ (vrel_krel _ _ _ Er) K) end. discriminate.
  - intros m s c body m1 v s1 _ IHt _ IHb m' r m1' v' b' r' Em Hi HF Er H.
    inv H; [exfalso; match goal with K : test F _ _ _ false |- _ => specialize (IHt _ _ (vrel_krel _ _ _ Er) K) end; discriminate|].
    match goal with K : xb F _ _ _ _ _ _ _ |- _ => destruct (IHb _ _ _ _ _ Em Hi HF Er K) as (E1 & E2 & A) end.
    split; [apply related_cut; [exact (related_length _ _ _ _ _ Er)|exact E1]|]. split; auto. split; auto.
    destruct v, v'; auto; destruct E2.
  - intros m s x m' r m1' v' b' r' Em Hi HF Er H. inv H. split; auto. split; [exact I|auto].
  - intros m s a es e l v s1 _ IHi _ IH _ m' r m1' v' b' r' Em Hi HF Er H. inv H. match goal with K : idxs F _ _ _ _ |- _ => specialize (IHi _ _ (vrel_krel _ _ _ Er) K) end. subst.
    match goal with K : ev F _ _ _ _ _ _ |- _ => destruct (IH _ _ _ _ Em Hi HF Er K) as [A B] end.
    split; [|split; auto]. now apply related_put.
  - intros m s x m' r m1' v' b' r' Em Hi HF Er H. inv H. split; auto. split; [exact I|auto].
  - intros m s m' r m1' v' r' Em Hi HF Er H. inv H. split; auto. split; [exact I|auto].
  - intros m s t ts m1 v s1 _ IH m' r m1' v' r' Em Hi HF Er H. inv H.
    + match goal with K : xs F _ _ _ _ _ _ _ _ |- _ => destruct (IH _ _ _ _ _ _ Em Hi HF Er K) as (E1 & E2 & _ & A) end. auto.
    + match goal with K : xs F _ _ _ _ _ _ _ _ |- _ => destruct (IH _ _ _ _ _ _ Em Hi HF Er K) as (_ & _ & N & _) end. discriminate.
  - intros m s t ts m1 v s1 m2 v2 s2 Dx IH1 Db IH2 m' r m1' v' r' Em Hi HF Er H.
    destruct (GX _ _ _ _ _ _ _ Dx Em Hi) as (G1 & _ & E1). destruct (GB _ _ _ _ _ _ Db E1 (gr_inv _ _ G1)) as (G2 & _). assert (F1 := forced_back _ _ _ G2 HF). inv H.
    + match goal with K : xs F _ _ _ _ _ _ _ _ |- _ => destruct (IH1 _ _ _ _ _ _ Em Hi F1 Er K) as (_ & _ & N & _) end. discriminate.
    + match goal with K : xs F _ _ _ _ _ _ _ _, K' : xb F _ _ _ _ _ _ _ |- _ => destruct (IH1 _ _ _ _ _ _ Em Hi F1 Er K) as (R1 & _ & _ & A1);
        destruct (IH2 _ _ _ _ _ E1 (gr_inv _ _ G1) HF R1 K') as (R2 & O2 & A2) end. auto.
  - intros m c va s1 vb s2 b Da _ Db _ C m' b' Em H. destruct known_all as (_ & _ & _ & _ & _ & T & _). eapply T; [|exact Em|exact H]. econstructor; eauto.
  - intros m m' l' Em H. inv H. reflexivity.
  - intros m e v s1 i es l De _ Di Dl _ m' l' Em H. destruct known_all as (_ & _ & _ & _ & _ & _ & T). eapply T; [|exact Em|exact H]. econstructor; eauto.
Qed.

Lemma record_all :
  (forall m s e v s', ev F fs m s e v s' -> exists t, s' = s ++ t) /\
  (forall m s es vs s', evs F fs m s es vs s' -> exists t, s' = s ++ t) /\
  (forall s f vs v s', call F fs s f vs v s' -> exists t, s' = s ++ t) /\
  (forall m s t m1 v b s', xs F fs m s t m1 v b s' -> exists t, s' = s ++ t) /\
  (forall m s ts m1 v s', xb F fs m s ts m1 v s' -> exists t, s' = s ++ t) /\
  (forall m c b, test F fs m c b -> True) /\ (forall m es l, idxs F fs m es l -> True).
Proof.
  assert (R : forall s : list (Z * Z), exists t, s = s ++ t) by (intros s; exists []; now rewrite app_nil_r).
  assert (T : forall s s1 s2 : list (Z * Z), (exists t, s1 = s ++ t) -> (exists t, s2 = s1 ++ t) -> exists t, s2 = s ++ t).
  { intros s s1 s2 [t1 ->] [t2 ->]. exists (t1 ++ t2). now rewrite app_assoc. }
  apply sem_ind; intros; auto.
  - match goal with K : dop F _ _ _ _ _ _ |- _ => destruct K as [_ ->] end. eauto.
  - match goal with K : dbase F _ _ _ _ |- _ => destruct K as [_ ->] end. eauto.
  - eauto.
  - eauto.
  - match goal with K : dequal F _ _ _ _ |- _ => cbn in K; subst end. eapply T; [eapply T; eauto|eauto].
  - eauto.
  - eapply T; [eapply T; eauto|eauto].
  - eauto.
Qed.

(** ** Values exist for the gates *)
Section V.
Variable V : string -> Prop.
Notation K := (K V).
Notation Closed := (Closed V).
Notation extends := (extends V).
Notation apart := (apart V).
Definition st_ok (w : assignment) (s : collector * list gate) : Prop := inv s /\ Closed (fst s) /\ all_hold w (gates (fst s)).
Definition move (w : assignment) (s : collector * list gate) (w' : assignment) (s' : collector * list gate) : Prop := gr s s' /\ extends (fst s) w w'.
Definition vok (w : assignment) (s : collector * list gate) (f : factors) (v : value) : Prop := good f /\ Forall (fac_in (K (fst s))) f /\ vrel w f v.
Definition fine (s' : collector * list gate) : Prop := no_collision (snd s') /\ apart (fst s').
Lemma fine_back s s' : gr s s' -> fine s' -> fine s.
Proof. intros G [A B]. split; [eapply grows_nc; eauto|]. eapply apart_incl; [apply G|exact B]. Qed.
Lemma move_refl w s : inv s -> move w s w s.
Proof. intros H. split; [now apply gr_refl|intros x _; reflexivity]. Qed.
Lemma move_trans w s w1 s1 w2 s2 : move w s w1 s1 -> move w1 s1 w2 s2 -> move w s w2 s2.
Proof. intros [A1 B1] [A2 B2]. split; [eapply gr_trans; eauto|]. eapply extends_trans; [apply A1|exact B1|exact B2]. Qed.
Lemma vok_move w s w1 s1 f v : move w s w1 s1 -> vok w s f v -> vok w1 s1 f v.
Proof.
  intros [G E] (A & B & C & D). split; auto. split; [|split; auto].
  - eapply fac_in_mono; [|exact B]. intros x. apply K_mono. apply G.
  - rewrite D. apply cong_eq. apply (lin_ext (K (fst s))); auto. intros x Hx. symmetry. now apply E.
Qed.
Lemma vok_env w s w1 s1 m m' : move w s w1 s1 -> related (vok w s) m m' -> related (vok w1 s1) m m'.
Proof. intros M. apply related_impl. intros a b. now apply vok_move. Qed.
Lemma vok_good w s m m' : related (vok w s) m m' -> all_env good m.
Proof. induction 1 as [|p p' m m' [_ (A & _)] _ IH]; constructor; auto. Qed.
Lemma vok_known w s m m' : related (vok w s) m m' -> related krel m m'.
Proof. apply related_impl. intros a b (_ & _ & A & _). exact A. Qed.
Lemma vok_list_good w s vs vs' : Forall2 (vok w s) vs vs' -> Forall good vs.
Proof. induction 1 as [|a b vs vs' (A & _) _ IH]; constructor; auto. Qed.
Lemma vok_list_move w s w1 s1 vs vs' : move w s w1 s1 -> Forall2 (vok w s) vs vs' -> Forall2 (vok w1 s1) vs vs'.
Proof. intros M. induction 1; constructor; auto. eapply vok_move; eauto. Qed.

Lemma reread_in c x f : fac_in (K c) x -> reread q x = Some f -> Forall (fac_in (K c)) f.
Proof.
  intros Hx. unfold reread. destruct (is_number x) eqn:E.
  - destruct (string_to_field q (ident (ftok x))) as [[z b]|]; [|discriminate]. intros [= <-]. constructor; [intros N; discriminate|constructor].
  - destruct (mult x =? 1)%Z; intros [= <-]; apply (wire_in (K c)); now apply Hx.
Qed.
Lemma reload_in c u v : Forall (fac_in (K c)) u -> reload q u = Some v -> Forall (fac_in (K c)) v.
Proof.
  intros H. revert v. induction H as [|x f Hx Hf IH]; [discriminate|]. intros g. destruct f as [|y f]; [apply reread_in; auto|].
    remember (y :: f) as t. cbn [reload]. rewrite Heqt. rewrite <- Heqt. destruct (reread q x) as [a|] eqn:Ea; [|discriminate].
    destruct (reload q t) as [b|] eqn:Eb; [|discriminate]. intros [= <-]. apply add_factors_in; [eapply reread_in; eauto|auto].
Qed.
Lemma read_in c u v : Forall (fac_in (K c)) u -> read_as q u v -> Forall (fac_in (K c)) v.
Proof.
  intros H. unfold read_as. destruct (is_single_number u).
  - destruct u as [|x u]; [intros []|]. intros ->. constructor; [intros N; discriminate|constructor].
  - now apply reload_in.
Qed.

Lemma op_exists w o s a b v s' r u1 u2 u r' : dop sym o s a b v s' -> st_ok w s -> vok w s a u1 -> vok w s b u2 -> fine s' ->
  dop F o r u1 u2 u r' -> exists w', st_ok w' s' /\ move w s w' s' /\ vok w' s' v u.
Proof.
  intros E (Hi & Cl & HA) Va Vb [NC AP] D. destruct Va as (Ga & Ia & Va), Vb as (Gb & Ib & Vb). destruct (op_step _ _ _ _ _ _ E Hi Ga Gb) as [G Gv]. assert (E' := E). cbn [dop LangSym.sym] in E'.
  destruct (op_complete sort sort_perm hash q Hq gx V (fst s) o a b (snd s) _ _ _ E' Hi Cl Ia Ib AP) as (C' & I' & X).
  assert (D' := D). destruct D' as [VO _]. apply value_result in VO.
  destruct (X w HA) as (w' & EX & HA').
  { intros -> Z0. inversion VO as [| | |? ? ? NZ R]; subst. apply NZ. destruct Vb as [_ Vb]. now rewrite Vb. }
  exists w'. assert (M : move w s w' s') by (split; auto). split; [split; [exact (gr_inv _ _ G)|auto]|]. split; auto. split; auto. split; auto.
  destruct (vok_move _ _ _ _ _ _ M (conj Ga (conj Ia Va))) as (_ & _ & Va'). destruct (vok_move _ _ _ _ _ _ M (conj Gb (conj Ib Vb))) as (_ & _ & Vb').
  destruct Va as [K1 V1], Vb as [K2 V2].
  assert (L1 : lin w' a = lin w a) by (apply (lin_ext (K (fst s))); auto). assert (L2 : lin w' b = lin w b) by (apply (lin_ext (K (fst s))); auto).
  refine (op_vrel w' o s a b v s' r u1 u2 u r' E Hi Ga Gb (conj NC HA') _ _ D); [split; [exact K1|rewrite L1; exact V1]|split; [exact K2|rewrite L2; exact V2]].
Qed.
Lemma base_exists w s a v s' r u1 u r' : dbase sym s a v s' -> st_ok w s -> vok w s a u1 -> fine s' -> dbase F r u1 u r' ->
  exists w', st_ok w' s' /\ move w s w' s' /\ vok w' s' v u.
Proof.
  intros E (Hi & Cl & HA) (Ga & Ia & K1 & V1) [NC AP] D. destruct (base_step _ _ _ _ E Hi) as (G & g & i & Eg & Es & Ev & Ei & EC).
  assert (E1 := E). destruct E1 as [E1 _]. assert (Gv := good_base sort hash q _ _ _ _ E1).
  destruct (base_gate sort sort_perm hash q gx g a Eg) as (Wg & Fg & Hg).
  destruct (collect_Inv sort hash q gx (fst s) (snd s) _ g _ _ i Hi EC Eg (eq_sym Fg) Wg) as (_ & _ & Ik & _).
  destruct (with_id_sorted sort sort_perm hash (K (fst s)) _ _ Eg eq_refl) as (SL & SR & SE & SO & _). cbn [gleft gright gexp gout] in SL, SR, SE, SO.
  assert (C' : Closed (fst s')).
  { apply (step_closed sort hash q gx V (fst s) (snd s) _ g _ _ i Hi Cl EC Eg (eq_sym Fg) Wg).
    rewrite Fg. repeat split; try (eapply fac_in_mono; [|first [exact (SE Ia)|apply SL; constructor|apply SR; constructor|apply SO; constructor]]; auto). now right. }
  destruct (step_complete sort hash q gx V (fst s) (snd s) _ g _ _ i Hi Cl EC Eg (eq_sym Fg) Wg AP w (gx (lin w a mod q)) HA) as (w' & EX & HA').
  { intros w' EX Hv. apply Hg. rewrite Ei, Hv, (lin_ext (K (fst s)) w' w a) by auto. reflexivity. }
  exists w'. split; [split; [exact (gr_inv _ _ G)|auto]|]. split; [split; auto|]. split; auto. split; [rewrite Ev; apply wire_in; now right|].
  refine (base_vrel w' s a v s' r u1 u r' E Hi (conj NC HA') _ D). split; [exact K1|]. rewrite V1. apply cong_eq. apply (lin_ext (K (fst s))); auto. intros x Hx. symmetry. now apply EX.
Qed.
Lemma equal_exists w s a b s' u1 u2 : dequal sym s a b s' -> st_ok w s -> vok w s a u1 -> vok w s b u2 -> fine s' -> num_of u1 ==[q] num_of u2 ->
  exists w', st_ok w' s' /\ move w s w' s'.
Proof.
  intros E (Hi & Cl & HA) (Ga & Ia & K1 & V1) (Gb & Ib & K2 & V2) [NC AP] D. destruct (equal_step _ _ _ _ E Hi) as (G & g & i & Eg & Es & Ei & EC).
  destruct (equal_gate sort sort_perm hash q gx g a b Eg) as (Wg & Fg & Hg).
  destruct (with_id_sorted sort sort_perm hash (K (fst s)) _ _ Eg eq_refl) as (SL & SR & SE & SO & _). cbn [gleft gright gexp gout] in SL, SR, SE, SO.
  assert (C' : Closed (fst s')).
  { apply (step_closed sort hash q gx V (fst s) (snd s) _ g _ _ i Hi Cl EC Eg (eq_sym Fg) Wg).
    rewrite Fg. repeat split; try (eapply fac_in_mono; [|first [exact (SL Ia)|exact (SR Ib)|apply SE; constructor|apply SO; constructor]]; auto). now right. }
  destruct (step_complete sort hash q gx V (fst s) (snd s) _ g _ _ i Hi Cl EC Eg (eq_sym Fg) Wg AP w 0%Z HA) as (w' & EX & HA').
  { intros w' EX _. apply Hg. rewrite (lin_ext (K (fst s)) w' w a), (lin_ext (K (fst s)) w' w b) by auto. now rewrite <- V1, <- V2. }
  exists w'. split; [split; [exact (gr_inv _ _ G)|auto]|]. split; auto.
Qed.

Lemma agree_back (r r' : list (Z * Z)) : (exists t, r' = r ++ t) -> Forall agree r' -> Forall agree r.
Proof. intros [t ->] H. now apply Forall_app in H. Qed.

Lemma exists_all :
  (forall m s e v s', ev sym fs m s e v s' -> forall w m' r v' r', st_ok w s -> related (vok w s) m m' -> fine s' -> ev F fs m' r e v' r' -> Forall agree r' ->
     exists w', st_ok w' s' /\ move w s w' s' /\ vok w' s' v v') /\
  (forall m s es vs s', evs sym fs m s es vs s' -> forall w m' r vs' r', st_ok w s -> related (vok w s) m m' -> fine s' -> evs F fs m' r es vs' r' -> Forall agree r' ->
     exists w', st_ok w' s' /\ move w s w' s' /\ Forall2 (vok w' s') vs vs') /\
  (forall s f vs v s', call sym fs s f vs v s' -> forall w r vs' v' r', st_ok w s -> Forall2 (vok w s) vs vs' -> fine s' -> call F fs r f vs' v' r' -> Forall agree r' ->
     exists w', st_ok w' s' /\ move w s w' s' /\ opt_rel (vok w' s') v v') /\
  (forall m s t m1 v b s', xs sym fs m s t m1 v b s' -> forall w m' r m1' v' b' r', st_ok w s -> related (vok w s) m m' -> fine s' -> xs F fs m' r t m1' v' b' r' -> Forall agree r' ->
     exists w', st_ok w' s' /\ move w s w' s' /\ related (vok w' s') m1 m1' /\ opt_rel (vok w' s') v v' /\ b = b') /\
  (forall m s ts m1 v s', xb sym fs m s ts m1 v s' -> forall w m' r m1' v' r', st_ok w s -> related (vok w s) m m' -> fine s' -> xb F fs m' r ts m1' v' r' -> Forall agree r' ->
     exists w', st_ok w' s' /\ move w s w' s' /\ related (vok w' s') m1 m1' /\ opt_rel (vok w' s') v v') /\
  (forall m c b, test sym fs m c b -> forall m' b', related krel m m' -> test F fs m' c b' -> b = b') /\
  (forall m es l, idxs sym fs m es l -> forall m' l', related krel m m' -> idxs F fs m' es l' -> l = l').
Proof.
  destruct grow_all as (GE & GS & GC & GX & GB & _). destruct record_all as (RE & RS & RC & RX & RB & _). destruct known_all as (_ & _ & _ & KX & _ & _).
  apply sem_ind.
  - intros m s x v Hn w m' r v' r' Ok Er HF H A. inv H. exists w. split; auto. split; [apply move_refl, Ok|].
    match goal with K : dnum F _ _ |- _ => assert (KN := known_num _ _ _ Hn K); destruct K as (z & Ez & ->) end.
    assert (Gv : good v). { eapply GE; [apply ev_num; exact Hn|apply (vok_good _ _ _ _ Er)|apply Ok]. }
    split; auto. destruct Hn as (z' & b & Ez' & ->). split; [constructor; [intros N; discriminate|constructor]|]. split; auto.
    unfold string_to_field in Ez'. rewrite Ez in Ez'. injection Ez' as <- _. cbn. unfold fac_val. cbn. rewrite Z.add_0_r. reflexivity.
  - intros m s x u v Fx Rd w m' r v' r' Ok Er HF H A. inv H. match goal with K : dread F _ _ |- _ => cbn in K; subst end. exists w. split; auto. split; [apply move_refl, Ok|].
    assert (R : vok w s u u0) by (eapply related_find; eauto). destruct R as (R0 & R1 & R2 & R3). split; [eapply good_read; eauto|]. split; [eapply read_in; eauto|]. split; [eapply known_read; eauto|].
    rewrite R3. symmetry. apply read_val; auto.
  - intros m s o a b s1 va s2 vb v s3 Da IHa Db IHb Do w m' r v' r' Ok Er HF H A. inv H. assert (Em := vok_good _ _ _ _ Er).
    destruct (GE _ _ _ _ _ Da Em (proj1 Ok)) as [G1 Ga]. destruct (GE _ _ _ _ _ Db Em (gr_inv _ _ G1)) as [G2 Gb].
    destruct (op_step _ _ _ _ _ _ Do (gr_inv _ _ G2) Ga Gb) as [G3 _].
    assert (F2 := fine_back _ _ G3 HF). assert (F1 := fine_back _ _ G2 F2).
    match goal with K : dop F _ _ _ _ _ _ |- _ => assert (DF := K); destruct K as [_ ->] end.
    match goal with K : ev F _ _ r a _ _, K' : ev F _ _ _ b _ _ |- _ => destruct (IHa _ _ _ _ _ Ok Er F1 K (agree_back _ _ (RE _ _ _ _ _ K') A)) as (w1 & O1 & M1 & V1);
      destruct (IHb _ _ _ _ _ O1 (vok_env _ _ _ _ _ _ M1 Er) F2 K' A) as (w2 & O2 & M2 & V2) end.
    destruct (op_exists w2 _ _ _ _ _ _ _ _ _ _ _ Do O2 (vok_move _ _ _ _ _ _ M2 V1) V2 HF DF) as (w3 & O3 & M3 & V3).
    exists w3. split; auto. split; auto. eapply move_trans; [eapply move_trans; eauto|auto].
  - intros m s a va s1 v s2 Da IHa Do w m' r v' r' Ok Er HF H A. inv H. assert (Em := vok_good _ _ _ _ Er).
    destruct (GE _ _ _ _ _ Da Em (proj1 Ok)) as [G1 Ga]. destruct (base_step _ _ _ _ Do (gr_inv _ _ G1)) as [G2 _]. assert (F1 := fine_back _ _ G2 HF).
    match goal with K : dbase F _ _ _ _ |- _ => assert (DF := K); destruct K as [_ ->] end.
    match goal with K : ev F _ _ r a _ _ |- _ => destruct (IHa _ _ _ _ _ Ok Er F1 K A) as (w1 & O1 & M1 & V1) end.
    destruct (base_exists w1 _ _ _ _ _ _ _ _ Do O1 V1 HF DF) as (w2 & O2 & M2 & V2). exists w2. split; auto. split; auto. eapply move_trans; eauto.
  - intros m s f args vs s1 v s2 Da IHa Dc IHc w m' r v' r' Ok Er HF H A. inv H. assert (Em := vok_good _ _ _ _ Er).
    destruct (GS _ _ _ _ _ Da Em (proj1 Ok)) as [G1 Ga]. destruct (GC _ _ _ _ _ Dc Ga (gr_inv _ _ G1)) as [G2 _]. assert (F1 := fine_back _ _ G2 HF).
    match goal with K : evs F _ _ r args _ _, K' : call F _ _ _ _ _ _ |- _ => destruct (IHa _ _ _ _ _ Ok Er F1 K (agree_back _ _ (RC _ _ _ _ _ K') A)) as (w1 & O1 & M1 & V1);
      destruct (IHc _ _ _ _ _ O1 V1 HF K' A) as (w2 & O2 & M2 & V2) end.
    exists w2. split; auto. split; [eapply move_trans; eauto|exact V2].
  - intros m s a es l u v _ IHi Fx Re w m' r v' r' Ok Er HF H A. inv H. match goal with K : idxs F _ _ _ _ |- _ => specialize (IHi _ _ (vok_known _ _ _ _ Er) K) end. subst.
    match goal with K : delem F _ _ |- _ => cbn in K; subst end. exists w. split; auto. split; [apply move_refl, Ok|].
    assert (R : vok w s u u0) by (eapply related_find; eauto). destruct R as (R0 & R1 & R2 & R3). split; [eapply good_reload; [apply R0|exact Re]|]. split; [eapply reload_in; eauto|]. split; [eapply known_reload; eauto|].
    rewrite R3. symmetry. apply reload_val; [apply R0|exact Re].
  - intros m s w m' r vs' r' Ok Er HF H A. inv H. exists w. split; auto. split; [apply move_refl, Ok|auto].
  - intros m s e v s1 es vs s2 Da IHa Dc IHc w m' r vs' r' Ok Er HF H A. inv H. assert (Em := vok_good _ _ _ _ Er).
    destruct (GE _ _ _ _ _ Da Em (proj1 Ok)) as [G1 Ga]. destruct (GS _ _ _ _ _ Dc Em (gr_inv _ _ G1)) as [G2 _]. assert (F1 := fine_back _ _ G2 HF).
    match goal with K : ev F _ _ r e _ _, K' : evs F _ _ _ _ _ _ |- _ => destruct (IHa _ _ _ _ _ Ok Er F1 K (agree_back _ _ (RS _ _ _ _ _ K') A)) as (w1 & O1 & M1 & V1);
      destruct (IHc _ _ _ _ _ O1 (vok_env _ _ _ _ _ _ M1 Er) HF K' A) as (w2 & O2 & M2 & V2) end.
    exists w2. split; auto. split; [eapply move_trans; eauto|]. constructor; auto. eapply vok_move; eauto.
  - intros s f ps body vs m v s1 Ff _ Db IH w r vs' v' r' Ok Rv HF H A. inv H. match goal with K : find_at f fs = Some (Fun _ _) |- _ => rewrite Ff in K; injection K as <- <- end.
    match goal with K : xb F _ _ _ _ _ _ _ |- _ => destruct (IH _ _ _ _ _ _ Ok (related_combine _ _ _ ps _ _ Rv) HF K A) as (w1 & O1 & M1 & _ & V1) end. eauto.
  - intros m s x e v s1 _ IH w m' r m1' v' b' r' Ok Er HF H A. inv H. match goal with K : ev F _ _ _ _ _ _ |- _ => destruct (IH _ _ _ _ _ Ok Er HF K A) as (w1 & O1 & M1 & V1) end.
    exists w1. split; auto. split; auto. split; [|split; auto]. apply related_app; [eapply vok_env; eauto|now apply related_one].
  - intros m s x e v s1 _ IH _ w m' r m1' v' b' r' Ok Er HF H A. inv H. match goal with K : ev F _ _ _ _ _ _ |- _ => destruct (IH _ _ _ _ _ Ok Er HF K A) as (w1 & O1 & M1 & V1) end.
    exists w1. split; auto. split; auto. split; [|split; auto]. apply related_put; auto. eapply vok_env; eauto.
  - intros m s a b va s1 vb s2 s3 Da IHa Db IHb Do w m' r m1' v' b' r' Ok Er HF H A. inv H. assert (Em := vok_good _ _ _ _ Er).
    destruct (GE _ _ _ _ _ Da Em (proj1 Ok)) as [G1 Ga]. destruct (GE _ _ _ _ _ Db Em (gr_inv _ _ G1)) as [G2 Gb].
    destruct (equal_step _ _ _ _ Do (gr_inv _ _ G2)) as [G3 _].
    assert (F2 := fine_back _ _ G3 HF). assert (F1 := fine_back _ _ G2 F2).
    match goal with K : dequal F _ _ _ _ |- _ => cbn [dequal field_values] in K; subst r' end. apply Forall_app in A. destruct A as [A AE]. inversion AE as [|? ? AE1 _]; subst.
    match goal with K : ev F _ _ r a _ _, K' : ev F _ _ _ b _ _ |- _ => destruct (IHa _ _ _ _ _ Ok Er F1 K (agree_back _ _ (RE _ _ _ _ _ K') A)) as (w1 & O1 & M1 & V1);
      destruct (IHb _ _ _ _ _ O1 (vok_env _ _ _ _ _ _ M1 Er) F2 K' A) as (w2 & O2 & M2 & V2) end.
    destruct (equal_exists w2 _ _ _ _ _ _ Do O2 (vok_move _ _ _ _ _ _ M2 V1) V2 HF AE1) as (w3 & O3 & M3).
    assert (M : move w s w3 s3) by (eapply move_trans; [eapply move_trans; eauto|auto]). exists w3. split; auto. split; auto. split; [eapply vok_env; eauto|]. split; [exact I|auto].
  - intros m s f args vs s1 v s2 Da IHa Dc IHc w m' r m1' v' b' r' Ok Er HF H A. inv H. assert (Em := vok_good _ _ _ _ Er).
    destruct (GS _ _ _ _ _ Da Em (proj1 Ok)) as [G1 Ga]. destruct (GC _ _ _ _ _ Dc Ga (gr_inv _ _ G1)) as [G2 _]. assert (F1 := fine_back _ _ G2 HF).
    match goal with K : evs F _ _ r args _ _, K' : call F _ _ _ _ _ _ |- _ => destruct (IHa _ _ _ _ _ Ok Er F1 K (agree_back _ _ (RC _ _ _ _ _ K') A)) as (w1 & O1 & M1 & V1);
      destruct (IHc _ _ _ _ _ O1 V1 HF K' A) as (w2 & O2 & M2 & V2) end.
    assert (M : move w s w2 s2) by (eapply move_trans; eauto). exists w2. split; auto. split; auto. split; [eapply vok_env; eauto|auto].
  - intros m s e v s1 _ IH w m' r m1' v' b' r' Ok Er HF H A. inv H. match goal with K : ev F _ _ _ _ _ _ |- _ => destruct (IH _ _ _ _ _ Ok Er HF K A) as (w1 & O1 & M1 & V1) end.
    exists w1. split; auto. split; auto. split; [eapply vok_env; eauto|auto].
  - intros m s c x e body _ IHt w m' r m1' v' b' r' Ok Er HF H A. inv H; [exists w; split; auto; split; [apply move_refl, Ok|]; split; auto; split; [exact I|auto]|]. exfalso.
    match goal with K : test F _ _ _ true |- _ => specialize (IHt _ _ (vok_known _ _ _ _ Er) K) end. discriminate.
  - intros m s c x e body m1 s1 v s2 m2 s3 _ IHt Db IHb De IHe _ Df IHf w m' r m1' v' b' r' Ok Er HF H A. assert (Em := vok_good _ _ _ _ Er).
    inv H; [exfalso; match goal with K : test F _ _ _ false |- _ => specialize (IHt _ _ (vok_known _ _ _ _ Er) K) end; discriminate|].
    destruct (GB _ _ _ _ _ _ Db Em (proj1 Ok)) as (G1 & _ & E1). assert (E1' := all_firstn _ (List.length m) _ E1).
    destruct (GE _ _ _ _ _ De E1' (gr_inv _ _ G1)) as (G2 & Gv). assert (E2' := all_put _ _ x _ Gv E1').
    destruct (GX _ _ _ _ _ _ _ Df E2' (gr_inv _ _ G2)) as (G3 & _).
    assert (F2 := fine_back _ _ G3 HF). assert (F1 := fine_back _ _ G2 F2).
    match goal with K : xb F _ _ _ _ _ _ _, K' : ev F _ _ _ _ _ _, K'' : xs F _ _ _ _ _ _ _ _ |- _ =>
      assert (A2 := agree_back _ _ (RX _ _ _ _ _ _ _ K'') A); assert (A1 := agree_back _ _ (RE _ _ _ _ _ K') A2);
      destruct (IHb _ _ _ _ _ _ Ok Er F1 K A1) as (w1 & O1 & M1 & R1 & _);
      assert (R1' := related_cut _ _ _ _ _ _ _ (related_length _ _ _ _ _ Er) R1);
      destruct (IHe _ _ _ _ _ O1 R1' F2 K' A2) as (w2 & O2 & M2 & V2);
      destruct (IHf _ _ _ _ _ _ _ O2 (related_put _ _ _ _ _ x _ _ V2 (vok_env _ _ _ _ _ _ M2 R1')) HF K'' A) as (w3 & O3 & M3 & R3 & _) end.
    exists w3. split; auto. split; [eapply move_trans; [eapply move_trans; eauto|auto]|]. split; auto. split; [exact I|auto].
  - intros m s c body _ IHt w m' r m1' v' b' r' Ok Er HF H A. inv H; [exists w; split; auto; split; [apply move_refl, Ok|]; split; auto; split; [exact I|auto]|]. exfalso.
    match goal with K : test F _ _ _ true |- _ => specialize (IHt _ _ (vok_known _ _ _ _ Er) K) end. discriminate.
  - intros m s c body m1 v s1 _ IHt _ IHb w m' r m1' v' b' r' Ok Er HF H A.
    inv H; [exfalso; match goal with K : test F _ _ _ false |- _ => specialize (IHt _ _ (vok_known _ _ _ _ Er) K) end; discriminate|].
    match goal with K : xb F _ _ _ _ _ _ _ |- _ => destruct (IHb _ _ _ _ _ _ Ok Er HF K A) as (w1 & O1 & M1 & R1 & V1) end.
    exists w1. split; auto. split; auto. split; [apply related_cut; [exact (related_length _ _ _ _ _ Er)|exact R1]|]. split; auto.
    destruct v, v'; auto; destruct V1.
  - intros m s x w m' r m1' v' b' r' Ok Er HF H A. inv H. exists w. split; auto. split; [apply move_refl, Ok|]. split; auto. split; [exact I|auto].
  - intros m s a es e l v s1 _ IHi _ IH _ w m' r m1' v' b' r' Ok Er HF H A. inv H. match goal with K : idxs F _ _ _ _ |- _ => specialize (IHi _ _ (vok_known _ _ _ _ Er) K) end. subst.
    match goal with K : ev F _ _ _ _ _ _ |- _ => destruct (IH _ _ _ _ _ Ok Er HF K A) as (w1 & O1 & M1 & V1) end.
    exists w1. split; auto. split; auto. split; [|split; auto]. apply related_put; auto. eapply vok_env; eauto.
  - intros m s x w m' r m1' v' b' r' Ok Er HF H A. inv H. exists w. split; auto. split; [apply move_refl, Ok|]. split; auto. split; [exact I|auto].
  - intros m s w m' r m1' v' r' Ok Er HF H A. inv H. exists w. split; auto. split; [apply move_refl, Ok|]. split; auto. exact I.
  - intros m s t ts m1 v s1 Dx IH w m' r m1' v' r' Ok Er HF H A. inv H.
    + match goal with K : xs F _ _ _ _ _ _ _ _ |- _ => destruct (IH _ _ _ _ _ _ _ Ok Er HF K A) as (w1 & O1 & M1 & R1 & V1 & _) end. eauto 6.
    + match goal with K : xs F _ _ _ _ _ _ _ _ |- _ => destruct (KX _ _ _ _ _ _ _ Dx _ _ _ _ _ _ (vok_known _ _ _ _ Er) K) as (_ & _ & N) end. discriminate.
  - intros m s t ts m1 v s1 m2 v2 s2 Dx IH1 Db IH2 w m' r m1' v' r' Ok Er HF H A. assert (Em := vok_good _ _ _ _ Er).
    destruct (GX _ _ _ _ _ _ _ Dx Em (proj1 Ok)) as (G1 & _ & E1). destruct (GB _ _ _ _ _ _ Db E1 (gr_inv _ _ G1)) as (G2 & _). assert (F1 := fine_back _ _ G2 HF). inv H.
    + match goal with K : xs F _ _ _ _ _ _ _ _ |- _ => destruct (KX _ _ _ _ _ _ _ Dx _ _ _ _ _ _ (vok_known _ _ _ _ Er) K) as (_ & _ & N) end. discriminate.
    + match goal with K : xs F _ _ _ _ _ _ _ _, K' : xb F _ _ _ _ _ _ _ |- _ => destruct (IH1 _ _ _ _ _ _ _ Ok Er F1 K (agree_back _ _ (RB _ _ _ _ _ _ K') A)) as (w1 & O1 & M1 & R1 & _);
        destruct (IH2 _ _ _ _ _ _ O1 R1 HF K' A) as (w2 & O2 & M2 & R2 & V2) end.
      exists w2. split; auto. split; auto. eapply move_trans; eauto.
  - intros m c va s1 vb s2 b Da _ Db _ C m' b' Em H. destruct known_all as (_ & _ & _ & _ & _ & T & _). eapply T; [|exact Em|exact H]. econstructor; eauto.
  - intros m m' l' Em H. inv H. reflexivity.
  - intros m e v s1 i es l De _ Di Dl _ m' l' Em H. destruct known_all as (_ & _ & _ & _ & _ & _ & T). eapply T; [|exact Em|exact H]. econstructor; eauto.
Qed.
End V.

(** ** The body of main *)
Definition sum_gate (f : factors) (i : string) : gate := Gate GAdd i f [] [] (wire i 1) false no_token.
Lemma done_inv s v s' : ddone sym s v s' ->
  (fst s' = fst s /\ snd s' = snd s) /\ (forall f, v = Some f -> f = [] \/ is_single_number f = true \/ exists x, f = [x] /\ mult x = 1%Z /\ is_number x = false) \/
  exists f i, v = Some f /\ list_signature hash f = Some i /\ with_id sort hash (sum_gate f i) = Some (sum_gate f i) /\
    collect sort hash (fst s) (sum_gate f i) (fun g => g) = Some (fst s', i) /\ snd s' = snd s ++ [sum_gate f i].
Proof.
  cbn [ddone LangSym.sym]. destruct v as [f|]; [|intros E; left; split; [injection E; auto|discriminate]].
  unfold complete, complete_function. cbn [scoll].
  assert (W : forall i, list_signature hash f = Some i -> with_id sort hash (sum_gate f i) = Some (sum_gate f i)).
  { intros i Ei. apply prefix_not_reserved in Ei. destruct Ei as [Ei _]. unfold with_id. cbn [gid sum_gate]. destruct i; [easy|reflexivity]. }
  assert (C : forall i c j, list_signature hash f = Some i -> collect sort hash (fst s) (sum_gate f i) (fun g => g) = Some (c, j) -> j = i).
  { intros i c j Ei. unfold collect. rewrite (W i Ei). cbn [gid sum_gate]. destruct (contains _ _); now intros [= _ <-]. }
  destruct f as [|x f]; [intros E; left; split; [injection E; auto|intros f [= <-]; now left]|]. change (is_single_number (x :: f)) with (match f with [] => is_number x | _ => false end).
  assert (Q : forall e, (list_signature hash (x :: f) = None -> e = None) -> (forall i, list_signature hash (x :: f) = Some i -> e = match collect sort hash (fst s) (sum_gate (x :: f) i) (fun g => g) with Some (c', _) => Some c' | None => None end) ->
    (c <- get e ;; i <- get (list_signature hash (x :: f)) ;; submit (with_coll (St [] (fst s) (snd s) []) c) (Some (sum_gate (x :: f) i))) = Done (St [] (fst s') (snd s') []) ->
    exists i, list_signature hash (x :: f) = Some i /\ with_id sort hash (sum_gate (x :: f) i) = Some (sum_gate (x :: f) i) /\
      collect sort hash (fst s) (sum_gate (x :: f) i) (fun g => g) = Some (fst s', i) /\ snd s' = snd s ++ [sum_gate (x :: f) i]).
  { intros e E1 E2. destruct (list_signature hash (x :: f)) as [i|] eqn:Ei; [|rewrite E1 by auto; discriminate]. rewrite (E2 i eq_refl).
    destruct (collect sort hash (fst s) (sum_gate (x :: f) i) (fun g => g)) as [[c j]|] eqn:EC; [|discriminate]. assert (j = i) as -> by (eapply C; eauto).
    cbn. intros E. injection E as E3 E4. exists i. split; auto. split; [now apply W|]. split; [now rewrite <- E3|auto]. }
  destruct f as [|y f].
  - destruct (is_number x) eqn:Nx; [cbn; intros E; left; split; [injection E; auto|intros f [= <-]; right; now left]|].
    destruct (Z.eqb_spec (mult x) 1) as [M1|M1]; [cbn; intros E; left; split; [injection E; auto|intros f [= <-]; right; right; eauto]|]. cbn [orb].
    intros E. right. exists [x]. eapply Q in E; [destruct E as (i & E); exists i; auto|now intros ->|intros i ->; reflexivity].
  - intros E. right. exists (x :: y :: f). eapply Q in E; [destruct E as (i & E); exists i; auto|now intros ->|intros i ->; reflexivity].
Qed.
Lemma sum_gate_ok f i w : gate_wf (sum_gate f i) /\ finish (sum_gate f i) = sum_gate f i /\ (gate_holds w (sum_gate f i) <-> lin w f ==[q] w i).
Proof. split; [reflexivity|]. split; [reflexivity|]. unfold FactorSpec.gate_holds. cbn [gtyp sum_gate gleft gout]. now rewrite lin_wire, Z.mul_1_l. Qed.
Lemma done_step s v s' : ddone sym s v s' -> inv s -> gr s s'.
Proof.
  intros E Hi. destruct (done_inv _ _ _ E) as [[[E1 E2] _]|(f & i & -> & Es & Eg & EC & Et)]; [destruct s, s'; cbn in E1, E2; subst; now apply gr_refl|].
  destruct (sum_gate_ok f i (fun _ => 0%Z)) as (Wg & Fg & _). unfold gr. rewrite Et. apply (step_grows sort hash q gx (fst s) (snd s) _ (sum_gate f i) _ _ i Hi EC Eg (eq_sym Fg) Wg).
Qed.
Lemma done_kept w s v s' r : ddone sym s v s' -> inv s -> kept w s r -> kept w s' r.
Proof.
  intros E Hi [A B]. split; auto. destruct (done_inv _ _ _ E) as [[[E1 E2] _]|(f & i & -> & Es & Eg & EC & Et)]; [now rewrite E1|].
  destruct (sum_gate_ok f i w) as (Wg & Fg & _).
  apply (collect_divs sort hash q gx (fst s) (snd s) _ (sum_gate f i) _ (fst s') i Hi EC Eg (eq_sym Fg) Wg w); auto. rewrite Fg. intros T. discriminate.
Qed.
Lemma done_exists V w s v s' u : ddone sym s v s' -> st_ok V w s -> opt_rel (vok V w s) v u -> fine V s' -> exists w', st_ok V w' s' /\ move V w s w' s'.
Proof.
  intros E Ok Vv [NC AP]. assert (G := done_step _ _ _ E (proj1 Ok)). destruct (done_inv _ _ _ E) as [[[E1 E2] _]|(f & i & -> & Es & Eg & EC & Et)].
  { exists w. destruct s, s'. cbn in E1, E2. subst. split; auto. apply move_refl, Ok. }
  destruct Ok as (Hi & Cl & HA). destruct u as [u|]; [|destruct Vv]. destruct Vv as (_ & If & _).
  destruct (sum_gate_ok f i w) as (Wg & Fg & _).
  assert (C' : Closed V (fst s')).
  { apply (step_closed sort hash q gx V (fst s) (snd s) _ (sum_gate f i) _ _ i Hi Cl EC Eg (eq_sym Fg) Wg).
    rewrite Fg. split; [|split; [constructor|split; [constructor|split]]]; cbn [sum_gate gleft gright gexp gout gid].
    - eapply fac_in_mono; [|exact If]. auto.
    - apply wire_in. now right.
    - now right. }
  destruct (step_complete sort hash q gx V (fst s) (snd s) _ (sum_gate f i) _ _ i Hi Cl EC Eg (eq_sym Fg) Wg AP w (lin w f) HA) as (w' & EX & HA').
  { intros w' EX Hv. rewrite Fg. apply sum_gate_ok. rewrite Hv, (lin_ext (K V (fst s)) w' w f) by auto. reflexivity. }
  exists w'. split; [split; [exact (gr_inv _ _ G)|auto]|]. split; auto.
Qed.

Lemma main_grow m s ts v s' : mb sym fs m s ts v s' -> all_env good m -> inv s -> gr s s'.
Proof.
  destruct grow_all as (_ & _ & _ & GX & _ & _). induction 1 as [|m s t ts m1 v s1 s2 Dx Dd|m s t ts m1 v s1 s2 r s3 Dx Dd _ IH]; intros Em Hi.
  - now apply gr_refl.
  - destruct (GX _ _ _ _ _ _ _ Dx Em Hi) as (G1 & _). eapply gr_trans; [exact G1|]. eapply done_step; [exact Dd|exact (gr_inv _ _ G1)].
  - destruct (GX _ _ _ _ _ _ _ Dx Em Hi) as (G1 & _ & E1). assert (G2 := done_step _ _ _ Dd (gr_inv _ _ G1)).
    eapply gr_trans; [exact G1|]. eapply gr_trans; [exact G2|]. apply IH; auto. exact (gr_inv _ _ G2).
Qed.
Lemma main_sound w m s ts v s' : mb sym fs m s ts v s' -> forall m' r v' r', all_env good m -> inv s -> forced w s' -> related (vrel w) m m' ->
  mb F fs m' r ts v' r' -> opt_rel (vrel w) v v' /\ (kept w s r -> kept w s' r').
Proof.
  destruct grow_all as (_ & _ & _ & GX & _ & _). destruct (sound_all w) as (_ & _ & _ & SX & _ & _). destruct known_all as (_ & _ & _ & KX & _ & _).
  induction 1 as [|m s t ts m1 v s1 s2 Dx Dd|m s t ts m1 v s1 s2 u s3 Dx Dd Db IH]; intros m' r v' r' Em Hi HF Er H.
  - inv H. split; auto. exact I.
  - destruct (GX _ _ _ _ _ _ _ Dx Em Hi) as (G1 & _). assert (G2 := done_step _ _ _ Dd (gr_inv _ _ G1)). assert (F1 := forced_back _ _ _ G2 HF). inv H.
    + match goal with K : xs F _ _ _ _ _ _ _ _, K' : ddone F _ _ _ |- _ => destruct (SX _ _ _ _ _ _ _ Dx _ _ _ _ _ _ Em Hi F1 Er K) as (_ & A & _ & B); cbn in K'; subst end. assert (DK := fun r => done_kept w _ _ _ r Dd (gr_inv _ _ G1)). auto.
    + match goal with K : xs F _ _ _ _ _ _ _ _ |- _ => destruct (KX _ _ _ _ _ _ _ Dx _ _ _ _ _ _ (vrel_krel _ _ _ Er) K) as (_ & _ & N) end. discriminate.
  - destruct (GX _ _ _ _ _ _ _ Dx Em Hi) as (G1 & _ & E1). assert (G2 := done_step _ _ _ Dd (gr_inv _ _ G1)). assert (G3 := main_grow _ _ _ _ _ Db E1 (gr_inv _ _ G2)).
    assert (F2 := forced_back _ _ _ G3 HF). assert (F1 := forced_back _ _ _ G2 F2). inv H.
    + match goal with K : xs F _ _ _ _ _ _ _ _ |- _ => destruct (KX _ _ _ _ _ _ _ Dx _ _ _ _ _ _ (vrel_krel _ _ _ Er) K) as (_ & _ & N) end. discriminate.
    + match goal with K : xs F _ _ _ _ _ _ _ _, K' : ddone F _ _ _, K'' : mb F _ _ _ _ _ _ |- _ => destruct (SX _ _ _ _ _ _ _ Dx _ _ _ _ _ _ Em Hi F1 Er K) as (R1 & _ & _ & B); cbn in K'; subst;
        destruct (IH _ _ _ _ E1 (gr_inv _ _ G2) HF R1 K'') as [A C] end. assert (DK := fun r => done_kept w _ _ _ r Dd (gr_inv _ _ G1)). auto.
Qed.
Lemma main_record m s ts v s' : mb F fs m s ts v s' -> exists t, s' = s ++ t.
Proof.
  destruct record_all as (_ & _ & _ & RX & _ & _). induction 1 as [|m s t ts m1 v s1 s2 Dx Dd|m s t ts m1 v s1 s2 u s3 Dx Dd Db IH]; [exists []; now rewrite app_nil_r|..]; cbn in Dd; subst; [eauto|].
  destruct (RX _ _ _ _ _ _ _ Dx) as [t1 ->], IH as [t2 ->]. exists (t1 ++ t2). now rewrite app_assoc.
Qed.
Lemma main_exists V m s ts v s' : mb sym fs m s ts v s' -> forall w m' r v' r', st_ok V w s -> related (vok V w s) m m' -> fine V s' ->
  mb F fs m' r ts v' r' -> Forall agree r' -> exists w', st_ok V w' s' /\ move V w s w' s' /\ opt_rel (vok V w' s') v v'.
Proof.
  destruct grow_all as (_ & _ & _ & GX & _ & _). destruct (exists_all V) as (_ & _ & _ & SX & _ & _). destruct known_all as (_ & _ & _ & KX & _ & _).
  induction 1 as [|m s t ts m1 v s1 s2 Dx Dd|m s t ts m1 v s1 s2 u s3 Dx Dd Db IH]; intros w m' r v' r' Ok Er HF H A; assert (Em := vok_good _ _ _ _ _ Er); assert (Hi := proj1 Ok).
  - inv H. exists w. split; auto. split; [apply move_refl, Ok|exact I].
  - destruct (GX _ _ _ _ _ _ _ Dx Em Hi) as (G1 & _). assert (G2 := done_step _ _ _ Dd (gr_inv _ _ G1)). assert (F1 := fine_back _ _ _ G2 HF). inv H.
    + match goal with K : xs F _ _ _ _ _ _ _ _, K' : ddone F _ _ _ |- _ => cbn in K'; subst; destruct (SX _ _ _ _ _ _ _ Dx _ _ _ _ _ _ _ Ok Er F1 K A) as (w1 & O1 & M1 & _ & V1 & _) end.
      destruct (done_exists V w1 _ _ _ _ Dd O1 V1 HF) as (w2 & O2 & M2). exists w2. split; auto. split; [eapply move_trans; eauto|]. destruct v, v'; auto. cbn in *. eapply vok_move; eauto.
    + match goal with K : xs F _ _ _ _ _ _ _ _ |- _ => destruct (KX _ _ _ _ _ _ _ Dx _ _ _ _ _ _ (vok_known _ _ _ _ _ Er) K) as (_ & _ & N) end. discriminate.
  - destruct (GX _ _ _ _ _ _ _ Dx Em Hi) as (G1 & _ & E1). assert (G2 := done_step _ _ _ Dd (gr_inv _ _ G1)). assert (G3 := main_grow _ _ _ _ _ Db E1 (gr_inv _ _ G2)).
    assert (F2 := fine_back _ _ _ G3 HF). assert (F1 := fine_back _ _ _ G2 F2). inv H.
    + match goal with K : xs F _ _ _ _ _ _ _ _ |- _ => destruct (KX _ _ _ _ _ _ _ Dx _ _ _ _ _ _ (vok_known _ _ _ _ _ Er) K) as (_ & _ & N) end. discriminate.
    + match goal with K : xs F _ _ _ _ _ _ _ _, K' : ddone F _ _ _, K'' : mb F _ _ _ _ _ _ |- _ => cbn in K'; subst;
        destruct (SX _ _ _ _ _ _ _ Dx _ _ _ _ _ _ _ Ok Er F1 K (agree_back _ _ (main_record _ _ _ _ _ K'') A)) as (w1 & O1 & M1 & R1 & V1 & _);
        destruct (done_exists V w1 _ _ _ _ Dd O1 V1 F2) as (w2 & O2 & M2); destruct (IH _ _ _ _ _ O2 (vok_env _ _ _ _ _ _ _ M2 R1) HF K'' A) as (w3 & O3 & M3 & V3) end.
      exists w3. split; auto. split; auto. eapply move_trans; [eapply move_trans; eauto|auto].
Qed.

(** ** Identifiers of gates do not start with a letter *)
Definition hashed (c : collector) : Prop := Forall (fun i => exists z, prefix16 (dec z) = Some i) (known c).
Lemma rec_all (P : collector * list gate -> Prop) :
  (forall o s a b v s', dop sym o s a b v s' -> P s -> P s') -> (forall s a v s', dbase sym s a v s' -> P s -> P s') -> (forall s a b s', dequal sym s a b s' -> P s -> P s') ->
  (forall m s e v s', ev sym fs m s e v s' -> P s -> P s') /\ (forall m s es vs s', evs sym fs m s es vs s' -> P s -> P s') /\
  (forall s f vs v s', call sym fs s f vs v s' -> P s -> P s') /\ (forall m s t m1 v b s', xs sym fs m s t m1 v b s' -> P s -> P s') /\
  (forall m s ts m1 v s', xb sym fs m s ts m1 v s' -> P s -> P s') /\ (forall m c b, test sym fs m c b -> True) /\ (forall m es l, idxs sym fs m es l -> True).
Proof. intros A B C. apply sem_ind; intros; eauto. Qed.
Lemma collect_hashed c g fin c' i : collect sort hash c g fin = Some (c', i) -> gid g = "" \/ (exists f, list_signature hash f = Some (gid g)) -> hashed c -> hashed c'.
Proof.
  unfold collect. intros E Eg H. destruct (with_id sort hash g) as [g'|] eqn:W; [|discriminate].
  assert (Q : exists z, prefix16 (dec z) = Some (gid g')).
  { destruct Eg as [Eg|[f Eg]].
    - unfold with_id in W. rewrite Eg in W. unfold set_id in W. destruct (prefix16 _) as [j|] eqn:Ej; [|discriminate]. injection W as <-. cbn [gid]. eauto.
    - assert (N := prefix_not_reserved _ _ Eg). destruct N as [N _]. unfold with_id in W. destruct (gid g) eqn:Q; [easy|]. injection W as <-. rewrite Q. eauto. }
  destruct (contains c (gid g')); injection E as <- _; auto. constructor; auto.
Qed.
Lemma op_hashed o s a b v s' : dop sym o s a b v s' -> hashed (fst s) -> hashed (fst s').
Proof.
  cbn [dop LangSym.sym]. unfold compile_op_tr. destruct (compile_op sort hash q (fst s) o a b) as [[c f]|] eqn:E; [|discriminate]. intros H Hh.
  assert (c = fst s') as ->.
  { revert H. destruct (_ && _); [destruct (extract_constant sort q a b) as [[[? ?] ?]|]; [|discriminate]; unfold traced; destruct (with_id _ _ _); [|discriminate]; now intros [= <- _ _]|].
    destruct (_ && _); [|now intros [= <- _ _]]. destruct (factor_signature sort a) as [[? ?]|]; [|discriminate]. destruct (factor_signature sort b) as [[? ?]|]; [|discriminate].
    unfold traced; destruct (with_id _ _ _); [|discriminate]; now intros [= <- _ _]. }
  revert E. unfold compile_op. destruct (String.eqb o "*").
  - destruct (_ || _); [destruct (mul_factors q a b); [intros [= <- _]; auto|discriminate]|].
    unfold compile_mul. destruct (extract_constant sort q a b) as [[[? ?] ?]|]; [|discriminate]. destruct (collect _ _ _ _ _) as [[c i]|] eqn:EC; [|discriminate].
    intros [= <- _]. eapply collect_hashed; eauto.
  - destruct (String.eqb o "/").
    + destruct (is_single_number b); [destruct (invert_factors q b) as [j|]; [|discriminate]; destruct (mul_factors q a j); [intros [= <- _]; auto|discriminate]|].
      unfold compile_div. destruct (factor_signature sort a) as [[? ?]|]; [|discriminate]. destruct (factor_signature sort b) as [[? ?]|]; [|discriminate].
      destruct (fdiv _ _ _); [|discriminate]. destruct (collect _ _ _ _ _) as [[c i]|] eqn:EC; [|discriminate]. intros [= <- _]. eapply collect_hashed; eauto.
    + destruct (String.eqb o "+"); [intros [= <- _]; auto|]. destruct (String.eqb o "-"); [intros [= <- _]; auto|discriminate].
Qed.
Lemma main_hashed m s ts v s' : mb sym fs m s ts v s' -> hashed (fst s) -> hashed (fst s').
Proof.
  destruct (rec_all (fun s => hashed (fst s))) as (_ & _ & _ & X & _ & _).
  - intros o s1 a b u s2. apply op_hashed.
  - intros s1 a u s2 [E _]. unfold compile_base in E. destruct (collect _ _ _ _ _) as [[c i]|] eqn:EC; [|discriminate]. injection E as -> _. eapply collect_hashed; eauto.
  - intros s1 a b s2 [E _]. unfold compile_equal in E. destruct (collect _ _ _ _ _) as [[c i]|] eqn:EC; [|discriminate]. injection E as ->. eapply collect_hashed; eauto.
  - assert (Dn : forall s v s', ddone sym s v s' -> hashed (fst s) -> hashed (fst s')).
    { intros s1 u s2 E Hh. destruct (done_inv _ _ _ E) as [[[-> _] _]|(f & i & -> & Es & Eg & EC & Et)]; auto. eapply collect_hashed; [exact EC| |exact Hh]. right. eauto. }
    induction 1; auto; intros Hh; eauto.
Qed.
Lemma hashed_letter z c i : prefix16 (dec z) = Some (String c i) -> letter c = false.
Proof.
  unfold prefix16. assert (D := set_string_dec z). destruct (dec z) as [|c' s]; [discriminate D|].
  destruct (Nat.ltb _ _); [discriminate|]. cbn [substring]. intros [= <- _]. apply digits_first in D. destruct D as [->|[->|D]]; [reflexivity..|].
  destruct c' as [[] [] [] [] [] [] [] []]; try reflexivity; exfalso; apply D; reflexivity.
Qed.
Lemma hashed_apart c : hashed c -> apart name_ok c.
Proof.
  intros H x [Nx _] Ix. unfold hashed in H. rewrite Forall_forall in H. destruct (H x Ix) as [z Ez]. destruct x as [|a x]; [destruct Nx|]. apply hashed_letter in Ez. congruence.
Qed.
End P.

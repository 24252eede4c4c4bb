(** Blocks and scopes in the heap. *)
Require Import ZArith Lia Bool Ascii String List.
Require Import Verif.FqModel Verif.FactorModel Verif.ParserModel Verif.CircuitModel Verif.LangSpec Verif.LangHeap Verif.LangSym.
Import ListNotations.
Local Open Scope string_scope.
Local Open Scope list_scope.
Local Open Scope nat_scope.

(** ** The object of a block *)
Definition decls (ts : list stmt) : list string := flat_map (fun t => match t with Decl x _ => [x] | _ => [] end) ts.
Definition arrays (ts : list stmt) : list string := flat_map (fun t => match t with Array x => [x] | _ => [] end) ts.
Definition blind (m : list (string * nat)) : Prop := forall x, name_ok x -> lookup x m = None.
Inductive tree (h : heap) : nat -> option nat -> list string -> list stmt -> Prop :=
| tree_block : forall a ctx ps B o ts, nth_error h a = Some o -> fctx o = ctx -> finputs o = ps -> ftasks o = Some ts ->
    (forall x, In x (keys (fcons o)) -> In x (ps ++ decls B ++ arrays B) /\ (In x (keys (ffuns o)) -> lookup x (fcons o) = Some (call_of x))) ->
    (forall x, In x (ps ++ decls B) -> In x (keys (fcons o)) /\ In x (keys (ffuns o))) ->
    (forall x, name_ok x -> In x (keys (ffuns o)) -> In x (keys (fcons o))) ->
    kids h a B ts -> tree h a ctx ps B
with kids (h : heap) : nat -> list stmt -> list ctree -> Prop :=
| kids_nil : forall a, kids h a [] []
| kids_public : forall a x B ts, kids h a B ts -> kids h a (Public x :: B) ts
| kids_array : forall a x B ts, kids h a B ts -> kids h a (Array x :: B) ts
| kids_cons : forall a t c B ts, kid h a t c -> kids h a B ts -> kids h a (t :: B) (c :: ts)
with kid (h : heap) : nat -> stmt -> ctree -> Prop :=
| kid_decl : forall a x e ce s l, enc e ce -> kid h a (Decl x e) (Con (Tok TOverload s) [Con (Tok TVarDecl x) l; ce])
| kid_assign : forall a x e ce s l, enc e ce -> kid h a (Assign x e) (Con (Tok TOverload s) [Con (Tok TIdent x) l; ce])
| kid_put : forall a x es cs e ce s, encs es cs -> enc e ce -> kid h a (Put x es e) (Con (Tok TOverload s) [Con (Tok TArrCall x) cs; ce])
| kid_equal : forall a e1 e2 c1 c2, enc e1 c1 -> enc e2 c2 -> kid h a (Equal e1 e2) (Con (Tok TCall "equal") [c1; c2])
| kid_do : forall a f es cs, encs es cs -> kid h a (Do f es) (Con (Tok TCall f) cs)
| kid_return : forall a s e c, enc e c -> kid h a (Return e) (Con (Tok TReturn s) [c])
| kid_for : forall a o name b c cc s1 l x e ce body, enc_cond c cc -> enc e ce -> nth_error h a = Some o ->
    lookup name (ffuns o) = Some b -> ~ In name (keys (fcons o)) -> ~ In name reserved -> a < b -> tree h b (Some a) [] body ->
    kid h a (For c x e body) (Con (Tok TFor name) [cc; Con (Tok TOverload s1) [Con (Tok TIdent x) l; ce]])
| kid_if : forall a o name f fo name2 b c cc body ctx, enc_cond c cc -> nth_error h a = Some o ->
    lookup name (ffuns o) = Some f -> ~ In name (keys (fcons o)) -> a < f -> nth_error h f = Some fo -> fctx fo = Some a -> fcons fo = [] ->
    ffuns fo = [(name2, b)] -> ~ name_ok name2 -> ftasks fo = Some [Con (Tok TIf name2) [cc]] -> f < b ->
    (ctx = a \/ ctx = f) -> tree h b (Some ctx) [] body ->
    kid h a (If c body) (leaf (Tok TIfCall name)).
Scheme tree_mut := Minimality for tree Sort Prop
  with kids_mut := Minimality for kids Sort Prop
  with kid_mut := Minimality for kid Sort Prop.
Combined Scheme trees_ind from tree_mut, kids_mut, kid_mut.

(** A block depends only on the objects from its own address on. *)
Lemma tree_agree h h' :
  (forall a ctx ps B, tree h a ctx ps B -> (forall x o, a <= x -> nth_error h x = Some o -> nth_error h' x = Some o) -> tree h' a ctx ps B) /\
  (forall a B ts, kids h a B ts -> (forall x o, a <= x -> nth_error h x = Some o -> nth_error h' x = Some o) -> kids h' a B ts) /\
  (forall a t c, kid h a t c -> (forall x o, a <= x -> nth_error h x = Some o -> nth_error h' x = Some o) -> kid h' a t c).
Proof.
  apply trees_ind.
  - intros a ctx ps B o ts N Ec Ei Et C1 C2 C3 _ IH G. eapply tree_block; eauto.
  - intros. constructor.
  - intros. constructor; auto.
  - intros. constructor; auto.
  - intros. constructor; auto.
  - intros. now constructor.
  - intros. now constructor.
  - intros. now constructor.
  - intros. now constructor.
  - intros. now constructor.
  - intros. now constructor.
  - intros a o name b c cc s1 l x e ce body Ec Ee N Lk Nk Nr Lt _ IH G. eapply kid_for; eauto. apply IH. intros. apply G; auto. lia.
  - intros a o name f fo name2 b c cc body ctx Ec N Lk Nk Lt Nf Cf Kf Ff Nn Tf Lt2 X _ IH G.
    eapply kid_if; eauto. { apply G; auto. lia. } apply IH. intros. apply G; auto. lia.
Qed.

(** Assignments to variables do not change the structure. *)
Definition alike (o o' : fobj) : Prop :=
  fctx o' = fctx o /\ ftasks o' = ftasks o /\ fcons o' = fcons o /\ keys (ffuns o') = keys (ffuns o) /\
  (forall x, ~ In x (keys (fcons o)) -> lookup x (ffuns o') = lookup x (ffuns o)).
Definition evolves (h h' : heap) (inp : nat -> Prop) : Prop := forall x o, nth_error h x = Some o -> exists o', nth_error h' x = Some o' /\ alike o o' /\
  (inp x -> finputs o' = finputs o) /\ (fcons o = [] -> o' = o).
Lemma kids_evolves h h' :
  (forall a ctx ps B, tree h a ctx ps B -> forall P, evolves h h' P -> (forall x, a <= x -> P x) -> tree h' a ctx ps B) /\
  (forall a B ts, kids h a B ts -> forall P, evolves h h' P -> (forall x, a < x -> P x) -> kids h' a B ts) /\
  (forall a t c, kid h a t c -> forall P, evolves h h' P -> (forall x, a < x -> P x) -> kid h' a t c).
Proof.
  apply trees_ind.
  - intros a ctx ps B o ts N Ec Ei Et C1 C2 C3 _ IH P G Pa. destruct (G a o N) as (o' & N' & (A1 & A2 & A3 & A4 & A5) & I & _).
    assert (Hin : forall (x : string) (m m' : list (string * nat)), keys m = keys m' -> In x (keys m) -> In x (keys m')) by (intros x m m' ->; auto).
    eapply tree_block; [exact N'|congruence|rewrite I; auto|rewrite A2; eauto|..]; try (rewrite A3; auto).
    + intros x Hx. destruct (C1 x Hx) as (X1 & X2). split; auto. now rewrite A4.
    + rewrite A4. auto.
    + intros x Nx. rewrite A4. auto.
    + eapply IH; eauto. intros x L. apply Pa. lia.
  - intros. constructor.
  - intros. constructor; eauto.
  - intros. constructor; eauto.
  - intros. constructor; eauto.
  - intros. now constructor.
  - intros. now constructor.
  - intros. now constructor.
  - intros. now constructor.
  - intros. now constructor.
  - intros. now constructor.
  - intros a o name b c cc s1 l x e ce body Ec Ee N Lk Nk Nr Lt _ IH P G Pa. destruct (G a o N) as (o' & N' & (A1 & A2 & A3 & A4 & A5) & I & _).
    eapply kid_for; eauto.
    + rewrite A5; eauto.
    + now rewrite A3.
    + eapply IH; eauto. intros y L. apply Pa. lia.
  - intros a o name f fo name2 b c cc body ctx Ec N Lk Nk Lt Nf Cf Kf Ff Nn Tf Lt2 X _ IH P G Pa. destruct (G a o N) as (o' & N' & (A1 & A2 & A3 & A4 & A5) & I & _).
    destruct (G f fo Nf) as (fo' & Nf' & _ & _ & Eq). rewrite Eq in Nf' by auto.
    eapply kid_if; [exact Ec|exact N'|rewrite A5; eauto|now rewrite A3|exact Lt|exact Nf'|auto|auto|eauto|auto|auto|auto|exact X|].
    eapply IH; eauto. intros y L. apply Pa. lia.
Qed.
Lemma keeps_evolves L h h' : keeps L h h' -> evolves h h' (fun _ => True).
Proof.
  intros [_ K] x o N. destruct (K x o N) as (o' & N' & (A & B & C & D & E & F & G) & Eq). exists o'. split; auto. split; [repeat split; auto|]. split; auto.
Qed.
Lemma tree_keeps L h h' a ctx ps B : keeps L h h' -> tree h a ctx ps B -> tree h' a ctx ps B.
Proof. intros K T. eapply (proj1 (kids_evolves h h')); eauto using keeps_evolves. cbn. auto. Qed.
Lemma kids_keeps L h h' a B ts : keeps L h h' -> kids h a B ts -> kids h' a B ts.
Proof. intros K T. eapply (proj1 (proj2 (kids_evolves h h'))); eauto using keeps_evolves. cbn. auto. Qed.

(** ** flatCopy *)
Definition copied (h0 : heap) (c : nat) (h' : heap) (m m' : list (string * nat)) : Prop :=
  Forall2 (fun p p' => fst p' = fst p /\ exists n1 h1 h2, older h0 h1 /\ flat_copy_in n1 h1 (snd p) (Some c) = Done (h2, snd p') /\ c < List.length h1 /\
             snd p' < List.length h2 /\
             forall x o, c < x -> nth_error h2 x = Some o -> nth_error h' x = Some o) m m'.
Lemma flat_copy_shape : forall n h a ctx h' c, flat_copy_in n h a ctx = Done (h', c) ->
  older h h' /\ c = List.length h /\ c < List.length h' /\
  exists o m t, nth_error h a = Some o /\ ftasks o = Some t /\ nth_error h' c = Some (FObj (fname o) None (finputs o) ctx m (Some t) (fcons o)) /\
    copied h c h' (ffuns o) m.
Proof.
  induction n as [|n IH]; intros h a ctx h' c E; [discriminate|]. cbn [flat_copy_in] in E.
  apply bind_inv in E. destruct E as (o & Eo & E). apply fetch_inv in Eo. cbn [alloc] in E.
  apply bind_inv in E. destruct E as ([h2 m] & Em & E). apply bind_inv in E. destruct E as (t & Et & E). apply get_inv in Et. injection E as <- <-.
  set (c := List.length h) in *.
  assert (G : forall m0 h1 m1 h2, older (h ++ [FObj (fname o) None (finputs o) ctx [] (Some []) (fcons o)]) h1 -> copy_funs (flat_copy_in n) h1 c m0 = Done (h2, m1) ->
              older h1 h2 /\ Forall2 (fun p p' => fst p' = fst p /\ exists n1 g1 g2, older h g1 /\ flat_copy_in n1 g1 (snd p) (Some c) = Done (g2, snd p') /\
                 c < List.length g1 /\ snd p' < List.length g2 /\ older g2 h2) m0 m1).
  { induction m0 as [|[k v] m0 IHm]; intros h1 m1 h3 O Ec; cbn [copy_funs] in Ec.
    - injection Ec as <- <-. split; [apply older_refl|constructor].
    - apply bind_inv in Ec. destruct Ec as ([h4 v'] & E1 & Ec). apply bind_inv in Ec. destruct Ec as ([h5 m5] & E2 & Ec). injection Ec as <- <-.
      destruct (IH _ _ _ _ _ E1) as (O1 & Ev & Lv & _).
      destruct (IHm h4 m5 h5 (older_trans _ _ _ O O1) E2) as (O2 & F). split; [eapply older_trans; eauto|]. constructor; auto. split; auto.
      exists n, h1, h4. cbn [snd]. split; [eapply older_trans; [apply older_app|exact O]|]. split; auto. split; auto. apply older_length in O. rewrite app_length in O. cbn in O. unfold c. lia. }
  destruct (G _ _ _ _ (older_refl _) Em) as (O & F).
  assert (Ln : c < List.length h2) by (apply older_length in O; rewrite app_length in O; cbn in O; unfold c; lia).
  split; [apply older_store; auto; eapply older_trans; [apply older_app|exact O]|]. split; auto. split; [now rewrite store_length|].
  exists o, m, t. split; auto. split; auto. split; [now apply nth_store_eq|].
  assert (St : forall x o0, c < x -> nth_error h2 x = Some o0 -> nth_error (store h2 c (FObj (fname o) None (finputs o) ctx m (Some t) (fcons o))) x = Some o0) by (intros; rewrite nth_store_ne by lia; auto).
  revert St. generalize (store h2 c (FObj (fname o) None (finputs o) ctx m (Some t) (fcons o))). intros h' St.
  unfold copied. clear Em G. induction F as [|p p' l l' F1 F2 IHF]; constructor; auto. destruct F1 as (A & n1 & g1 & g2 & B1 & B2 & B3 & B4 & B5). split; auto.
  exists n1, g1, g2. repeat split; auto. intros x o0 L N. apply St; auto. eapply older_nth; eauto.
Qed.
Lemma copied_keys h0 c h' m m' : copied h0 c h' m m' -> keys m' = keys m.
Proof. unfold copied, keys. induction 1 as [|p p' m m' [A _] _ IH]; cbn; auto. now rewrite A, IH. Qed.
Lemma copied_lookup h0 c h' m m' x b : copied h0 c h' m m' -> lookup x m = Some b -> exists b' n1 h1 h2, lookup x m' = Some b' /\ older h0 h1 /\
  flat_copy_in n1 h1 b (Some c) = Done (h2, b') /\ c < b' /\ (forall x o, c < x -> nth_error h2 x = Some o -> nth_error h' x = Some o).
Proof.
  unfold copied. induction 1 as [|[k v] [k' v'] m m' [A (n1 & h1 & h2 & B1 & B2 & B3 & B4 & B5)] _ IH]; cbn; [discriminate|].
  cbn in A. subst k'. destruct (String.eqb x k); auto. intros [= <-]. exists v', n1, h1, h2. split; auto. split; auto. split; auto. split; auto.
  apply flat_copy_shape in B2. cbn in B2. destruct B2 as (_ & -> & _). auto.
Qed.

Lemma copy_tree h :
  (forall a ctx ps B, tree h a ctx ps B -> forall n h0 ctx' h' c, older h h0 -> flat_copy_in n h0 a ctx' = Done (h', c) -> tree h' c ctx' ps B) /\
  (forall a B ts, kids h a B ts -> forall h0 h' c o m oc, older h h0 -> nth_error h a = Some o -> nth_error h' c = Some oc -> ffuns oc = m -> fcons oc = fcons o ->
     copied h0 c h' (ffuns o) m -> kids h' c B ts) /\
  (forall a t k, kid h a t k -> forall h0 h' c o m oc, older h h0 -> nth_error h a = Some o -> nth_error h' c = Some oc -> ffuns oc = m -> fcons oc = fcons o ->
     copied h0 c h' (ffuns o) m -> kid h' c t k).
Proof.
  apply trees_ind.
  - intros a ctx ps B o ts N Ec Ei Et C1 C2 C3 _ IH n h0 ctx' h' c O E.
    destruct (flat_copy_shape _ _ _ _ _ _ E) as (O' & Ec' & Lc & o' & m & t & No & Tt & Nc & Cp).
    rewrite (older_nth _ _ _ _ O N) in No. injection No as <-. rewrite Et in Tt. injection Tt as <-.
    assert (K := copied_keys _ _ _ _ _ Cp).
    eapply tree_block; [exact Nc|..]; cbn [fctx finputs ftasks fcons ffuns]; auto.
    + rewrite K. auto.
    + rewrite K. auto.
    + intros x Nx. rewrite K. auto.
    + eapply IH; [exact O|exact N|exact Nc|reflexivity|reflexivity|exact Cp].
  - intros. constructor.
  - intros. constructor; eauto.
  - intros. constructor; eauto.
  - intros. constructor; eauto.
  - intros. now constructor.
  - intros. now constructor.
  - intros. now constructor.
  - intros. now constructor.
  - intros. now constructor.
  - intros. now constructor.
  - intros a o name b c cc s1 l x e ce body Ec Ee N Lk Nk Nr Lt _ IH h0 h' k o0 m oc O N0 Nc Em Ef Cp.
    rewrite N in N0. injection N0 as <-. destruct (copied_lookup _ _ _ _ _ _ _ Cp Lk) as (b' & n1 & h1 & h2 & L' & O1 & E1 & Lt' & Ag).
    eapply kid_for; [exact Ec|exact Ee|exact Nc|rewrite Em; exact L'|now rewrite Ef|auto|exact Lt'|].
    eapply (proj1 (tree_agree h2 h')); [|intros y oy Ly; apply Ag; lia]. eapply IH; [|exact E1]. eapply older_trans; eauto.
  - intros a o name f fo name2 b c cc body ctx Ec N Lk Nk Lt Nf Cf Kf Ff Nn Tf Lt2 X _ IH h0 h' k o0 m oc O N0 Nc Em Ef Cp.
    rewrite N in N0. injection N0 as <-. destruct (copied_lookup _ _ _ _ _ _ _ Cp Lk) as (f' & n1 & h1 & h2 & L' & O1 & E1 & Lt' & Ag).
    assert (O2 := older_trans _ _ _ O O1).
    destruct (flat_copy_shape _ _ _ _ _ _ E1) as (O' & Ec' & Lc & o' & m2 & t & No & Tt & Nc' & Cp').
    rewrite (older_nth _ _ _ _ O2 Nf) in No. injection No as <-. rewrite Tf in Tt. injection Tt as <-.
    assert (Lk2 : lookup name2 (ffuns fo) = Some b) by (rewrite Ff; cbn; now rewrite String.eqb_refl).
    destruct (copied_lookup _ _ _ _ _ _ _ Cp' Lk2) as (b' & n3 & h3 & h4 & L3 & O3 & E3 & Lt3 & Ag3).
    assert (Fm : m2 = [(name2, b')]).
    { rewrite Ff in Cp'. inversion Cp' as [|p p' l l' [A _] F2]; subst. inversion F2; subst. destruct p' as [k1 v1]. cbn in A. subst k1.
      cbn in L3. rewrite String.eqb_refl in L3. now injection L3 as ->. }
    eapply kid_if; [exact Ec|exact Nc|rewrite Em; exact L'|now rewrite Ef|exact Lt'|apply Ag; [exact Lt'|exact Nc']|reflexivity|exact Kf|exact Fm|exact Nn|reflexivity|exact Lt3|now right|].
    eapply (proj1 (tree_agree h4 h')); [|intros y oy Ly Ny; apply Ag; [lia|]; apply Ag3; [lia|exact Ny]].
    eapply IH; [|exact E3]. eapply older_trans; eauto.
Qed.
Lemma copy_tree_at h a ctx ps B n ctx' h' c : tree h a ctx ps B -> flat_copy_in n h a ctx' = Done (h', c) -> tree h' c ctx' ps B.
Proof. intros T E. eapply (proj1 (copy_tree h)); [exact T|apply older_refl|exact E]. Qed.

(** Function objects in the heap: what represents a value, a block, the variables in scope. *)
Require Import ZArith Lia Bool Ascii String List.
Require Import Verif.Cong Verif.FqModel Verif.FactorModel Verif.ParserModel Verif.CircuitModel Verif.LangSpec.
Import ListNotations.
Local Open Scope string_scope.
Local Open Scope list_scope.
Local Open Scope nat_scope.

(** ** Lists, maps *)
Definition keys {A} (m : list (string * A)) : list string := map fst m.
Lemma bind_inv {A B} (x : res A) (f : A -> res B) b : bind x f = Done b -> exists a, x = Done a /\ f a = Done b.
Proof. destruct x; cbn; intros H; try discriminate. eauto. Qed.
Lemma get_inv {A} (x : option A) a : get x = Done a -> x = Some a.
Proof. destruct x; cbn; intros H; [now injection H as ->|discriminate]. Qed.
Lemma lookup_find_at {A} x (m : list (string * A)) : lookup x m = find_at x m.
Proof. reflexivity. Qed.
Lemma find_at_in {A} x (m : list (string * A)) : find_at x m <> None <-> In x (keys m).
Proof.
  induction m as [|[y a] m IH]; cbn; [tauto|]. destruct (String.eqb_spec x y) as [->|N]; [split; [auto|discriminate]|].
  rewrite IH. split; [auto|intros [E|I]; [now symmetry in E|auto]].
Qed.
Lemma find_at_none {A} x (m : list (string * A)) : find_at x m = None <-> ~ In x (keys m).
Proof. rewrite <- find_at_in. destruct (find_at x m); split; intros H; [discriminate|exfalso; apply H; discriminate|intros C; now apply C|reflexivity]. Qed.
Lemma find_at_app {A} x (m1 m2 : list (string * A)) : find_at x (m1 ++ m2) = match find_at x m1 with Some a => Some a | None => find_at x m2 end.
Proof. induction m1 as [|[y a] m IH]; cbn; auto. destruct (String.eqb x y); auto. Qed.
Lemma find_at_In {A} x (m : list (string * A)) a : find_at x m = Some a -> In (x, a) m.
Proof. induction m as [|[y b] m IH]; cbn; [discriminate|]. destruct (String.eqb_spec x y) as [->|N]; [intros [= ->]; auto|auto]. Qed.
Lemma put_at_keys {A} x (a : A) m : keys (put_at x a m) = keys m.
Proof. induction m as [|[y b] m IH]; cbn; auto. destruct (String.eqb x y); cbn; auto. f_equal. exact IH. Qed.
Lemma put_at_app_r {A} x (a : A) m1 m2 : ~ In x (keys m1) -> put_at x a (m1 ++ m2) = m1 ++ put_at x a m2.
Proof.
  induction m1 as [|[y b] m IH]; cbn; auto. intros N. destruct (String.eqb_spec x y) as [->|_]; [exfalso; auto|].
  rewrite IH; auto.
Qed.
Lemma put_at_app_l {A} x (a : A) m1 m2 : In x (keys m1) -> put_at x a (m1 ++ m2) = put_at x a m1 ++ m2.
Proof.
  induction m1 as [|[y b] m IH]; cbn; [tauto|]. intros H. destruct (String.eqb_spec x y) as [->|N]; auto.
  cbn. rewrite IH; auto. destruct H as [E|I]; auto. now symmetry in E.
Qed.
Lemma find_put {A} x (a : A) m y : find_at y (put_at x a m) = if String.eqb y x then match find_at x m with Some _ => Some a | None => None end else find_at y m.
Proof.
  induction m as [|[z b] m IH]; cbn; [now destruct (String.eqb y x)|].
  destruct (String.eqb_spec x z) as [E|N]; cbn.
  - subst z. destruct (String.eqb y x); reflexivity.
  - rewrite IH. destruct (String.eqb_spec y z) as [E|N2]; [|reflexivity].
    destruct (String.eqb_spec y x) as [E2|]; [congruence|reflexivity].
Qed.
Lemma lookup_set_at {A} x (a : A) m y : lookup y (set_at x a m) = if String.eqb y x then Some a else lookup y m.
Proof.
  induction m as [|[z b] m IH]; cbn; [reflexivity|].
  destruct (String.eqb_spec x z) as [E|N]; cbn.
  - subst z. destruct (String.eqb y x); reflexivity.
  - rewrite IH. destruct (String.eqb_spec y z) as [E|N2]; [|reflexivity].
    destruct (String.eqb_spec y x) as [E2|]; [congruence|reflexivity].
Qed.
Lemma set_at_keys_old {A} x (a : A) m : In x (keys m) -> keys (set_at x a m) = keys m.
Proof.
  induction m as [|[z b] m IH]; cbn; [tauto|]. destruct (String.eqb_spec x z) as [->|N]; auto.
  intros [E|I]; [now symmetry in E|]. cbn. f_equal. auto.
Qed.
Lemma set_at_keys {A} x (a : A) m y : In y (keys (set_at x a m)) <-> y = x \/ In y (keys m).
Proof. rewrite <- !find_at_in, <- !lookup_find_at, lookup_set_at. destruct (String.eqb_spec y x) as [E|N]; split; intros H; [now left|discriminate|now right|]. destruct H as [H|H]; [easy|exact H]. Qed.

(** ** The heap as a partial function *)
Lemma store_length h a o : List.length (store h a o) = List.length h.
Proof. revert a. induction h as [|x h IH]; intros [|a]; cbn; auto. Qed.
Lemma nth_store h a o b : nth_error (store h a o) b = if Nat.eqb a b then (if Nat.ltb a (List.length h) then Some o else None) else nth_error h b.
Proof.
  revert a b. induction h as [|x h IH]; intros a b; cbn.
  - destruct b; destruct (Nat.eqb a _); auto.
  - destruct a, b; cbn; auto. rewrite IH. destruct (Nat.eqb a b); auto.
Qed.
Lemma nth_store_eq h a o : a < List.length h -> nth_error (store h a o) a = Some o.
Proof. intros H. rewrite nth_store, Nat.eqb_refl. apply Nat.ltb_lt in H. now rewrite H. Qed.
Lemma nth_store_ne h a o b : a <> b -> nth_error (store h a o) b = nth_error h b.
Proof. intros H. rewrite nth_store. apply Nat.eqb_neq in H. now rewrite H. Qed.
Lemma nth_lt (h : heap) a o : nth_error h a = Some o -> a < List.length h.
Proof. intros H. apply nth_error_Some. rewrite H. discriminate. Qed.
Lemma nth_app_old (h e : heap) a o : nth_error h a = Some o -> nth_error (h ++ e) a = Some o.
Proof. intros H. rewrite nth_error_app1; auto. eapply nth_lt; eauto. Qed.
Lemma nth_last (h : heap) o : nth_error (h ++ [o]) (List.length h) = Some o.
Proof. rewrite nth_error_app2, Nat.sub_diag by auto. reflexivity. Qed.
Lemma fetch_inv h a o : fetch h a = Done o -> nth_error h a = Some o.
Proof. apply get_inv. Qed.

(** [older h h']: only objects were added. *)
Definition older (h h' : heap) : Prop := exists e, h' = h ++ e.
Lemma older_refl h : older h h.
Proof. exists []. now rewrite app_nil_r. Qed.
Lemma older_trans h h1 h2 : older h h1 -> older h1 h2 -> older h h2.
Proof. intros [e ->] [e1 ->]. exists (e ++ e1). now rewrite app_assoc. Qed.
Lemma older_app h e : older h (h ++ e).
Proof. now exists e. Qed.
Lemma older_nth h h' a o : older h h' -> nth_error h a = Some o -> nth_error h' a = Some o.
Proof. intros [e ->]. apply nth_app_old. Qed.
Lemma older_length h h' : older h h' -> List.length h <= List.length h'.
Proof. intros [e ->]. rewrite app_length. lia. Qed.
Lemma older_eq h h' : (forall a, a < List.length h -> nth_error h' a = nth_error h a) -> older h h'.
Proof.
  revert h'. induction h as [|x h IH]; intros h' H; [now exists h'|].
  assert (H0 := H 0 ltac:(cbn; lia)). cbn in H0. destruct h' as [|y h']; [discriminate|]. cbn in H0. injection H0 as ->.
  destruct (IH h') as [e ->]; [|now exists e]. intros a L. apply (H (S a)). cbn. lia.
Qed.
Lemma older_store h h' a o : older h h' -> List.length h <= a -> older h (store h' a o).
Proof.
  intros O L. apply older_eq. intros b Lb. rewrite nth_store_ne by lia.
  destruct (nth_error h b) eqn:E; [now apply (older_nth h)|]. apply nth_error_None in E. lia.
Qed.

(** [keeps L h h']: objects below L and objects without constraints stay as they are; of the others
    only the entries of declared names change. *)
Definition same_shape (o o' : fobj) : Prop :=
  fname o' = fname o /\ finputs o' = finputs o /\ fctx o' = fctx o /\ ftasks o' = ftasks o /\ fcons o' = fcons o /\
  keys (ffuns o') = keys (ffuns o) /\ (forall x, ~ In x (keys (fcons o)) -> lookup x (ffuns o') = lookup x (ffuns o)).
Lemma same_shape_refl o : same_shape o o.
Proof. repeat split; auto. Qed.
Lemma same_shape_trans o o1 o2 : same_shape o o1 -> same_shape o1 o2 -> same_shape o o2.
Proof.
  intros (A & B & C & D & E & F & G) (A' & B' & C' & D' & E' & F' & G'). unfold same_shape. repeat split; try congruence.
  intros x Hx. rewrite G', G; auto. now rewrite E.
Qed.
Definition keeps (L : nat) (h h' : heap) : Prop :=
  List.length h <= List.length h' /\
  forall a o, nth_error h a = Some o -> exists o', nth_error h' a = Some o' /\ same_shape o o' /\ (a < L \/ fcons o = [] -> o' = o).
Lemma keeps_refl L h : keeps L h h.
Proof. split; auto. intros a o H. exists o. split; auto. split; [apply same_shape_refl|auto]. Qed.
Lemma keeps_trans L h h1 h2 : keeps L h h1 -> keeps L h1 h2 -> keeps L h h2.
Proof.
  intros [L1 H1] [L2 H2]. split; [lia|]. intros a o H. destruct (H1 a o H) as (o1 & N1 & S1 & E1).
  destruct (H2 a o1 N1) as (o2 & N2 & S2 & E2). exists o2. split; auto. split; [eapply same_shape_trans; eauto|].
  intros C. specialize (E1 C). subst o1. auto.
Qed.
Lemma keeps_older L h h' : older h h' -> keeps L h h'.
Proof.
  intros O. split; [now apply older_length|]. intros a o H. exists o. split; [eapply older_nth; eauto|].
  split; [apply same_shape_refl|auto].
Qed.
Lemma keeps_all h h' : keeps (List.length h) h h' -> older h h'.
Proof.
  intros [_ H]. apply older_eq. intros a La. destruct (nth_error h a) as [o|] eqn:E.
  - destruct (H a o E) as (o' & N & _ & Eq). rewrite N. f_equal. auto.
  - apply nth_error_None in E. lia.
Qed.
Lemma keeps_le L L' h h' : L' <= L -> keeps L h h' -> keeps L' h h'.
Proof. intros Le [Ln H]. split; auto. intros a o E. destruct (H a o E) as (o' & N & S1 & Eq). exists o'. split; auto. split; auto. intros [C|C]; apply Eq; [left; lia|auto]. Qed.

(** ** Values *)
Definition rest_name (f : factors) : string := match f with [x] => ident (ftok x) | _ => "" end.
Inductive vobj (k : nat) (h : heap) : nat -> factors -> Prop :=
| vobj_one : forall a x o, k <= a -> nth_error h a = Some o -> finputs o = [] -> ffuns o = [] -> fcons o = [] ->
    fname o = ident (ftok x) -> ftasks o = ftasks (factor_function x) -> vobj k h a [x]
| vobj_more : forall a x y f o a1 a2, k <= a -> nth_error h a = Some o -> finputs o = [] -> fcons o = [] -> fname o = "" ->
    ffuns o = [(ident (ftok x), a1); (rest_name (y :: f), a2)] -> ident (ftok x) <> rest_name (y :: f) ->
    ftasks o = Some [ret_of [leaf (Tok TArith "+"); call_of (ident (ftok x)); call_of (rest_name (y :: f))]] ->
    vobj k h a1 [x] -> vobj k h a2 (y :: f) -> vobj k h a (x :: y :: f).
Lemma vobj_agree k h h' a f : (forall b o, k <= b -> fcons o = [] -> nth_error h b = Some o -> nth_error h' b = Some o) ->
  vobj k h a f -> vobj k h' a f.
Proof. intros H. induction 1; [eapply vobj_one|eapply vobj_more]; eauto. Qed.
Lemma vobj_older k h h' a f : older h h' -> vobj k h a f -> vobj k h' a f.
Proof. intros O. apply vobj_agree. intros. eapply older_nth; eauto. Qed.
Lemma vobj_keeps k L h h' a f : keeps L h h' -> vobj k h a f -> vobj k h' a f.
Proof.
  intros [_ K]. apply vobj_agree. intros b o _ C E. destruct (K b o E) as (o' & N & _ & Eq).
  now rewrite Eq in N by auto.
Qed.
Lemma vobj_le k k' h a f : k' <= k -> vobj k h a f -> vobj k' h a f.
Proof. intros L. induction 1; [eapply vobj_one|eapply vobj_more]; eauto; lia. Qed.
Lemma vobj_nonempty k h a f : vobj k h a f -> f <> [].
Proof. destruct 1; discriminate. Qed.
Lemma vobj_name k h a f o : vobj k h a f -> nth_error h a = Some o -> fname o = rest_name f /\ finputs o = [] /\ fcons o = [].
Proof. destruct 1; intros E; assert (o = o0) as -> by congruence; auto. Qed.

(** What a variable holds. *)
Definition stored_at (h : heap) (a : nat) (f : factors) : Prop :=
  exists o, nth_error h a = Some o /\ fcons o = [] /\ finputs o = [] /\
    match f with
    | [x] => if is_number x then fnum o = Some (mult x) /\ fname o = ident (ftok x) /\ vobj 0 h a f else fnum o = None /\ vobj 0 h a f
    | _ => fnum o = None /\ vobj 0 h a f
    end.
Lemma stored_keeps L h h' a v : keeps L h h' -> stored_at h a v -> stored_at h' a v.
Proof.
  intros K (o & N & C & I & M). destruct K as [Kl K]. destruct (K a o N) as (o' & N' & _ & Eq). rewrite Eq in N' by auto.
  exists o. split; auto. split; auto. split; auto.
  assert (V : forall f, vobj 0 h a f -> vobj 0 h' a f) by (intros f; eapply vobj_keeps; split; eauto).
  destruct v as [|x [|y v]]; [destruct M; auto| |destruct M; auto].
  destruct (is_number x); [destruct M as (M1 & M2 & M3); auto|destruct M; auto].
Qed.

(** flat_copy of a value object *)
Lemma flat_copy_vobj k h a f : vobj k h a f -> forall n h0 ctx h' c, older h h0 -> flat_copy_in n h0 a ctx = Done (h', c) ->
  older h0 h' /\ c = List.length h0 /\ vobj c h' c f /\ exists o, nth_error h' c = Some o /\ fnum o = None.
Proof.
  induction 1 as [a x o Lk N I F C NM T|a x y f o a1 a2 Lk N I C NM F NE T V1 IH1 V2 IH2]; intros [|n] h0 ctx h' c O E; try discriminate; cbn [flat_copy_in] in E.
  - apply bind_inv in E. destruct E as (ob & E1 & E). apply fetch_inv in E1. rewrite (older_nth h h0 a o O N) in E1. injection E1 as <-.
    cbn [alloc] in E. rewrite F in E. cbn [copy_funs bind] in E. apply bind_inv in E. destruct E as (t & Et & E). apply get_inv in Et.
    injection E as <- <-. split; [apply older_store; [apply older_app|auto]|]. split; auto.
    assert (NN : forall o', nth_error (store (h0 ++ [o']) (List.length h0) (FObj (fname o) None (finputs o) ctx [] (Some t) (fcons o))) (List.length h0)
             = Some (FObj (fname o) None (finputs o) ctx [] (Some t) (fcons o))) by (intros; apply nth_store_eq; rewrite app_length; cbn; lia).
    split; [|eexists; split; [apply NN|reflexivity]].
    eapply vobj_one; [auto|apply NN|..]; cbn; auto. now rewrite <- Et.
  - apply bind_inv in E. destruct E as (ob & E1 & E). apply fetch_inv in E1. rewrite (older_nth h h0 a o O N) in E1. injection E1 as <-.
    cbn [alloc] in E. rewrite F in E. cbn [copy_funs] in E.
    set (c0 := List.length h0) in *. set (h1 := h0 ++ [_]) in *.
    assert (O1 : older h h1) by (eapply older_trans; [exact O|apply older_app]).
    apply bind_inv in E. destruct E as ([h3 m3] & E2 & E).
    apply bind_inv in E2. destruct E2 as ([h4 c1] & E3 & E2).
    destruct (IH1 n h1 (Some c0) h4 c1 O1 E3) as (O4 & -> & W1 & _).
    apply bind_inv in E2. destruct E2 as ([h5 m5] & E4 & E2).
    apply bind_inv in E4. destruct E4 as ([h6 c2] & E5 & E4). cbn [bind] in E4.
    destruct (IH2 n h4 (Some c0) h6 c2 (older_trans _ _ _ O1 O4) E5) as (O6 & -> & W2 & _).
    injection E4 as <- <-. injection E2 as <- <-.
    apply bind_inv in E. destruct E as (t & Et & E). apply get_inv in Et. injection E as <- <-.
    assert (L1 : List.length h1 = S c0) by (unfold h1; rewrite app_length; cbn; unfold c0; lia).
    assert (Lo4 := older_length _ _ O4). assert (Lo6 := older_length _ _ O6).
    assert (NN : forall o', nth_error (store h6 c0 o') c0 = Some o') by (intros; apply nth_store_eq; lia).
    split; [apply older_store; [|auto]; eapply older_trans; [apply older_app|]; eapply older_trans; [exact O4|exact O6]|].
    split; auto. split; [|eexists; split; [apply NN|reflexivity]].
    eapply vobj_more; [auto|apply NN|..]; cbn [finputs fcons fname ffuns ftasks]; auto.
    + now rewrite <- Et.
    + eapply vobj_le; [|eapply vobj_agree; [|eapply vobj_older; [exact O6|exact W1]]]; [lia|].
      intros b o' Lb _ Nb. rewrite nth_store_ne by lia. exact Nb.
    + eapply vobj_le; [|eapply vobj_agree; [|exact W2]]; [lia|].
      intros b o' Lb _ Nb. rewrite nth_store_ne by lia. exact Nb.
Qed.

(** primitiveReturnfunction of a factor list *)
Lemma factors_function_vobj q h f h' a : factors_function q h f = Done (h', a) -> f <> [] ->
  (List.length (filter is_number f) <= 1)%nat -> distinct_names f -> Forall (fun x => ident (ftok x) <> "") f ->
  older h h' /\ vobj (List.length h) h' a f /\ exists o, nth_error h' a = Some o /\
    fnum o = match f with [x] => if is_number x then Some (mult x) else None | _ => None end.
Proof.
  revert h h' a. induction f as [|x f IH]; intros h h' a E Ne One Di Nm; [easy|]. destruct f as [|y f].
  - cbn in E. injection E as <- <-. split; [apply older_app|]. split.
    + eapply vobj_one; [auto|apply nth_last|..]; unfold factor_function; destruct (is_number x); cbn; auto; destruct (mult x =? 1)%Z; auto.
    + eexists. split; [apply nth_last|]. unfold factor_function; destruct (is_number x); cbn; auto; destruct (mult x =? 1)%Z; auto.
  - remember (y :: f) as g eqn:Eg. cbn [factors_function] in E. rewrite Eg in E. rewrite <- Eg in E. cbn [alloc] in E.
    inversion Di as [|? ? Di1 Di2]; subst x0 l. inversion Nm as [|? ? Nm1 Nm2]; subst x0 l.
    apply bind_inv in E. destruct E as ([h2 b] & E2 & E).
    destruct (IH _ _ _ E2) as (O2 & V2 & ob & Nb & Fb); auto; [now rewrite Eg| |].
    { cbn in One. destruct (is_number x); cbn in One; lia. }
    unfold combine_functions in E. apply bind_inv in E. destruct E as (oa & Ea & E). apply fetch_inv in Ea.
    assert (Ha : nth_error h2 (List.length h) = Some (factor_function x)) by (eapply older_nth; [exact O2|apply nth_last]).
    rewrite Ha in Ea. injection Ea as <-.
    apply bind_inv in E. destruct E as (ob' & Eb & E). apply fetch_inv in Eb. rewrite Nb in Eb. injection Eb as <-.
    assert (Nn : match fnum (factor_function x), fnum ob with Some _, Some _ => False | _, _ => True end).
    { rewrite Fb. unfold factor_function. destruct (is_number x) eqn:Ex; cbn; [|destruct (mult x =? 1)%Z; cbn; auto].
      rewrite Eg in *. destruct f as [|z f]; auto. destruct (is_number y) eqn:Ez; auto.
      cbn in One. rewrite Ex, Ez in One. cbn in One. lia. }
    assert (E' : Done (alloc h2 (FObj "" None [] None (set_at (fname ob) b (set_at (fname (factor_function x)) (List.length h) []))
                     (Some [ret_of [leaf (Tok TArith "+"); call_of (fname (factor_function x)); call_of (fname ob)]]) [])) = Done (h', a)).
    { destruct (fnum (factor_function x)), (fnum ob); try exact E; destruct Nn. }
    clear E. unfold alloc in E'. injection E' as <- <-.
    assert (Fx : fname (factor_function x) = ident (ftok x)).
    { unfold factor_function. destruct (is_number x); cbn; auto. destruct (mult x =? 1)%Z; auto. }
    destruct (vobj_name _ _ _ _ _ V2 Nb) as [Fo _]. rewrite Fx, Fo.
    assert (Nx : ident (ftok x) <> rest_name g).
    { rewrite Eg. unfold rest_name. destruct f as [|z f]; [|exact Nm1]. intros Q. apply Di1. rewrite Eg. left. now symmetry. }
    assert (Sx : String.eqb (rest_name g) (ident (ftok x)) = false).
    { apply String.eqb_neq. auto. }
    rewrite Sx. split; [eapply older_trans; [apply older_app|]; eapply older_trans; [exact O2|apply older_app]|].
    split; [|eexists; split; [apply nth_last|rewrite Eg; reflexivity]].
    rewrite Eg in *. assert (Lo := older_length _ _ O2). rewrite app_length in Lo. cbn in Lo.
    eapply vobj_more; [|apply nth_last|..]; cbn; auto.
    + lia.
    + eapply vobj_one; [|apply nth_app_old; exact Ha|..]; auto; unfold factor_function; destruct (is_number x); cbn; auto; destruct (mult x =? 1)%Z; auto.
    + eapply vobj_older; [apply older_app|]. eapply vobj_le; [|exact V2]. rewrite app_length. lia.
Qed.

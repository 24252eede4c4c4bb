Require Import ZArith Bool Ascii String List Lia Arith.
Require Import Verif.FactorModel Verif.LexerModel Verif.ParserModel Verif.ParserSpec.
Import ListNotations.
Local Open Scope nat_scope.
Local Open Scope string_scope.
Local Open Scope list_scope.

Section ChainInd.
Variable P : chain -> Prop.
Variable Q : operand -> Prop.
Hypothesis Hlast : forall o, Q o -> P (Last o).
Hypothesis Hlink : forall o op c, Q o -> P c -> P (Link o op c).
Hypothesis Hleaf : forall t, Q (Leaf t).
Hypothesis Hparen : forall c, P c -> Q (Paren c).
Hypothesis Hcall : forall f args, Forall P args -> Q (Call f args).
Hypothesis Hindex : forall a i more, P i -> Forall P more -> Q (Index a i more).
Fixpoint chain_ind2 (c : chain) : P c :=
  match c with
  | Last o => Hlast o (operand_ind2 o)
  | Link o op c' => Hlink o op c' (operand_ind2 o) (chain_ind2 c')
  end
with operand_ind2 (o : operand) : Q o :=
  match o with
  | Leaf t => Hleaf t
  | Paren c => Hparen c (chain_ind2 c)
  | Call f args => Hcall f args ((fix all l : Forall P l :=
      match l with [] => Forall_nil _ | c :: l' => Forall_cons c (chain_ind2 c) (all l') end) args)
  | Index a i more => Hindex a i more (chain_ind2 i) ((fix all l : Forall P l :=
      match l with [] => Forall_nil _ | c :: l' => Forall_cons c (chain_ind2 c) (all l') end) more)
  end.
End ChainInd.

(** * Reading equations *)
Fixpoint join (l : list chain) : list token :=
  match l with
  | [] => []
  | [c] => printc c
  | c :: l' => printc c ++ syn "," :: join l'
  end.
Definition squares (l : list chain) : list token := flat_map (fun c => syn "[" :: printc c ++ [syn "]"]) l.
Lemma printo_call f args : printo (Call f args) = Tok TCall f :: syn "(" :: join args ++ [syn ")"].
Proof. reflexivity. Qed.
Lemma printo_index a i more : printo (Index a i more) = Tok TIdent a :: squares (i :: more).
Proof. unfold squares. cbn [printo flat_map]. cbn [app]. rewrite <- app_assoc. reflexivity. Qed.
Lemma wf_call f args : wfo (Call f args) <-> solid f /\ Forall wfc args.
Proof.
  cbn [wfo]. apply and_iff_compat_l. induction args as [|c l IH]; [split; constructor|].
  rewrite IH. split; [intros [A B]; now constructor|intros H; inversion H; now split].
Qed.
Lemma wf_index a i more : wfo (Index a i more) <-> solid a /\ Forall wfc (i :: more).
Proof.
  cbn [wfo]. apply and_iff_compat_l.
  assert (E : (fix all l := match l with [] => True | c :: l' => wfc c /\ all l' end) more <-> Forall wfc more).
  { induction more as [|c l IH]; [split; constructor|].
    rewrite IH. split; [intros [A B]; now constructor|intros H; inversion H; now split]. }
  rewrite E. split; [intros [A B]; now constructor|intros H; inversion H; now split].
Qed.

Lemma text_solid s t : solid (ident t) -> In s ["("; ")"; "["; "]"; "{"; "}"; ","; break] -> text_is s t = false.
Proof. intros H I. unfold text_is. apply String.eqb_neq. intros E. apply H. rewrite E. exact I. Qed.
Ltac solids H := rewrite ?(text_solid "(" _ H), ?(text_solid ")" _ H), ?(text_solid "[" _ H), ?(text_solid "]" _ H),
  ?(text_solid "," _ H), ?(text_solid break _ H) by (cbn; tauto).

Definition is_op_type (t : ttype) : bool := match t with TCompare | TArith | TBoolOp | TBitOp | TAssign => true | _ => false end.
Lemma operator_type_ok t : operator_type (ttyp t) -> is_operator t = true.
Proof. unfold operator_type, is_operator. cbn. intros H. destruct (ttyp t); try easy; repeat destruct H as [H|H]; try discriminate; easy. Qed.

(** * Lists that a scan passes over *)
Definition prepend {A} (w : list token) (x : option (list token * A)) : option (list token * A) :=
  match x with Some (l, r) => Some (w ++ l, r) | None => None end.
Lemma prepend_app {A} w v (x : option (list token * A)) : prepend w (prepend v x) = prepend (w ++ v) x.
Proof. destruct x as [[l r]|]; cbn; [|easy]. now rewrite app_assoc. Qed.
Lemma prepend_nil {A} (x : option (list token * A)) : prepend [] x = x.
Proof. destruct x as [[l r]|]; easy. Qed.

Definition passes (op cl : string) (w : list token) : Prop :=
  forall ctr s, (1 <= ctr)%Z -> closing_loop op cl ctr (w ++ s) = prepend w (closing_loop op cl ctr s).
Lemma passes_nil op cl : passes op cl [].
Proof. intros ctr s H. cbn. now rewrite prepend_nil. Qed.
Lemma passes_app op cl w v : passes op cl w -> passes op cl v -> passes op cl (w ++ v).
Proof. intros A B ctr s H. rewrite <- app_assoc, A, B by easy. apply prepend_app. Qed.
Lemma passes_one op cl t : text_is op t = false -> text_is cl t = false -> passes op cl [t].
Proof. intros A B ctr s H. cbn. rewrite A, B. destruct (closing_loop op cl ctr s) as [[l r]|]; easy. Qed.
Lemma passes_cons op cl t w : text_is op t = false -> text_is cl t = false -> passes op cl w -> passes op cl (t :: w).
Proof. intros A B C. change (t :: w) with ([t] ++ w). apply passes_app; [now apply passes_one|easy]. Qed.
Lemma passes_group op cl a b w : text_is op a = true -> text_is cl a = false -> text_is op b = false -> text_is cl b = true ->
  passes op cl w -> passes op cl (a :: w ++ [b]).
Proof.
  intros A A' B B' W ctr s H. cbn [app]. cbn [closing_loop]. rewrite A, A'. rewrite <- app_assoc, W by lia. cbn [app closing_loop].
  rewrite B, B'. replace (ctr + 1 - 1 =? 0)%Z with false by (symmetry; apply Z.eqb_neq; lia).
  replace (ctr + 1 - 1)%Z with ctr by lia. destruct (closing_loop op cl ctr s) as [[l r]|]; cbn; [|easy].
  now rewrite <- app_assoc.
Qed.

(** Brackets used inside expressions. *)
Definition bracket_pair (op cl : string) : Prop := op = "(" /\ cl = ")" \/ op = "[" /\ cl = "]" \/ op = "{" /\ cl = "}".
Lemma passes_solid op cl t : bracket_pair op cl -> solid (ident t) -> passes op cl [t].
Proof. intros [[-> ->]|[[-> ->]|[-> ->]]] H; apply passes_one; apply text_solid; auto; cbn; tauto. Qed.
Lemma passes_paren op cl w : bracket_pair op cl -> passes op cl w -> passes op cl (syn "(" :: w ++ [syn ")"]).
Proof.
  intros [[-> ->]|[[-> ->]|[-> ->]]] H.
  - now apply passes_group.
  - apply passes_cons; try reflexivity. apply passes_app; [easy|]. now apply passes_one.
  - apply passes_cons; try reflexivity. apply passes_app; [easy|]. now apply passes_one.
Qed.
Lemma passes_square op cl w : bracket_pair op cl -> passes op cl w -> passes op cl (syn "[" :: w ++ [syn "]"]).
Proof.
  intros [[-> ->]|[[-> ->]|[-> ->]]] H.
  - apply passes_cons; try reflexivity. apply passes_app; [easy|]. now apply passes_one.
  - now apply passes_group.
  - apply passes_cons; try reflexivity. apply passes_app; [easy|]. now apply passes_one.
Qed.
Lemma passes_comma op cl : bracket_pair op cl -> passes op cl [syn ","].
Proof. intros [[-> ->]|[[-> ->]|[-> ->]]]; now apply passes_one. Qed.

Lemma passes_chain op cl : bracket_pair op cl -> forall c, wfc c -> passes op cl (printc c).
Proof.
  intros B c. induction c as [o IH|o k c IHo IHc|t|c IH|f args IH|a i more IHi IH] using chain_ind2
    with (Q := fun o => wfo o -> passes op cl (printo o)).
  - exact IH.
  - intros [O [_ [S C]]]. cbn [printc]. apply passes_app; [now apply IHo|]. change (k :: printc c) with ([k] ++ printc c).
    apply passes_app; [now apply passes_solid|now apply IHc].
  - intros [_ S]. now apply passes_solid.
  - intros C. cbn [printo]. apply passes_paren; [easy|now apply IH].
  - rewrite wf_call. intros [S W]. rewrite printo_call. change (Tok TCall f :: ?x) with ([Tok TCall f] ++ x).
    apply passes_app; [now apply passes_solid|]. apply passes_paren; [easy|].
    clear S. induction args as [|c l IHl]; [apply passes_nil|]. inversion IH as [|? ? Hc Hl]. inversion W as [|? ? Wc Wl]. subst.
    destruct l as [|c' l]; [now apply Hc|].
    change (join (c :: c' :: l)) with (printc c ++ [syn ","] ++ join (c' :: l)).
    apply passes_app; [now apply Hc|]. apply passes_app; [now apply passes_comma|]. now apply IHl.
  - rewrite wf_index. intros [S W]. rewrite printo_index. change (Tok TIdent a :: ?x) with ([Tok TIdent a] ++ x).
    apply passes_app; [now apply passes_solid|].
    assert (F : Forall (fun c => wfc c -> passes op cl (printc c)) (i :: more)) by now constructor.
    clear IHi IH. induction F as [|c l Hc Hl IHl]; [apply passes_nil|]. inversion W as [|? ? Wc Wl]. subst.
    change (squares (c :: l)) with ((syn "[" :: printc c ++ [syn "]"]) ++ squares l).
    apply passes_app; [apply passes_square; [easy|now apply Hc]|now apply IHl].
Qed.
Lemma passes_operand op cl o : bracket_pair op cl -> wfo o -> passes op cl (printo o).
Proof. intros B W. exact (passes_chain op cl B (Last o) W). Qed.

(** The scan for an operator, inside brackets or over an operand. *)
Definition prepend3 (w : list token) (x : option (list token * token * list token)) : option (list token * token * list token) :=
  match x with Some (l, o, r) => Some (w ++ l, o, r) | None => None end.
Lemma prepend3_app w v x : prepend3 w (prepend3 v x) = prepend3 (w ++ v) x.
Proof. destruct x as [[[l o] r]|]; cbn; [|easy]. now rewrite app_assoc. Qed.
(** [lo]: passed over at every depth; otherwise only inside brackets. *)
Definition hides (lo : bool) (w : list token) : Prop :=
  forall a b s, (0 <= a)%Z -> (0 <= b)%Z -> (lo = true \/ 1 <= a + b)%Z ->
    split_top_operator a b (w ++ s) = prepend3 w (split_top_operator a b s).
Lemma hides_weaken w : hides true w -> hides false w.
Proof. intros H a b s A B C. apply H; auto. Qed.
Lemma hides_app lo w v : hides lo w -> hides lo v -> hides lo (w ++ v).
Proof. intros A B a b s Ha Hb C. rewrite <- app_assoc, A, B by easy. apply prepend3_app. Qed.
Lemma hides_plain lo t : text_is "(" t = false -> text_is ")" t = false -> text_is "[" t = false -> text_is "]" t = false ->
  is_operator t = false \/ lo = false -> hides lo [t].
Proof.
  intros A B C D E a b s Ha Hb L. cbn [app split_top_operator]. rewrite A, B, C, D.
  replace (is_operator t && (a =? 0)%Z && (b =? 0)%Z) with false.
  - destruct (split_top_operator a b s) as [[[l o] r]|]; easy.
  - destruct E as [->| ->]; [easy|]. destruct L as [L|L]; [discriminate|].
    destruct (Z.eqb_spec a 0), (Z.eqb_spec b 0); rewrite ?andb_false_r; try easy. lia.
Qed.
Lemma hides_solid lo t : solid (ident t) -> is_operator t = false \/ lo = false -> hides lo [t].
Proof. intros S E. apply hides_plain; try easy; apply text_solid; auto; cbn; tauto. Qed.
Lemma hides_paren lo w : hides false w -> hides lo (syn "(" :: w ++ [syn ")"]).
Proof.
  intros W a b s Ha Hb L. cbn [app split_top_operator text_is ident syn String.eqb Ascii.eqb Bool.eqb is_operator ttyp andb].
  rewrite <- app_assoc, W by lia. cbn [app split_top_operator text_is ident syn String.eqb Ascii.eqb Bool.eqb is_operator ttyp andb].
  replace (a + 1 - 1)%Z with a by lia. destruct (split_top_operator a b s) as [[[l o] r]|]; cbn; [|easy].
  now rewrite <- app_assoc.
Qed.
Lemma hides_square lo w : hides false w -> hides lo (syn "[" :: w ++ [syn "]"]).
Proof.
  intros W a b s Ha Hb L. cbn [app split_top_operator text_is ident syn String.eqb Ascii.eqb Bool.eqb is_operator ttyp andb].
  rewrite <- app_assoc, W by lia. cbn [app split_top_operator text_is ident syn String.eqb Ascii.eqb Bool.eqb is_operator ttyp andb].
  replace (b + 1 - 1)%Z with b by lia. destruct (split_top_operator a b s) as [[[l o] r]|]; cbn; [|easy].
  now rewrite <- app_assoc.
Qed.
Lemma hides_nil lo : hides lo [].
Proof. intros a b s _ _ _. cbn. now destruct (split_top_operator a b s) as [[[l o] r]|]. Qed.

Lemma hides_join args : Forall wfc args -> Forall (fun c => wfc c -> hides false (printc c)) args -> hides false (join args).
Proof.
  intros W IH. induction args as [|c l IHl]; [apply hides_nil|]. inversion IH as [|? ? Hc Hl]. inversion W as [|? ? Wc Wl]. subst.
  destruct l as [|c' l]; [now apply Hc|].
  change (join (c :: c' :: l)) with (printc c ++ [syn ","] ++ join (c' :: l)).
  apply hides_app; [now apply Hc|]. apply hides_app; [now apply hides_plain; auto|]. now apply IHl.
Qed.
Lemma hides_squares lo l : Forall wfc l -> Forall (fun c => wfc c -> hides false (printc c)) l -> hides lo (squares l).
Proof.
  intros W F. induction F as [|c l Hc Hl IHl]; [apply hides_nil|]. inversion W as [|? ? Wc Wl]. subst.
  change (squares (c :: l)) with ((syn "[" :: printc c ++ [syn "]"]) ++ squares l).
  apply hides_app; [apply hides_square; now apply Hc|now apply IHl].
Qed.
Lemma hides_chain_operand : (forall c, wfc c -> hides false (printc c)) /\ (forall o, wfo o -> hides true (printo o)).
Proof.
  assert (E : forall c, wfc c -> hides false (printc c)).
  { intros c. induction c as [o IH|o k c IHo IHc|t|c IH|f args IH|a i more IHi IH] using chain_ind2
      with (Q := fun o => wfo o -> hides true (printo o)).
    - intros W. apply hides_weaken. now apply IH.
    - intros [O [_ [S C]]]. cbn [printc]. apply hides_app; [apply hides_weaken; now apply IHo|]. change (k :: printc c) with ([k] ++ printc c).
      apply hides_app; [apply hides_solid; auto|now apply IHc].
    - intros [T S]. apply hides_solid; [easy|]. left. unfold is_operator. destruct T as [-> | ->]; easy.
    - intros C. cbn [printo]. apply hides_paren. now apply IH.
    - rewrite wf_call. intros [S W]. rewrite printo_call. change (Tok TCall f :: ?x) with ([Tok TCall f] ++ x).
      apply hides_app; [apply hides_solid; auto|]. apply hides_paren. now apply hides_join.
    - rewrite wf_index. intros [S W]. rewrite printo_index. change (Tok TIdent a :: ?x) with ([Tok TIdent a] ++ x).
      apply hides_app; [apply hides_solid; auto|]. apply hides_squares; [easy|]. now constructor. }
  split; [exact E|]. intros o. destruct o as [t|c|f args|a i more].
  - intros [T S]. apply hides_solid; [easy|]. left. unfold is_operator. destruct T as [-> | ->]; easy.
  - intros C. cbn [printo]. apply hides_paren. now apply E.
  - rewrite wf_call. intros [S W]. rewrite printo_call. change (Tok TCall f :: ?x) with ([Tok TCall f] ++ x).
    apply hides_app; [apply hides_solid; auto|]. apply hides_paren. apply hides_join; [easy|]. apply Forall_forall. auto.
  - rewrite wf_index. intros [S W]. rewrite printo_index. change (Tok TIdent a :: ?x) with ([Tok TIdent a] ++ x).
    apply hides_app; [apply hides_solid; auto|]. apply hides_squares; [easy|]. apply Forall_forall. auto.
Qed.

(** The scan for a separator. *)
Definition prepend2 (w : list token) (x : list token * list token) : list token * list token := (w ++ fst x, snd x).
Definition covers (d : Z) (w : list token) : Prop :=
  forall e s, (d <= e)%Z -> split_top_string "," e (w ++ s) = prepend2 w (split_top_string "," e s).
Lemma covers_nil d : covers d [].
Proof. intros e s H. unfold prepend2. cbn. now destruct (split_top_string "," e s). Qed.
Lemma covers_app d w v : covers d w -> covers d v -> covers d (w ++ v).
Proof. intros A B e s H. rewrite <- app_assoc, A, B by easy. unfold prepend2. cbn. now rewrite app_assoc. Qed.
Lemma covers_solid d t : solid (ident t) -> covers d [t].
Proof.
  intros S e s H. cbn [app split_top_string]. solids S. cbn [orb andb]. unfold prepend2.
  destruct (split_top_string "," e s). easy.
Qed.
Lemma covers_comma : covers 1 [syn ","].
Proof.
  intros e s H. cbn [app split_top_string text_is ident syn String.eqb Ascii.eqb Bool.eqb andb orb].
  replace (e =? 0)%Z with false by (symmetry; apply Z.eqb_neq; lia). unfold prepend2. destruct (split_top_string "," e s). easy.
Qed.
Lemma covers_group a b w : text_is "(" a || text_is "[" a = true -> text_is ")" a || text_is "]" a = false -> text_is "," a = false ->
  text_is "(" b || text_is "[" b = false -> text_is ")" b || text_is "]" b = true -> text_is "," b = false ->
  covers 1 w -> covers 0 (a :: w ++ [b]).
Proof.
  intros A A' A'' B B' B'' W e s H. cbn [app split_top_string]. rewrite A, A', A''. cbn [andb].
  rewrite <- app_assoc, W by lia. cbn [app split_top_string]. rewrite B, B', B''. cbn [andb].
  replace (e + 1 - 1)%Z with e by lia. destruct (split_top_string "," e s) as [l r]. unfold prepend2. cbn. now rewrite <- app_assoc.
Qed.
Lemma covers_mono d d' w : (d <= d')%Z -> covers d w -> covers d' w.
Proof. intros L C e s H. apply C. lia. Qed.
Lemma covers_chain : forall c, wfc c -> covers 0 (printc c).
Proof.
  intros c. induction c as [o IH|o k c IHo IHc|t|c IH|f args IH|a i more IHi IH] using chain_ind2
    with (Q := fun o => wfo o -> covers 0 (printo o)).
  - exact IH.
  - intros [O [_ [S C]]]. cbn [printc]. apply covers_app; [now apply IHo|]. change (k :: printc c) with ([k] ++ printc c).
    apply covers_app; [now apply covers_solid|now apply IHc].
  - intros [_ S]. now apply covers_solid.
  - intros C. cbn [printo]. apply covers_group; try reflexivity. apply (covers_mono 0); [lia|now apply IH].
  - rewrite wf_call. intros [S W]. rewrite printo_call. change (Tok TCall f :: ?x) with ([Tok TCall f] ++ x).
    apply covers_app; [now apply covers_solid|]. apply covers_group; try reflexivity.
    clear S. induction args as [|c l IHl]; [apply covers_nil|]. inversion IH as [|? ? Hc Hl]. inversion W as [|? ? Wc Wl]. subst.
    destruct l as [|c' l]; [apply (covers_mono 0); [lia|now apply Hc]|].
    change (join (c :: c' :: l)) with (printc c ++ [syn ","] ++ join (c' :: l)).
    apply covers_app; [apply (covers_mono 0); [lia|now apply Hc]|]. apply covers_app; [apply covers_comma|]. now apply IHl.
  - rewrite wf_index. intros [S W]. rewrite printo_index. change (Tok TIdent a :: ?x) with ([Tok TIdent a] ++ x).
    apply covers_app; [now apply covers_solid|].
    assert (F : Forall (fun c => wfc c -> covers 0 (printc c)) (i :: more)) by now constructor.
    clear IHi IH. induction F as [|c l Hc Hl IHl]; [apply covers_nil|]. inversion W as [|? ? Wc Wl]. subst.
    change (squares (c :: l)) with ((syn "[" :: printc c ++ [syn "]"]) ++ squares l).
    apply covers_app; [|now apply IHl].
    apply covers_group; try reflexivity. apply (covers_mono 0); [lia|now apply Hc].
Qed.

(** * First and last tokens *)
Definition opens (t : token) : Prop := text_is break t = false /\ text_is "[" t = false /\ text_is "{" t = false /\ text_is ")" t = false /\ text_is "}" t = false.
Lemma operand_first o : wfo o -> exists t w, printo o = t :: w /\ opens t /\ (text_is "(" t = true -> exists c, o = Paren c).
Proof.
  assert (T : forall t, solid (ident t) -> opens t /\ text_is "(" t = false).
  { intros t S. unfold opens. repeat split; apply text_solid; auto; cbn; tauto. }
  destruct o as [t|c|f args|a i more].
  - intros [_ S]. exists t, []. destruct (T t S) as [A B]. split; [easy|]. split; [easy|]. congruence.
  - intros _. cbn [printo]. do 2 eexists. split; [reflexivity|]. split; [repeat split|]. eauto.
  - rewrite wf_call. intros [S _]. rewrite printo_call. destruct (T (Tok TCall f) S) as [A B].
    do 2 eexists. split; [reflexivity|]. split; [easy|]. congruence.
  - rewrite wf_index. intros [S _]. rewrite printo_index. destruct (T (Tok TIdent a) S) as [A B].
    do 2 eexists. split; [reflexivity|]. split; [easy|]. congruence.
Qed.
Lemma chain_first c : wfc c -> exists t w, printc c = t :: w /\ opens t.
Proof.
  destruct c as [o|o k c]; cbn [wfc printc].
  - intros W. destruct (operand_first o W) as [t [w [-> [O _]]]]. now exists t, w.
  - intros [W _]. destruct (operand_first o W) as [t [w [-> [O _]]]]. cbn. eauto.
Qed.
Lemma squares_last i more : exists w, squares (i :: more) = w ++ [syn "]"].
Proof.
  revert i. induction more as [|j more IH]; intros i.
  - exists (syn "[" :: printc i). cbn. now rewrite app_nil_r.
  - destruct (IH j) as [w E]. change (squares (i :: j :: more)) with ((syn "[" :: printc i ++ [syn "]"]) ++ squares (j :: more)).
    rewrite E, app_assoc. eauto.
Qed.
Lemma chain_last c : wfc c -> exists t w, printc c = w ++ [t] /\ text_is break t = false.
Proof.
  assert (E : forall o, wfo o -> exists t w, printo o = w ++ [t] /\ text_is break t = false).
  { intros [t|c'|f args|a i more].
    - intros [_ S]. exists t, []. split; [easy|]. apply text_solid; [easy|cbn; tauto].
    - intros _. exists (syn ")"), (syn "(" :: printc c'). easy.
    - intros _. rewrite printo_call. exists (syn ")"), (Tok TCall f :: syn "(" :: join args). easy.
    - intros _. rewrite printo_index. destruct (squares_last i more) as [w ->]. exists (syn "]"), (Tok TIdent a :: w). easy. }
  induction c as [o|o k c IH]; cbn [wfc printc].
  - apply E.
  - intros [_ [_ [_ W]]]. destruct (IH W) as [t [w [-> B]]]. exists t, (printo o ++ k :: w). split; [|easy].
    now rewrite <- app_assoc.
Qed.
Lemma chain_breaks c : wfc c -> remove_breaks (printc c) = printc c.
Proof.
  intros W. destruct (chain_first c W) as [t [w [E [B _]]]]. destruct (chain_last c W) as [t' [w' [E' B']]].
  unfold remove_breaks, remove_trailing_breaks. rewrite E' at 1. rewrite rev_app_distr. cbn [rev app]. rewrite B'.
  rewrite E. cbn. now rewrite B.
Qed.
Lemma chain_nonempty c : wfc c -> printc c <> [].
Proof. intros W. destruct (chain_first c W) as [t [w [-> _]]]. discriminate. Qed.

(** * Brackets around the whole *)
Fixpoint unparen (c : chain) : chain := match c with Last (Paren c') => unparen c' | _ => c end.
Definition bare (c : chain) : Prop := match c with Last (Paren _) => False | _ => True end.
Lemma unparen_bare c : bare (unparen c).
Proof.
  remember (List.length (printc c)) as k eqn:E. revert c E.
  induction k as [k IH] using (well_founded_induction lt_wf). intros c ->.
  destruct c as [[t|c|f a|a i m]|o op c]; cbn; auto. apply (IH (List.length (printc c))); [cbn; rewrite app_length; cbn; lia|easy].
Qed.
Lemma unparen_wf c : wfc c -> wfc (unparen c) /\ meanc (unparen c) = meanc c /\ List.length (printc (unparen c)) <= List.length (printc c).
Proof.
  remember (List.length (printc c)) as k eqn:E. revert c E.
  induction k as [k IH] using (well_founded_induction lt_wf). intros c ->.
  destruct c as [[t|c|f a|a i m]|o op c]; intros W; try (split; [exact W|split; [reflexivity|apply le_n]]).
  cbn [unparen]. assert (L : List.length (printc c) < List.length (printc (Last (Paren c)))) by (cbn; rewrite app_length; cbn; lia).
  destruct (IH _ L c eq_refl W) as [A [B C]]. split; [easy|]. split; [easy|]. lia.
Qed.

Lemma closing_none op cl w : passes op cl w -> closing_loop op cl 1 w = None.
Proof. intros P. specialize (P 1%Z [] ltac:(lia)). rewrite app_nil_r in P. now rewrite P. Qed.
Lemma pair_round : bracket_pair "(" ")". Proof. now left. Qed.
Lemma pair_square : bracket_pair "[" "]". Proof. now right; left. Qed.
Lemma pair_swing : bracket_pair "{" "}". Proof. now right; right. Qed.
#[local] Hint Resolve pair_round pair_square pair_swing : core.

(** The group that an opening bracket begins. *)
Lemma split_group op cl a b w s : text_is op a = true -> text_is cl a = false -> text_is op b = false -> text_is cl b = true ->
  passes op cl w -> split_at_closing op cl (a :: w ++ b :: s) = Some (Some (w, s)).
Proof.
  intros A A' B B' P. unfold split_at_closing. rewrite A. cbn [closing_loop]. rewrite A, A'. rewrite P by lia.
  cbn [closing_loop]. rewrite B, B'. cbn. now rewrite app_nil_r.
Qed.
(** The same with the opening bracket already gone. *)
Lemma split_group_rest op cl b w s : match w with t :: _ => text_is op t = false | [] => text_is op b = false end ->
  text_is op b = false -> text_is cl b = true ->
  passes op cl w -> split_at_closing op cl (w ++ b :: s) = Some (Some (w, s)).
Proof.
  intros F B B' P. unfold split_at_closing. 
  replace (match w ++ b :: s with [] => None | t :: _ => if text_is op t then Some match closing_loop op cl 0 (w ++ b :: s) with Some (l, r) => Some (tl l, r) | None => None end
     else Some (closing_loop op cl 1 (w ++ b :: s)) end) with (Some (closing_loop op cl 1 (w ++ b :: s))).
  - rewrite P by lia. cbn [closing_loop]. rewrite B, B'. cbn. now rewrite app_nil_r.
  - destruct w as [|t w]; cbn [app]; now rewrite F.
Qed.

Lemma surrounded_paren c : wfc c -> is_surrounded (printc (Last (Paren c))) = true.
Proof.
  intros W. cbn [printc printo]. unfold is_surrounded, split_at_closing_brackets.
  rewrite split_group; try reflexivity. now apply passes_chain.
Qed.
Lemma surrounded_bare c : wfc c -> bare c -> is_surrounded (printc c) = false.
Proof.
  intros W B. destruct c as [o|o k c]; cbn [printc wfc] in *.
  - destruct (operand_first o W) as [t [w [E [_ F]]]].
    assert (P := passes_operand "(" ")" o pair_round W). unfold is_surrounded, split_at_closing_brackets, split_at_closing.
    rewrite E in *. destruct (text_is "(" t) eqn:T.
    + destruct (F eq_refl) as [c ->]. destruct B.
    + now rewrite (closing_none _ _ _ P).
  - destruct W as [Wo [_ [S Wc]]]. destruct (operand_first o Wo) as [t [w [E [_ F]]]].
    destruct (text_is "(" t) eqn:T.
    + destruct (F eq_refl) as [c' ->]. cbn [printo]. unfold is_surrounded, split_at_closing_brackets. cbn [app].
      rewrite <- app_assoc. cbn [app]. rewrite split_group; try reflexivity. now apply passes_chain.
    + assert (P : passes "(" ")" (printo o ++ k :: printc c)).
      { apply passes_app; [now apply passes_operand|]. change (k :: printc c) with ([k] ++ printc c).
        apply passes_app; [now apply passes_solid|now apply passes_chain]. }
      unfold is_surrounded, split_at_closing_brackets, split_at_closing. rewrite E in *. cbn [app] in *. rewrite T.
      now rewrite (closing_none _ _ _ P).
Qed.
Lemma strip_loop_chain n c : wfc c -> List.length (printc c) < n -> strip_loop n (printc c) = Some (printc (unparen c)).
Proof.
  revert c. induction n as [|n IH]; intros c W L; [lia|]. cbn [strip_loop].
  destruct c as [[t|c|f a|a i m]|o op c]; try (now rewrite surrounded_bare).
  rewrite surrounded_paren by exact W. cbn [unparen]. rewrite <- IH; [|exact W|cbn in L; rewrite app_length in L; cbn in L; lia].
  cbn [printc printo tl]. rewrite removelast_last.
  destruct (printc c ++ [syn ")"]) eqn:E; [|easy]. destruct (app_cons_not_nil _ _ _ (eq_sym E)).
Qed.
Lemma strip_chain c : wfc c -> strip_of_brackets (printc c) = Some (printc (unparen c)).
Proof. intros W. apply strip_loop_chain; [easy|lia]. Qed.

(** * The expression parser *)
Definition parses (n : nat) (c : chain) : Prop := exists t, parse_expr n (printc c) = Some t /\ reads t (meanc c).

Lemma arguments_ok n args fuel : Forall wfc args -> args <> [] -> List.length (join args) < fuel ->
  Forall (parses n) args ->
  exists cs, arguments_loop (parse_expr n) fuel (join args) = Some cs /\ Forall2 reads cs (map meanc args).
Proof.
  revert fuel. induction args as [|c l IH]; intros fuel W N L P; [easy|]. destruct fuel as [|fuel]; [lia|].
  inversion W as [|? ? Wc Wl]. inversion P as [|? ? [t [Et Rt]] Pl]. subst. cbn [arguments_loop].
  destruct l as [|c' l].
  - cbn [join]. assert (E := covers_chain c Wc 0%Z [] ltac:(lia)). rewrite app_nil_r in E. rewrite E. unfold prepend2. cbn [split_top_string fst snd].
    rewrite app_nil_r, chain_breaks, Et by exact Wc. exists [t]. split; [easy|]. now repeat constructor.
  - change (join (c :: c' :: l)) with (printc c ++ syn "," :: join (c' :: l)) in *.
    rewrite (covers_chain c Wc) by lia. unfold prepend2.
    change (split_top_string "," 0 (syn "," :: join (c' :: l))) with (@nil token, join (c' :: l)). cbn [fst snd].
    rewrite app_nil_r, chain_breaks, Et by exact Wc.
    destruct (IH fuel Wl) as [cs [E R]]; [easy|rewrite app_length in L; cbn [List.length] in L; lia|exact Pl|].
    exists (t :: cs). rewrite E. split; [|now constructor].
    destruct (join (c' :: l)) as [|x y] eqn:J; [|easy]. exfalso. inversion Wl as [|? ? Wc' _]. subst.
    destruct (chain_first c' Wc') as [t' [w' [E' _]]]. destruct l; cbn in J; rewrite E' in J; discriminate.
Qed.

Lemma indices_ok n l fuel : Forall wfc l -> l <> [] -> List.length (squares l) <= fuel -> Forall (parses n) l ->
  exists cs, indices_loop (parse_expr n) fuel (squares l) = Some cs /\ Forall2 reads cs (map meanc l).
Proof.
  revert fuel. induction l as [|c l IH]; intros fuel W N L P; [easy|].
  assert (Lc : 1 <= fuel) by (cbn in L; lia). destruct fuel as [|fuel]; [lia|].
  inversion W as [|? ? Wc Wl]. inversion P as [|? ? [t [Et Rt]] Pl]. subst. cbn [indices_loop].
  replace (squares (c :: l)) with (syn "[" :: printc c ++ syn "]" :: squares l) in * by (unfold squares; cbn; now rewrite <- app_assoc).
  unfold split_at_closing_square. rewrite split_group; try reflexivity; [|now apply passes_chain]. rewrite Et.
  destruct l as [|c' l].
  - exists [t]. split; [easy|]. now repeat constructor.
  - destruct (IH fuel Wl) as [cs [E R]]; [easy|cbn [List.length] in L; rewrite app_length in L; cbn [List.length] in L; lia|exact Pl|].
    exists (t :: cs). rewrite E. split; [|now constructor]. reflexivity.
Qed.

Lemma join_parts args c : In c args -> List.length (printc c) <= List.length (join args).
Proof.
  induction args as [|a l IH]; intros H; [easy|]. destruct l as [|b l].
  - destruct H as [->|[]]. easy.
  - change (join (a :: b :: l)) with (printc a ++ syn "," :: join (b :: l)). rewrite app_length. cbn [List.length].
    destruct H as [->|H]; [lia|]. apply IH in H. lia.
Qed.
Lemma squares_parts l c : In c l -> List.length (printc c) + 2 <= List.length (squares l).
Proof.
  unfold squares. induction l as [|a l IH]; intros H; [easy|]. cbn [flat_map]. rewrite app_length. cbn [List.length]. rewrite app_length. cbn [List.length].
  destruct H as [->|H]; [lia|]. apply IH in H. lia.
Qed.

Lemma parse_bare n c : (forall d, wfc d -> List.length (printc d) < n -> parses n d) ->
  wfc c -> bare c -> List.length (printc c) < S n ->
  exists t, match printc c with
      | [] => None
      | [t] =>
          match ttyp t with TNumber | TIdent => Some (Con t []) | _ => None end
      | (t0 :: t1 :: _) as st =>
          match split_top_operator 0 0 st with
          | Some (l, o, r) =>
              match strip_of_brackets l, strip_of_brackets r with
              | Some l, Some r =>
                  match parse_expr n l, parse_expr n r with
                  | Some cl, Some cr =>
                      let wrap ts c := Con (Tok TUnassigned (combine_string ts)) [c] in
                      let one ts := Nat.eqb (List.length ts) 1 in
                      let cl' := if negb (one l) && one r then wrap l cl else cl in
                      let cr' := if one l && negb (one r) then wrap r cr else cr in
                      Some (Con (Tok TUnassigned (combine_string st)) [Con o []; cl'; cr'])
                  | _, _ => None
                  end
              | _, _ => None
              end
          | None =>
              match ttyp t0 with
              | TCall =>
                  match argument_parse (parse_expr n) split_at_closing_brackets (tl st) with
                  | Some (cs, []) => Some (Con t0 cs)
                  | _ => None
                  end
              | _ =>
                  if text_is "[" t1 && text_is "]" (last st t1) then
                    match indices_loop (parse_expr n) (List.length st) (tl (tl st)) with
                    | Some cs => Some (Con (Tok TArrCall (ident t0)) cs)
                    | None => None
                    end
                  else None
              end
          end
      end = Some t /\ reads t (meanc c).
Proof.
  intros IH W B L. destruct hides_chain_operand as [_ HO].
  destruct c as [[t|c|f args|a i more]|o k c]; [| destruct B | | |].
  - destruct W as [T _]. cbn [printc printo]. exists (Con t []). split; [destruct T as [-> | ->]; easy|now constructor].
  - assert (W' := W). cbn [wfc] in W'. rewrite wf_call in W'. destruct W' as [So Wa].
    assert (H := HO (Call f args) W 0%Z 0%Z [] ltac:(lia) ltac:(lia) ltac:(auto)). rewrite app_nil_r in H.
    cbn [printc] in *. rewrite printo_call in *. rewrite H. cbn [split_top_operator prepend3 ttyp tl].
    unfold argument_parse, split_at_closing_brackets. rewrite split_group; try reflexivity.
    2: { assert (P := passes_operand "(" ")" (Call f args) pair_round W).
         clear -So Wa. induction args as [|c l IHl]; [apply passes_nil|]. inversion Wa as [|? ? Wc Wl]. subst.
         destruct l as [|c' l]; [now apply passes_chain|].
         change (join (c :: c' :: l)) with (printc c ++ [syn ","] ++ join (c' :: l)).
         apply passes_app; [now apply passes_chain|]. apply passes_app; [now apply passes_comma|]. now apply IHl. }
    destruct args as [|c l].
    + exists (Con (Tok TCall f) []). split; [easy|]. apply reads_call. constructor.
    + cbn [List.length] in L. rewrite app_length in L. cbn [List.length] in L.
      destruct (arguments_ok n (c :: l) (S (List.length (join (c :: l)))) Wa) as [cs [E R]]; [easy|lia| |].
      { rewrite Forall_forall in *. intros d I. apply IH; [now apply Wa|]. apply join_parts in I. lia. }
      exists (Con (Tok TCall f) cs). rewrite E. split; [|now apply reads_call].
      destruct (join (c :: l)) as [|x y] eqn:J; [|easy]. exfalso. inversion Wa as [|? ? Wc' _]. subst.
      destruct (chain_first c Wc') as [t' [w' [E' _]]]. destruct l; cbn in J; rewrite E' in J; discriminate.
  - assert (W' := W). cbn [wfc] in W'. rewrite wf_index in W'. destruct W' as [So Wa].
    assert (H := HO (Index a i more) W 0%Z 0%Z [] ltac:(lia) ltac:(lia) ltac:(auto)). rewrite app_nil_r in H.
    cbn [printc] in *. rewrite printo_index in *.
    destruct (squares_last i more) as [w Ew].
    assert (F : Forall (parses n) (i :: more)).
    { rewrite Forall_forall in *. intros d I. apply IH; [now apply Wa|]. apply squares_parts in I. cbn [List.length] in L. lia. }
    inversion F as [|? ? [t [Et Rt]] F']. inversion Wa as [|? ? Wi Wm]. subst.
    replace (squares (i :: more)) with (syn "[" :: printc i ++ syn "]" :: squares more) in * by (unfold squares; cbn; now rewrite <- app_assoc).
    rewrite H. cbn [split_top_operator prepend3 ttyp]. clear H.
    assert (La : text_is "]" (last (Tok TIdent a :: syn "[" :: printc i ++ syn "]" :: squares more) (syn "[")) = true).
    { rewrite Ew. change (Tok TIdent a :: w ++ [syn "]"]) with ((Tok TIdent a :: w) ++ [syn "]"]). rewrite last_last. reflexivity. }
    rewrite La. change (text_is "[" (syn "[")) with true. cbn [andb tl List.length].
    remember (S (List.length (printc i ++ syn "]" :: squares more))) as fu eqn:Efu. cbn [indices_loop].
    unfold split_at_closing_square. rewrite split_group_rest; try reflexivity; [| |now apply passes_chain].
    2: { destruct (chain_first i Wi) as [t' [w' [-> [_ [O _]]]]]. easy. }
    rewrite Et. destruct more as [|j more].
    + cbn [squares flat_map]. eexists. split; [reflexivity|]. apply reads_index. now repeat constructor.
    + assert (Lm : List.length (squares (j :: more)) <= fu).
      { rewrite Efu, app_length. cbn [List.length]. lia. }
      destruct (indices_ok n (j :: more) _ Wm ltac:(easy) Lm F') as [cs [E R]].
      rewrite E. cbn [ident]. destruct (squares (j :: more)) eqn:Q; [discriminate|].
      eexists. split; [reflexivity|]. apply reads_index. cbn [map]. now constructor.
  - destruct W as [Wo [Wt [So Wc]]]. cbn [printc] in *.
    rewrite app_length in L. cbn [List.length] in L.
    assert (E : split_top_operator 0 0 (printo o ++ k :: printc c) = Some (printo o, k, printc c)).
    { rewrite HO by (auto; lia). cbn [split_top_operator]. solids So. rewrite (operator_type_ok k Wt). cbn. now rewrite app_nil_r. }
    assert (Wlo : wfc (Last o)) by exact Wo.
    assert (Ul := unparen_wf (Last o) Wlo). assert (Ur := unparen_wf c Wc).
    destruct Ul as [Ul1 [Ul2 Ul3]]. destruct Ur as [Ur1 [Ur2 Ur3]].
    destruct (chain_first c Wc) as [t1 [w1 [E1 _]]]. assert (Lc : 1 <= List.length (printc c)) by (rewrite E1; cbn; lia).
    destruct (operand_first o Wo) as [t0 [w0 [E0 _]]]. assert (Lo : 1 <= List.length (printo o)) by (rewrite E0; cbn; lia).
    cbn [printc] in Ul3.
    destruct (IH (unparen (Last o)) Ul1) as [tl [Pl Rl]]; [lia|].
    destruct (IH (unparen c) Ur1) as [tr [Pr Rr]]; [lia|].
    rewrite Ul2 in Rl. rewrite Ur2 in Rr.
    assert (K : exists x y z, printo o ++ k :: printc c = x :: y :: z).
    { rewrite E0. cbn. destruct w0 as [|x w0]; cbn; eauto. }
    destruct K as [x [y [z K]]]. rewrite K in E |- *. rewrite E.
    change (printo o) with (printc (Last o)). rewrite !strip_chain by assumption. rewrite Pl, Pr. cbv zeta.
    eexists. split; [reflexivity|]. cbn [meanc]. apply reads_bin.
    + destruct (negb _ && _); [apply reads_wrap|]; exact Rl.
    + destruct (_ && negb _); [apply reads_wrap|]; exact Rr.
Qed.

Theorem parse_expr_ok n c : wfc c -> List.length (printc c) < n -> parses n c.
Proof.
  revert c. induction n as [|n IH]; intros c W L; [lia|].
  unfold parses. cbn [parse_expr]. rewrite strip_chain by exact W.
  destruct (unparen_wf c W) as [W' [M L']]. rewrite <- M.
  assert (K : forall d, wfc d -> List.length (printc d) < n -> parses n d) by (intros d Wd Ld; now apply IH).
  assert (B := parse_bare n (unparen c) K W' (unparen_bare c) ltac:(lia)).
  destruct (printc (unparen c)) as [|x [|y z]]; exact B.
Qed.
Theorem parse_expression_ok c : wfc c -> exists t, parse_expression (printc c) = Some t /\ reads t (meanc c).
Proof. intros W. apply (parse_expr_ok (S (List.length (printc c))) c W). lia. Qed.

(** C41-C42: expressions and the splitting of token lists. *)
Require Import ZArith Bool Ascii String List Lia.
Require Import Verif.FactorModel Verif.SparseModel Verif.LexerModel Verif.LexerSpec Verif.LexerProofs
  Verif.ParserModel Verif.ParserSpec Verif.ParserProofs.
Import ListNotations.
Local Open Scope Z_scope.
Local Open Scope string_scope.
Local Open Scope list_scope.

(** * C41: the trees of expressions *)
Theorem C41_expressions : forall c, wfc c -> exists t, parse_expression (printc c) = Some t /\ reads t (meanc c).
Proof. exact parse_expression_ok. Qed.
Print Assumptions C41_expressions.

(** A tree can be read in one way only. *)
Theorem C41_unique : forall t a b, reads t a -> reads t b -> a = b.
Proof.
  fix IH 1. intros t a b A B.
  assert (F : forall cs l l', (forall c, In c cs -> forall a b, reads c a -> reads c b -> a = b) -> Forall2 reads cs l -> Forall2 reads cs l' -> l = l').
  { clear. intros cs l l' H G. revert l' H. induction G as [|c x cs l R G IHG]; intros l' H K; inversion K; subst; [easy|].
    f_equal; [apply (H c); auto; now left|]. apply IHG; [|easy]. intros d I. apply H. now right. }
  destruct t as [o cs].
  assert (H : forall c, In c cs -> forall a b, reads c a -> reads c b -> a = b).
  { clear -IH. induction cs as [|d cs IHc]; intros c I; [destruct I|]. destruct I as [<-|I]; [apply IH|now apply IHc]. }
  clear IH.
  inversion A as [t T|s c x R|s o' l r x y Rl Rr|f cs' args G|f cs' ixs G]; subst; inversion B; subst; cbn in *; try (intuition discriminate); try easy.
  - apply (H c); auto.
  - f_equal; [apply (H l)|apply (H r)]; auto.
  - f_equal. eapply F; eauto.
  - f_equal. eapply F; eauto.
Qed.
Print Assumptions C41_unique.
Definition name (s : string) : token := Tok TIdent s.
Definition op (s : string) : token := Tok TArith s.
Fixpoint flat (t : operand) (rest : list (token * operand)) : chain :=
  match rest with
  | [] => Last t
  | (o, t') :: rest' => Link t o (flat t' rest')
  end.
(** t0 o1 (t1 o2 (t2 ...)) *)
Fixpoint to_the_right (t : operand) (rest : list (token * operand)) : ast :=
  match rest with
  | [] => meano t
  | (o, t') :: rest' => ABin o (meano t) (to_the_right t' rest')
  end.
Theorem C41_right_associative : forall t rest, wfo t ->
  Forall (fun p => operator_type (ttyp (fst p)) /\ solid (ident (fst p)) /\ wfo (snd p)) rest ->
  exists c, parse_expression (printo t ++ flat_map (fun p => fst p :: printo (snd p)) rest) = Some c /\ reads c (to_the_right t rest).
Proof.
  intros t rest W F.
  assert (E : forall t, printc (flat t rest) = printo t ++ flat_map (fun p => fst p :: printo (snd p)) rest /\
                        meanc (flat t rest) = to_the_right t rest /\ (wfo t -> wfc (flat t rest))).
  { clear t W. induction F as [|[o t'] rest [O [S W']] F IH]; intros t; cbn [flat printc flat_map fst snd meanc to_the_right].
    - rewrite app_nil_r. auto.
    - destruct (IH t') as [A [B C]]. rewrite A, B. split; [easy|]. split; [easy|]. intros W. cbn [wfc]. auto. }
  destruct (E t) as [<- [<- Wc]]. apply C41_expressions. now apply Wc.
Qed.
Print Assumptions C41_right_associative.

(** a*b+c is read as a*(b+c), and a-b-c as a-(b-c): the usual precedence is refuted. *)
Theorem C41_precedence_refuted : exists t u,
  parse_expression [name "a"; op "*"; name "b"; op "+"; name "c"] = Some t /\
  reads t (ABin (op "*") (ALeaf (name "a")) (ABin (op "+") (ALeaf (name "b")) (ALeaf (name "c")))) /\
  parse_expression [name "a"; op "-"; name "b"; op "-"; name "c"] = Some u /\
  reads u (ABin (op "-") (ALeaf (name "a")) (ABin (op "-") (ALeaf (name "b")) (ALeaf (name "c")))).
Proof.
  assert (S : forall s, solid s \/ In s ["("; ")"; "["; "]"; "{"; "}"; ","; String (ascii_of_nat 10) ""]).
  { intros s. destruct (in_dec string_dec s ["("; ")"; "["; "]"; "{"; "}"; ","; String (ascii_of_nat 10) ""]); auto. }
  assert (Sol : forall s, existsb (String.eqb s) ["("; ")"; "["; "]"; "{"; "}"; ","; String (ascii_of_nat 10) ""] = false -> solid s).
  { intros s E. destruct (S s) as [H|H]; [easy|]. assert (existsb (String.eqb s) ["("; ")"; "["; "]"; "{"; "}"; ","; String (ascii_of_nat 10) ""] = true); [|congruence].
    apply existsb_exists. exists s. split; [easy|apply String.eqb_refl]. }
  destruct (C41_right_associative (Leaf (name "a")) [(op "*", Leaf (name "b")); (op "+", Leaf (name "c"))]) as [t [E R]].
  { split; [now right|now apply Sol]. }
  { repeat constructor; cbn; try tauto; now apply Sol. }
  destruct (C41_right_associative (Leaf (name "a")) [(op "-", Leaf (name "b")); (op "-", Leaf (name "c"))]) as [u [E' R']].
  { split; [now right|now apply Sol]. }
  { repeat constructor; cbn; try tauto; now apply Sol. }
  exists t, u. auto.
Qed.
Print Assumptions C41_precedence_refuted.

Lemma solid_dec s : existsb (String.eqb s) ["("; ")"; "["; "]"; "{"; "}"; ","; String (ascii_of_nat 10) ""] = false -> solid s.
Proof.
  intros E H. assert (existsb (String.eqb s) ["("; ")"; "["; "]"; "{"; "}"; ","; String (ascii_of_nat 10) ""] = true); [|congruence].
  apply existsb_exists. exists s. split; [easy|apply String.eqb_refl].
Qed.
(** (x + f(a[1][y], 2)) * ((z)) *)
Definition sample_expr : chain :=
  Link (Paren (Link (Leaf (name "x")) (op "+")
         (Last (Call "f" [Last (Index "a" (Last (Leaf (Tok TNumber "1"))) [Last (Leaf (name "y"))]); Last (Leaf (Tok TNumber "2"))]))))
       (op "*") (Last (Paren (Last (Paren (Last (Leaf (name "z"))))))).
Example C41_case : wfc sample_expr /\
  lex 200 "(x + f(a[1][y], 2)) * ((z))" = Ret (printc sample_expr) /\
  exists t, parse_expression (printc sample_expr) = Some t /\
    reads t (ABin (op "*")
               (ABin (op "+") (ALeaf (name "x"))
                  (ACall "f" [AIndex "a" [ALeaf (Tok TNumber "1"); ALeaf (name "y")]; ALeaf (Tok TNumber "2")]))
               (ALeaf (name "z"))).
Proof.
  assert (W : wfc sample_expr).
  { cbn. repeat (first [split | left; reflexivity | right; reflexivity | apply solid_dec; reflexivity | tauto]). }
  split; [exact W|]. split; [vm_compute; reflexivity|]. exact (C41_expressions sample_expr W).
Qed.

(** * C42: splitting *)
Lemma count_app s a b : count s (a ++ b) = (count s a + count s b)%nat.
Proof. unfold count. now rewrite filter_app, app_length. Qed.
Lemma count_one s t : Z.of_nat (count s [t]) = if text_is s t then 1 else 0.
Proof. unfold count. cbn. unfold has_text, text_is. now destruct (String.eqb (ident t) s). Qed.
Lemma level_app op cl a b : level op cl (a ++ b) = level op cl a + level op cl b.
Proof. unfold level. rewrite !count_app. lia. Qed.
Lemma level_cons op cl t b : level op cl (t :: b) = (if text_is op t then 1 else 0) - (if text_is cl t then 1 else 0) + level op cl b.
Proof.
  change (t :: b) with ([t] ++ b). rewrite level_app. unfold level at 1. now rewrite !count_one.
Qed.
Lemma level_nil op cl : level op cl [] = 0.
Proof. reflexivity. Qed.

(** At the first token with a given text. *)
Theorem C42_first : forall s ts l r, split_at_string s ts = (l, r) <->
  ts = l ++ r /\ Forall (fun t => ident t <> s) l /\ match r with [] => True | t :: _ => ident t = s end.
Proof.
  intros s ts. induction ts as [|t ts IH]; intros l r.
  - cbn. split.
    + intros H. injection H as <- <-. now repeat split.
    + intros [E _]. symmetry in E. apply app_eq_nil in E. destruct E as [-> ->]. easy.
  - cbn [split_at_string]. unfold text_is. destruct (String.eqb_spec (ident t) s) as [E|N].
    + split.
      * intros H. injection H as <- <-. now repeat split.
      * intros [A [F R]]. destruct l as [|x l]; cbn in A; [now rewrite A|]. injection A as -> ->. inversion F. congruence.
    + destruct (split_at_string s ts) as [l' r'] eqn:Q. split.
      * intros H. injection H as <- <-. destruct (proj1 (IH l' r') eq_refl) as [-> [F R]]. repeat split; auto.
      * intros [A [F R]]. destruct l as [|x l]; cbn in A.
        { subst r. congruence. }
        injection A as -> ->. inversion F. subst.
        assert (K : (l', r') = (l, r)) by (apply IH; auto). congruence.
Qed.
Print Assumptions C42_first.

(** At the first comma outside brackets.  A comma at the very end is dropped. *)
Lemma top_string_spec ts : forall d l r, split_top_string "," d ts = (l, r) ->
  (exists t, ts = l ++ t :: r /\ ident t = "," /\ d + depth l = 0) \/ (ts = l /\ r = []).
Proof.
  induction ts as [|t ts IH]; intros d l r H; cbn [split_top_string] in H.
  - injection H as <- <-. now right.
  - set (d' := if text_is ")" t || text_is "]" t then _ else _) in H.
    assert (D : d' = d + depth [t]).
    { unfold depth. rewrite !level_cons, !level_nil. subst d'. unfold text_is.
      destruct (String.eqb_spec (ident t) "("), (String.eqb_spec (ident t) "["), (String.eqb_spec (ident t) ")"), (String.eqb_spec (ident t) "]");
        try congruence; cbn; lia. }
    destruct (text_is "," t && (d' =? 0)%Z) eqn:C.
    + injection H as <- <-. left. exists t. apply andb_prop in C. destruct C as [C0 C]. apply Z.eqb_eq in C.
      unfold text_is in C0. apply String.eqb_eq in C0. split; [easy|]. split; [easy|].
      assert (depth [t] = 0). { unfold depth. rewrite !level_cons, !level_nil. unfold text_is. rewrite C0. reflexivity. }
      unfold depth. rewrite !level_nil. lia.
    + destruct (split_top_string "," d' ts) as [l' r'] eqn:Q. injection H as <- <-. apply IH in Q.
      destruct Q as [[x [-> [X L]]]|[-> ->]].
      * left. exists x. split; [easy|]. split; [easy|].
        change (t :: l') with ([t] ++ l'). unfold depth in *. rewrite !level_app. lia.
      * now right.
Qed.
Lemma top_string_first ts : forall d l r, split_top_string "," d ts = (l, r) ->
  forall p t s, l = p ++ t :: s -> ident t = "," -> d + depth p <> 0.
Proof.
  induction ts as [|t ts IH]; intros d l r H; cbn [split_top_string] in H.
  - injection H as <- <-. intros p t s E. destruct p; discriminate.
  - set (d' := if text_is ")" t || text_is "]" t then _ else _) in H.
    assert (D : d' = d + depth [t]).
    { unfold depth. rewrite !level_cons, !level_nil. subst d'. unfold text_is.
      destruct (String.eqb_spec (ident t) "("), (String.eqb_spec (ident t) "["), (String.eqb_spec (ident t) ")"), (String.eqb_spec (ident t) "]");
        try congruence; cbn; lia. }
    destruct (text_is "," t && (d' =? 0)%Z) eqn:C.
    + injection H as <- <-. intros p x s E. destruct p; discriminate.
    + destruct (split_top_string "," d' ts) as [l' r'] eqn:Q. injection H as <- <-. intros p x s E I.
      destruct p as [|y p]; cbn in E; injection E as <- E.
      * unfold text_is in C. rewrite I in C. cbn in C. apply Z.eqb_neq in C.
        assert (depth [t] = 0). { unfold depth. rewrite !level_cons, !level_nil. unfold text_is. rewrite I. reflexivity. }
        unfold depth. rewrite !level_nil. lia.
      * assert (K := IH _ _ _ Q p x s E I). change (t :: p) with ([t] ++ p). unfold depth in *. rewrite !level_app. lia.
Qed.
Theorem C42_separator : forall ts l r, split_top_string "," 0 ts = (l, r) ->
  ((exists t, ts = l ++ t :: r /\ ident t = "," /\ depth l = 0) \/ (ts = l /\ r = [])) /\
  forall p t s, l = p ++ t :: s -> ident t = "," -> depth p <> 0.
Proof.
  intros ts l r H. split.
  - exact (top_string_spec ts 0 l r H).
  - intros p t s E I. exact (top_string_first ts 0 l r H p t s E I).
Qed.
Print Assumptions C42_separator.

(** At the first operator outside brackets. *)
Lemma top_operator_spec ts : forall a b l o r, split_top_operator a b ts = Some (l, o, r) ->
  ts = l ++ o :: r /\ is_operator o = true /\ a + level "(" ")" (l ++ [o]) = 0 /\ b + level "[" "]" (l ++ [o]) = 0 /\
  forall p t s, l = p ++ t :: s -> is_operator t = true -> a + level "(" ")" (p ++ [t]) <> 0 \/ b + level "[" "]" (p ++ [t]) <> 0.
Proof.
  induction ts as [|t ts IH]; intros a b l o r H; cbn [split_top_operator] in H; [discriminate|].
  set (a' := if text_is ")" t then _ else _) in H. set (b' := if text_is "]" t then _ else _) in H.
  assert (A : a' = a + level "(" ")" [t]) by (rewrite level_cons, level_nil; subst a'; destruct (text_is "(" t), (text_is ")" t); lia).
  assert (B : b' = b + level "[" "]" [t]) by (rewrite level_cons, level_nil; subst b'; destruct (text_is "[" t), (text_is "]" t); lia).
  destruct (is_operator t && (a' =? 0)%Z && (b' =? 0)%Z) eqn:C.
  - injection H as <- <- <-. apply andb_prop in C. destruct C as [C Cb]. apply andb_prop in C. destruct C as [C Ca].
    apply Z.eqb_eq in Ca, Cb. cbn [app]. repeat split; try easy; try lia. intros p x s E. destruct p; discriminate.
  - destruct (split_top_operator a' b' ts) as [[[l' o'] r']|] eqn:Q; [|discriminate]. injection H as <- <- <-.
    destruct (IH _ _ _ _ _ Q) as [-> [O [La [Lb F]]]]. cbn [app]. split; [easy|]. split; [easy|].
    change (t :: l' ++ [o']) with ([t] ++ (l' ++ [o'])). rewrite !(level_app _ _ [t]). split; [lia|]. split; [lia|].
    intros p x s E I. destruct p as [|y p]; cbn in E; injection E as <- E.
    + cbn [app]. rewrite I in C. cbn in C. apply andb_false_iff in C. rewrite !Z.eqb_neq in C. lia.
    + destruct (F p x s E I) as [K|K]; cbn [app]; change (t :: p ++ [x]) with ([t] ++ (p ++ [x])); rewrite !(level_app _ _ [t]); lia.
Qed.
Lemma top_operator_none ts : forall a b, split_top_operator a b ts = None ->
  forall p t s, ts = p ++ t :: s -> is_operator t = true -> a + level "(" ")" (p ++ [t]) <> 0 \/ b + level "[" "]" (p ++ [t]) <> 0.
Proof.
  induction ts as [|t ts IH]; intros a b H p x s E I; [destruct p; discriminate|]. cbn [split_top_operator] in H.
  set (a' := if text_is ")" t then _ else _) in H. set (b' := if text_is "]" t then _ else _) in H.
  assert (A : a' = a + level "(" ")" [t]) by (rewrite level_cons, level_nil; subst a'; destruct (text_is "(" t), (text_is ")" t); lia).
  assert (B : b' = b + level "[" "]" [t]) by (rewrite level_cons, level_nil; subst b'; destruct (text_is "[" t), (text_is "]" t); lia).
  destruct (is_operator t && (a' =? 0)%Z && (b' =? 0)%Z) eqn:C; [discriminate|].
  destruct (split_top_operator a' b' ts) as [[[l' o'] r']|] eqn:Q; [discriminate|].
  destruct p as [|y p]; cbn in E; injection E as <- E.
  - cbn [app]. rewrite I in C. cbn in C. apply andb_false_iff in C. rewrite !Z.eqb_neq in C. lia.
  - destruct (IH _ _ Q p x s E I) as [K|K]; cbn [app]; change (t :: p ++ [x]) with ([t] ++ (p ++ [x])); rewrite !(level_app _ _ [t]); lia.
Qed.
Theorem C42_operator : forall ts, match split_top_operator 0 0 ts with
  | Some (l, o, r) => ts = l ++ o :: r /\ is_operator o = true /\ level "(" ")" (l ++ [o]) = 0 /\ level "[" "]" (l ++ [o]) = 0 /\
      forall p t s, l = p ++ t :: s -> is_operator t = true -> level "(" ")" (p ++ [t]) <> 0 \/ level "[" "]" (p ++ [t]) <> 0
  | None => forall p t s, ts = p ++ t :: s -> is_operator t = true -> level "(" ")" (p ++ [t]) <> 0 \/ level "[" "]" (p ++ [t]) <> 0
  end.
Proof.
  intros ts. destruct (split_top_operator 0 0 ts) as [[[l o] r]|] eqn:Q.
  - exact (top_operator_spec ts 0 0 l o r Q).
  - exact (top_operator_none ts 0 0 Q).
Qed.
Print Assumptions C42_operator.

(** At the bracket that closes the first one, or a bracket opened before. *)
Lemma closing_spec op cl (N : op <> cl) ts : forall c l r, 1 <= c -> (closing_loop op cl c ts = Some (l, r) <->
  exists b, ts = l ++ b :: r /\ ident b = cl /\ c + level op cl l = 1 /\ forall p s, l = p ++ s -> 1 <= c + level op cl p).
Proof.
  induction ts as [|t ts IH]; intros c l r C; cbn [closing_loop].
  - split; [discriminate|]. intros [b [E _]]. destruct l; discriminate.
  - assert (Tb : forall s, text_is s t = true <-> ident t = s) by (intros s; apply String.eqb_eq).
    set (c' := if text_is op t then c + 1 else c).
    destruct (text_is cl t) eqn:Cl.
    + assert (Op : text_is op t = false).
      { destruct (text_is op t) eqn:O; [|easy]. apply Tb in O. apply Tb in Cl. congruence. }
      replace c' with c by (unfold c'; now rewrite Op).
      destruct (Z.eqb_spec (c - 1) 0) as [Z0|Z0].
      * split.
        -- intros H. injection H as <- <-. exists t. split; [easy|]. split; [now apply Tb|]. rewrite level_nil. split; [lia|].
           intros p s E. symmetry in E. apply app_eq_nil in E. destruct E as [-> ->]. rewrite level_nil. lia.
        -- intros [b [E [B [L F]]]]. destruct l as [|x l]; cbn in E; injection E as <- E; [now rewrite E|].
           assert (K := F [t] l eq_refl). rewrite level_cons, level_nil, Op, Cl in K. lia.
      * destruct (closing_loop op cl (c - 1) ts) as [[l' r']|] eqn:Q.
        -- split.
           ++ intros H. injection H as <- <-. apply IH in Q; [|lia]. destruct Q as [b [-> [B [L F]]]]. exists b.
              split; [easy|]. split; [easy|]. rewrite level_cons, Op, Cl. split; [lia|].
              intros p s E. destruct p as [|y p]; [rewrite level_nil; lia|]. cbn in E. injection E as <- E.
              rewrite level_cons, Op, Cl. specialize (F p s E). lia.
           ++ intros [b [E [B [L F]]]]. destruct l as [|x l]; cbn in E; injection E as <- E.
              { rewrite level_nil in L. lia. }
              assert (K : Some (l', r') = Some (l, r)); [|injection K as -> ->; easy].
              rewrite <- Q. apply IH; [lia|]. exists b. rewrite level_cons, Op, Cl in L. repeat split; auto; try lia.
              intros p s E'. specialize (F (t :: p) s ltac:(cbn; now rewrite E')). rewrite level_cons, Op, Cl in F. lia.
        -- split; [discriminate|]. intros [b [E [B [L F]]]]. destruct l as [|x l]; cbn in E; injection E as <- E.
           { rewrite level_nil in L. lia. }
           assert (K : None = Some (l, r)); [|discriminate]. rewrite <- Q. apply IH; [lia|]. exists b.
           rewrite level_cons, Op, Cl in L. repeat split; auto; try lia.
           intros p s E'. specialize (F (t :: p) s ltac:(cbn; now rewrite E')). rewrite level_cons, Op, Cl in F. lia.
    + assert (C' : 1 <= c') by (unfold c'; destruct (text_is op t); lia).
      assert (Lc : forall p, c + level op cl (t :: p) = c' + level op cl p).
      { intros p. rewrite level_cons, Cl. unfold c'. destruct (text_is op t); lia. }
      destruct (closing_loop op cl c' ts) as [[l' r']|] eqn:Q.
      * split.
        -- intros H. injection H as <- <-. apply IH in Q; [|lia]. destruct Q as [b [-> [B [L F]]]]. exists b.
           split; [easy|]. split; [easy|]. rewrite Lc. split; [lia|].
           intros p s E. destruct p as [|y p]; [rewrite level_nil; lia|]. cbn in E. injection E as <- E.
           rewrite Lc. exact (F p s E).
        -- intros [b [E [B [L F]]]]. destruct l as [|x l]; cbn in E; injection E as <- E.
           { apply Tb in B. congruence. }
           assert (K : Some (l', r') = Some (l, r)); [|injection K as -> ->; easy].
           rewrite <- Q. apply IH; [lia|]. exists b. rewrite Lc in L. repeat split; auto; try lia.
           intros p s E'. specialize (F (t :: p) s ltac:(cbn; now rewrite E')). now rewrite Lc in F.
      * split; [discriminate|]. intros [b [E [B [L F]]]]. destruct l as [|x l]; cbn in E; injection E as <- E.
        { apply Tb in B. congruence. }
        assert (K : None = Some (l, r)); [|discriminate]. rewrite <- Q. apply IH; [lia|]. exists b.
        rewrite Lc in L. repeat split; auto; try lia.
        intros p s E'. specialize (F (t :: p) s ltac:(cbn; now rewrite E')). now rewrite Lc in F.
Qed.
Lemma some_inj {A} (x y : A) : Some x = Some y -> x = y.
Proof. congruence. Qed.
Theorem C42_closing : forall op cl ts l r, op <> cl -> match ts with t :: _ => ident t <> op | [] => True end ->
  (split_at_closing op cl ts = Some (Some (l, r)) <->
   exists b, ts = l ++ b :: r /\ ident b = cl /\ closed op cl l).
Proof.
  intros op cl ts l r N F. destruct ts as [|t ts].
  - cbn. split; [discriminate|]. intros [b [E _]]. destruct l; discriminate.
  - unfold split_at_closing. replace (text_is op t) with false by (symmetry; now apply String.eqb_neq).
    split.
    + intros H. apply some_inj in H. apply (closing_spec op cl N) in H; [|lia]. destruct H as [b [E [B [L P]]]].
      exists b. split; [easy|]. split; [easy|]. split; [lia|]. intros p s Q. specialize (P p s Q). lia.
    + intros [b [E [B [L P]]]]. f_equal. apply (closing_spec op cl N); [lia|]. exists b. repeat split; auto; try lia.
      intros p s Q. specialize (P p s Q). lia.
Qed.
Print Assumptions C42_closing.
Theorem C42_closing_opened : forall op cl a ts l r, op <> cl -> ident a = op ->
  (split_at_closing op cl (a :: ts) = Some (Some (l, r)) <->
   exists b, ts = l ++ b :: r /\ ident b = cl /\ closed op cl l).
Proof.
  intros op cl a ts l r N A. unfold split_at_closing.
  assert (T : text_is op a = true) by now apply String.eqb_eq.
  assert (T' : text_is cl a = false) by (apply String.eqb_neq; congruence).
  rewrite T. cbn [closing_loop]. rewrite T, T'. change (0 + 1) with 1.
  assert (S := closing_spec op cl N ts 1 l r ltac:(lia)).
  transitivity (closing_loop op cl 1 ts = Some (l, r)).
  - destruct (closing_loop op cl 1 ts) as [[l' r']|]; cbn [tl]; [|split; discriminate].
    split; intros H; injection H as -> ->; easy.
  - rewrite S. split; intros [b [E [B [L P]]]]; exists b; (split; [easy|]); (split; [easy|]).
    + split; [lia|]. intros p s Q. specialize (P p s Q). lia.
    + split; [lia|]. intros p s Q. specialize (P p s Q). lia.
Qed.
Print Assumptions C42_closing_opened.

(** Brackets that do not match are not always noticed: "a b)" is read as "b". *)
Theorem C42_unmatched_refuted : exists ts t, level "(" ")" ts <> 0 /\ lex 20 "a b)" = Ret ts /\ parse_expression ts = Some t /\ reads t (ALeaf (name "b")).
Proof.
  exists [name "a"; name "b"; syn ")"], (Con (name "b") []). split; [discriminate|]. split; [reflexivity|]. split; [reflexivity|].
  constructor. now right.
Qed.
Print Assumptions C42_unmatched_refuted.
(** Of single tokens only a closing bracket counts as surrounded by brackets; removing them panics. *)
Theorem C42_lone : forall t, strip_of_brackets [t] = None <-> ident t = ")".
Proof.
  intros t. unfold strip_of_brackets. cbn [List.length strip_loop]. unfold is_surrounded, split_at_closing_brackets, split_at_closing. cbn [closing_loop]. unfold text_is.
  destruct (String.eqb_spec (ident t) "(") as [E|E].
  - rewrite E. cbn. split; discriminate.
  - destruct (String.eqb_spec (ident t) ")") as [E'|E']; cbn; split; intros H; try reflexivity; try exact E'; try discriminate H. contradiction.
Qed.
Print Assumptions C42_lone.
Example C42_case :
  split_top_string "," 0 [name "f"; syn "("; name "x"; syn ","; name "y"; syn ")"; syn ","; name "z"] =
    ([name "f"; syn "("; name "x"; syn ","; name "y"; syn ")"], [name "z"]) /\
  split_at_closing "(" ")" [syn "("; name "x"; syn "("; syn ")"; syn ")"; name "y"] =
    Some (Some ([name "x"; syn "("; syn ")"], [name "y"])) /\
  split_top_operator 0 0 [syn "("; name "x"; op "+"; name "y"; syn ")"; op "*"; name "z"; op "-"; name "u"] =
    Some ([syn "("; name "x"; op "+"; name "y"; syn ")"], op "*", [name "z"; op "-"; name "u"]) /\
  split_at_string "=" [name "x"; Tok TAssign "="; name "y"] = ([name "x"], [Tok TAssign "="; name "y"]) /\
  ident (name "x") <> "(" /\ ident (syn "(") = "(".
Proof. repeat split; try reflexivity. discriminate. Qed.

Require Import Bool Ascii String List Lia Arith.
Require Import Verif.FactorModel Verif.SparseModel Verif.LexerModel Verif.LexerSpec.
Import ListNotations.
Local Open Scope string_scope.
Local Open Scope list_scope.

(** * Character classes *)
Definition mem (l : text) (c : ascii) : bool := existsb (Ascii.eqb c) l.
Lemma mem_in l c : mem l c = true <-> In c l.
Proof.
  unfold mem. rewrite existsb_exists. split.
  - intros [x [H E]]. apply Ascii.eqb_eq in E. now subst.
  - intros H. exists c. split; [easy|apply Ascii.eqb_refl].
Qed.
Lemma mem_false l c : mem l c = false <-> ~ In c l.
Proof. rewrite <- mem_in. destruct (mem l c); split; congruence. Qed.

Definition word_list : text := chars "0123456789_abcdefghijklmnopqrstuvwxyzABCDEFGHIJKLMNOPQRSTUVWXYZ".
Lemma is_digit_mem c : is_digit c = mem (chars "0123456789") c.
Proof. destruct c as [[] [] [] [] [] [] [] []]; reflexivity. Qed.
Lemma is_digit_ok c : is_digit c = true <-> digit c.
Proof. rewrite is_digit_mem. apply mem_in. Qed.
Definition is_word (c : ascii) : bool := is_letter c || is_digit c || Ascii.eqb c "_".
Lemma is_word_mem c : is_word c = mem word_list c.
Proof. destruct c as [[] [] [] [] [] [] [] []]; reflexivity. Qed.
Lemma is_word_ok c : is_word c = true <-> word_char c.
Proof. rewrite is_word_mem, mem_in. unfold word_char, digit, word_list. rewrite <- in_app_iff. reflexivity. Qed.
Lemma is_blank_ok c : contains_rune blanks (Some c) = true <-> blank c.
Proof. apply mem_in. Qed.
Lemma is_punct_ok c : contains_rune syntax_tokens (Some c) = true <-> punctuation c.
Proof.
  change (contains_rune syntax_tokens (Some c)) with (mem syntax_tokens c). rewrite mem_in. unfold punctuation.
  cbn. unfold newline, nl. intuition auto.
Qed.
Lemma bool_iff_false b P : (b = true <-> P) -> (b = false <-> ~ P).
Proof. destruct b; intuition congruence. Qed.

Lemma operators_ok s t : operation_map s = Some t <-> In (s, t) operators.
Proof.
  unfold operation_map, operators. cbn [existsb]. split.
  - repeat match goal with |- context [String.eqb s ?x] => destruct (String.eqb_spec s x) as [->|] end;
      cbn; intros H; try (injection H as <-); try discriminate; intuition auto.
  - cbn [In]. intros H. repeat destruct H as [H|H]; try (injection H as <- <-; reflexivity). destruct H.
Qed.
Lemma keywords_ok s t : keyword_map s = Some t <-> In (s, t) keywords.
Proof.
  unfold keyword_map, keywords. split.
  - repeat match goal with |- context [String.eqb s ?x] => destruct (String.eqb_spec s x) as [->|] end;
      cbn; intros H; try (injection H as <-); try discriminate; intuition auto.
  - cbn [In]. intros H. repeat destruct H as [H|H]; try (injection H as <- <-; reflexivity). destruct H.
Qed.
Lemma map_none {A B} (f : A -> option B) (l : list (A * B)) (ok : forall s t, f s = Some t <-> In (s, t) l) s :
  f s = None <-> forall t, ~ In (s, t) l.
Proof.
  split.
  - intros E t H. apply ok in H. congruence.
  - intros H. destruct (f s) as [t|] eqn:E; [|easy]. apply ok in E. destruct (H t E).
Qed.

(** * The reading loops *)
Fixpoint taken (test : ascii -> bool) (r : text) : text :=
  match r with [] => [] | c :: r' => if test c then c :: taken test r' else [] end.
Fixpoint left (test : ascii -> bool) (r : text) : text :=
  match r with [] => [] | c :: r' => if test c then left test r' else r end.
Lemma taken_left test r : taken test r ++ left test r = r.
Proof. induction r as [|c r IH]; cbn; [easy|]. destruct (test c); cbn; congruence. Qed.
Lemma taken_all test r : Forall (fun c => test c = true) (taken test r).
Proof. induction r as [|c r IH]; cbn; [constructor|]. destruct (test c) eqn:E; constructor; auto. Qed.
Lemma left_not test r : match left test r with [] => True | c :: _ => test c = false end.
Proof. induction r as [|c r IH]; cbn; [easy|]. destruct (test c) eqn:E; auto. Qed.
Lemma taken_app test w s : Forall (fun c => test c = true) w -> match s with [] => True | c :: _ => test c = false end ->
  taken test (w ++ s) = w /\ left test (w ++ s) = s.
Proof.
  intros Hw Hs. induction Hw as [|c w Hc Hw IH]; cbn.
  - destruct s as [|c s]; cbn; [easy|]. now rewrite Hs.
  - rewrite Hc. destruct IH as [-> ->]. easy.
Qed.

Lemma read_while_ok test k r st o : exists st',
  read_while test (Lex k r st o) = Lex (rev (taken test r) ++ k) (left test r) st' o.
Proof.
  unfold read_while. cbn [cur rest stack out]. revert k st.
  induction r as [|c r IH]; intros k st; cbn [next_while taken left].
  - exists st. reflexivity.
  - destruct (test c).
    + destruct (IH (c :: k) (Some c :: st)) as [st' E]. exists st'. rewrite E. cbn [rev]. rewrite <- app_assoc. reflexivity.
    + exists st. reflexivity.
Qed.

Lemma peek_ok l : peek l = (hd_error (rest l), l).
Proof. destruct l as [k r st o]. destruct r; reflexivity. Qed.
Lemma peek_two_ok l : exists two, peek_two l = (two, l) /\
  two = String.append (rune_string (hd_error (rest l))) (rune_string (hd_error (tl (rest l)))).
Proof. destruct l as [k r st o]. destruct r as [|a [|b r]]; eexists; split; reflexivity. Qed.

(** * Steps *)
Notation fresh r o := (Lex [] r [] o).
Lemma run_step s l s' l' n : step s l = Ret (Some s', l') -> run (S n) s l = run n s' l'.
Proof. intros E. cbn [run]. now rewrite E. Qed.

(** [leads s l s' l']: some rounds take one configuration to the other. *)
Definition leads (s : state) (l : lexer) (s' : state) (l' : lexer) : Prop :=
  exists k, forall n, run (k + n) s l = run n s' l'.
Lemma leads_refl s l : leads s l s l.
Proof. now exists 0. Qed.
Lemma leads_step s l s' l' : step s l = Ret (Some s', l') -> leads s l s' l'.
Proof. intros E. exists 1. intros n. now apply run_step. Qed.
Lemma leads_trans s l s' l' s'' l'' : leads s l s' l' -> leads s' l' s'' l'' -> leads s l s'' l''.
Proof. intros [j H] [k K]. exists (j + k). intros n. rewrite <- Nat.add_assoc, H. apply K. Qed.
Definition ends (s : state) (l : lexer) (ts : list token) : Prop := exists n, run n s l = Ret ts.
Definition loops (s : state) (l : lexer) : Prop := forall n, run n s l = Running.
Lemma leads_ends s l s' l' ts : leads s l s' l' -> ends s' l' ts -> ends s l ts.
Proof. intros [k H] [n E]. exists (k + n). now rewrite H. Qed.
Lemma run_more n k s l : run (n + k) s l = Running -> run n s l = Running.
Proof.
  revert s l. induction n as [|n IH]; intros s l H; [easy|]. cbn [run Nat.add] in *.
  destruct (step s l) as [[[s'|] l']| |]; auto; discriminate.
Qed.
Lemma leads_loops s l s' l' : leads s l s' l' -> loops s' l' -> loops s l.
Proof. intros [k H] L n. apply run_more with k. rewrite Nat.add_comm, H. apply L. Qed.
Lemma run_ret_more n k s l ts : run n s l = Ret ts -> run (n + k) s l = Ret ts.
Proof.
  revert s l. induction n as [|n IH]; intros s l H; [discriminate|]. cbn [run Nat.add] in *.
  destruct (step s l) as [[[s'|] l']| |]; auto; discriminate.
Qed.
Lemma ends_unique s l ts ts' : ends s l ts -> ends s l ts' -> ts = ts'.
Proof.
  intros [n E] [n' E']. apply run_ret_more with (k := n') in E. apply run_ret_more with (k := n) in E'.
  rewrite Nat.add_comm in E'. congruence.
Qed.

Lemma step_probably_end o : run 1 Probably (fresh [] o) = Ret o.
Proof. reflexivity. Qed.
Lemma probably_blanks r o : r <> [] ->
  step Probably (fresh r o) = Ret (Some Ident, fresh (left (fun c => contains_rune blanks (Some c)) r) o).
Proof.
  intros N. cbn [step]. unfold probably_state. rewrite peek_ok. cbn [rest].
  destruct r as [|c r]; [easy|]. cbn [hd_error is_eof].
  unfold take. destruct (read_while_ok (fun c => contains_rune blanks (Some c)) [] (c :: r) [] o) as [st ->].
  reflexivity.
Qed.

Lemma current_rev k r st o : current (Lex (rev k ++ []) r st o) = string_of_list_ascii k.
Proof. unfold current. cbn [cur]. now rewrite app_nil_r, rev_involutive. Qed.

Lemma not_before_false test (p : ascii -> Prop) s : (forall c, test c = true <-> p c) -> not_before p s ->
  match s with [] => True | c :: _ => test c = false end.
Proof. intros T. destruct s as [|c s]; cbn; [easy|]. intros H. now apply (bool_iff_false _ _ (T c)). Qed.
Lemma forall_test test (p : ascii -> Prop) w : (forall c, test c = true <-> p c) ->
  Forall p w <-> Forall (fun c => test c = true) w.
Proof. intros T. split; apply Forall_impl; intros c; apply T. Qed.

(** A first character that is none of digit, punctuation, quote. *)
Definition plain (c : ascii) : Prop :=
  is_digit c = false /\ contains_rune syntax_tokens (Some c) = false /\ Ascii.eqb c quote = false.

Lemma ident_plain c r o : plain c ->
  step Ident (fresh (c :: r) o) =
  match operation_map (String.append (String c "") (rune_string (hd_error r))) with
  | Some t => Ret (Some Probably, emit t (snd (next (snd (next (fresh (c :: r) o))))))
  | None =>
    match operation_map (String c "") with
    | Some t => Ret (Some Probably, fresh r (o ++ [Tok t (String c "")]))
    | None =>
      if Ascii.eqb c "#" then Ret (Some White, emit TComment (read_comment_line (fresh (c :: r) o)))
      else
        match keyword_map (current (read_ident (fresh (c :: r) o))) with
        | Some t => Ret (Some Probably, emit t (read_ident (fresh (c :: r) o)))
        | None => if is_rune "(" (hd_error (rest (read_ident (fresh (c :: r) o))))
                  then Ret (Some Probably, emit TCall (read_ident (fresh (c :: r) o)))
                  else Ret (Some Probably, emit TIdent (read_ident (fresh (c :: r) o)))
        end
    end
  end.
Proof.
  intros [D [S Q]]. cbn [step]. unfold ident_state. rewrite peek_ok. cbn [rest hd_error]. rewrite D, S.
  cbn [is_rune]. rewrite Q.
  destruct (peek_two_ok (fresh (c :: r) o)) as [two [-> ->]]. cbn [rest hd_error tl rune_string].
  destruct (operation_map (String.append (String c "") (rune_string (hd_error r)))); [easy|].
  destruct (operation_map (String c "")); [easy|].
  cbn [is_rune]. destruct (Ascii.eqb c "#"); [easy|].
  destruct (keyword_map _); [easy|]. rewrite peek_ok. easy.
Qed.

Lemma op_plain a w t : In (string_of_list_ascii (a :: w), t) operators -> plain a.
Proof.
  cbn [string_of_list_ascii]. intros H. cbn in H.
  repeat destruct H as [H|H]; try (injection H as <- _ _; repeat split; reflexivity); try destruct H.
Qed.
Lemma op_two_none a r : (forall b s' t', r = b :: s' -> ~ In (string_of_list_ascii [a; b], t') operators) ->
  operation_map (String.append (String a "") (rune_string (hd_error r))) = None.
Proof.
  intros H. apply (map_none _ _ operators_ok). intros t. destruct r as [|b s'].
  - cbn. intros K. repeat destruct K as [K|K]; try discriminate. destruct K.
  - exact (H b s' t eq_refl).
Qed.
Lemma word_plain c : is_word c = true -> is_digit c = false -> plain c.
Proof.
  intros W D. split; [easy|]. clear D. revert W. rewrite is_word_mem.
  destruct c as [[] [] [] [] [] [] [] []]; cbv; intros; (split; reflexivity) || discriminate.
Qed.
Lemma word_no_op c d : is_word c = true -> operation_map (String.append (String c "") d) = None.
Proof.
  intros W. apply (map_none _ _ operators_ok). intros t H. cbn [String.append operators In] in H.
  repeat destruct H as [H|H]; try contradiction; injection H as <- _ _; discriminate.
Qed.
Lemma word_no_op1 c : is_word c = true -> operation_map (String c "") = None.
Proof. apply (word_no_op c ""). Qed.
Lemma keyword_word w t : In (string_of_list_ascii w, t) keywords -> exists a v, w = a :: v /\ ~ digit a /\ Forall word_char w.
Proof.
  intros H.
  assert (exists k, In k (map fst keywords) /\ w = chars k).
  { exists (string_of_list_ascii w). split; [|now rewrite list_ascii_of_string_of_list_ascii || (symmetry; apply list_ascii_of_string_of_list_ascii)].
    apply (in_map fst) in H. exact H. }
  destruct H0 as [k [K ->]].
  assert (Q : forall k, In k (map fst keywords) -> exists a v, chars k = a :: v /\ is_digit a = false /\ Forall (fun c => is_word c = true) (chars k)).
  { clear. intros k K. cbn in K. repeat destruct K as [<-|K]; try (do 2 eexists; split; [reflexivity|split; [reflexivity|cbn; repeat constructor]]). destruct K. }
  destruct (Q k K) as [a [v [E [D F]]]]. exists a, v. split; [easy|]. split.
  - apply (bool_iff_false _ _ (is_digit_ok a)). easy.
  - apply (forall_test is_word _ _ is_word_ok). exact F.
Qed.

Lemma read_ident_ok w s o : Forall word_char w -> not_before word_char s -> exists st,
  read_ident (fresh (w ++ s) o) = Lex (rev w ++ []) s st o.
Proof.
  intros W S. unfold read_ident. change (fun c => is_letter c || is_digit c || Ascii.eqb c "_") with is_word.
  destruct (read_while_ok is_word [] (w ++ s) [] o) as [st ->]. exists st.
  destruct (taken_app is_word w s) as [-> ->]; [|now apply (not_before_false is_word _ s is_word_ok)|easy].
  now apply (forall_test is_word _ _ is_word_ok).
Qed.

Lemma ident_word a w s o : ~ digit a -> Forall word_char (a :: w) -> not_before word_char s -> exists st,
  step Ident (fresh (a :: w ++ s) o) =
  Ret (Some Probably, emit match keyword_map (string_of_list_ascii (a :: w)) with
                           | Some t => t
                           | None => if is_rune "(" (hd_error s) then TCall else TIdent
                           end (Lex (rev (a :: w) ++ []) s st o)).
Proof.
  intros D W S. destruct (read_ident_ok (a :: w) s o W S) as [st R]. cbn [app] in R. exists st.
  assert (Wa : is_word a = true) by (apply is_word_ok; now inversion W).
  rewrite ident_plain; [|apply word_plain; [easy|now apply (bool_iff_false _ _ (is_digit_ok a))]].
  rewrite word_no_op, word_no_op1 by easy.
  replace (Ascii.eqb a "#") with false by (symmetry; apply Ascii.eqb_neq; intros ->; discriminate).
  rewrite R, current_rev. destruct (keyword_map (string_of_list_ascii (a :: w))); [easy|]. cbn [rest].
  destruct (is_rune "(" (hd_error s)); reflexivity.
Qed.

Lemma first_paren s : is_rune "(" (hd_error s) = true <-> first s = ["("%char].
Proof.
  destruct s as [|c s]; cbn; [split; discriminate|]. rewrite Ascii.eqb_eq. split; [intros ->|intros H; injection H]; easy.
Qed.

Lemma white_end s o : not_before (fun c => c <> nl) s -> forall n, run n White (fresh s o) = run n Probably (fresh s o).
Proof.
  intros H [|n]; [easy|]. destruct s as [|c s]; [reflexivity|]. cbn in H.
  destruct (Ascii.eqb_spec c nl) as [->|]; [|tauto]. cbn [run].
  rewrite probably_blanks by easy. reflexivity.
Qed.

(** One token. *)
Lemma ident_piece t w s o : piece t w s ->
  leads Ident (fresh (w ++ s) o) Probably (fresh s (o ++ [Tok t (string_of_list_ascii w)])).
Proof.
  intros H. destruct H as [w s N W S|c s P|a b t s O|a t s O B|w s C S|w t s K S|a w s D W K F|a w s D W K S F].
  - destruct w as [|c w]; [easy|]. clear N.
    assert (Dc : is_digit c = true) by (apply is_digit_ok; now inversion W).
    apply leads_trans with Number (fresh ((c :: w) ++ s) o).
    + apply leads_step. cbn [step]. unfold ident_state. rewrite peek_ok. cbn [rest app hd_error]. now rewrite Dc.
    + exists 0. intros n. cbn [Nat.add]. destruct n as [|n]; [easy|]. cbn [run]. 
      cbn [step]. unfold number_state, take.
      destruct (read_while_ok (fun c => contains_rune number_tokens (Some c)) [] ((c :: w) ++ s) [] o) as [st ->].
      assert (T : forall c, contains_rune number_tokens (Some c) = true <-> digit c) by (intros; apply mem_in).
      destruct (taken_app (fun c => contains_rune number_tokens (Some c)) (c :: w) s) as [-> ->].
      * now apply (forall_test _ _ _ T).
      * now apply (not_before_false _ _ _ T).
      * unfold emit. rewrite current_rev. reflexivity.
  - apply leads_step. cbn [step]. unfold ident_state. rewrite peek_ok. cbn [rest app hd_error].
    apply is_punct_ok in P.
    assert (D : is_digit c = false).
    { revert P. destruct c as [[] [] [] [] [] [] [] []]; cbv; congruence. }
    rewrite D, P. reflexivity.
  - apply leads_step. cbn [app]. rewrite ident_plain by (eapply op_plain; exact O).
    cbn [hd_error rune_string]. apply operators_ok in O. cbn [string_of_list_ascii] in O. cbn [String.append]. rewrite O. reflexivity.
  - apply leads_step. cbn [app]. rewrite ident_plain by (eapply op_plain; exact O).
    rewrite op_two_none by exact B. apply operators_ok in O. cbn [string_of_list_ascii] in O. rewrite O. reflexivity.
  - apply leads_trans with White (fresh s (o ++ [Tok TComment (string_of_list_ascii ("#"%char :: w))])).
    + apply leads_step. cbn [app]. rewrite ident_plain by (repeat split; reflexivity).
      rewrite op_two_none.
      2: { intros b s' t' _ I. cbn in I. repeat destruct I as [I|I]; try discriminate. destruct I. }
      change (operation_map (String "#" "")) with (@None ttype). cbn [Ascii.eqb Bool.eqb].
      unfold read_comment_line.
      destruct (read_while_ok (fun c => negb (Ascii.eqb c newline)) [] ("#"%char :: w ++ s) [] o) as [st E].
      assert (T : forall c, negb (Ascii.eqb c newline) = true <-> c <> nl).
      { intros c. rewrite negb_true_iff. apply Ascii.eqb_neq. }
      change ("#"%char :: w ++ s) with (("#"%char :: w) ++ s) in E at 2 3.
      destruct (taken_app (fun c => negb (Ascii.eqb c newline)) ("#"%char :: w) s) as [E1 E2].
      { apply (forall_test _ _ _ T). constructor; [discriminate|]. apply Forall_forall. intros x X ->. easy. }
      { now apply (not_before_false _ _ _ T). }
      rewrite E1, E2 in E. rewrite E. unfold emit. rewrite current_rev. reflexivity.
    + exists 0. intros n. now apply white_end.
  - destruct (keyword_word _ _ K) as [a [v [-> [D W]]]].
    destruct (ident_word a v s o D W S) as [st E]. apply leads_step. cbn [app]. rewrite E.
    apply keywords_ok in K. rewrite K. unfold emit. rewrite current_rev. reflexivity.
  - destruct s as [|b s]; [discriminate|]. injection F as ->.
    assert (S : not_before word_char ("("%char :: s)).
    { cbn. rewrite <- is_word_ok. discriminate. }
    destruct (ident_word a w _ o D W S) as [st E]. apply leads_step. cbn [app]. rewrite E.
    apply (map_none _ _ keywords_ok) in K. rewrite K. cbn [hd_error]. unfold emit. rewrite current_rev. reflexivity.
  - destruct (ident_word a w s o D W S) as [st E]. apply leads_step. cbn [app]. rewrite E.
    apply (map_none _ _ keywords_ok) in K. rewrite K.
    destruct (is_rune "(" (hd_error s)) eqn:P; [apply first_paren in P; easy|].
    unfold emit. rewrite current_rev. reflexivity.
Qed.

Lemma string_loop w s k st o : ~ In dq w ->
  leads InString (Lex k (w ++ dq :: s) st o) Probably (fresh s (o ++ [Tok TIdent (string_of_list_ascii (rev k ++ w))])).
Proof.
  revert k st. induction w as [|c w IH]; intros k st N.
  - apply leads_step. cbn [step app]. unfold string_state. rewrite peek_ok. cbn. unfold emit, current. cbn.
    now rewrite app_nil_r.
  - eapply leads_trans.
    + apply leads_step. cbn [step app]. unfold string_state. rewrite peek_ok. cbn [rest hd_error is_rune].
      replace (Ascii.eqb c quote) with false by (symmetry; apply Ascii.eqb_neq; intros ->; apply N; now left).
      cbn [negb next rest snd]. reflexivity.
    + cbn [cur stack out]. replace (rev k ++ c :: w) with (rev (c :: k) ++ w) by (cbn; now rewrite <- app_assoc).
      apply IH. intros H. apply N. now right.
Qed.
Lemma ident_quoted w s o : ~ In dq w ->
  leads Ident (fresh (dq :: w ++ dq :: s) o) Probably (fresh s (o ++ [Tok TIdent (string_of_list_ascii w)])).
Proof.
  intros N. eapply leads_trans; [apply leads_step; reflexivity|]. cbn [next rest snd ignore].
  apply (string_loop w s [] [] o N).
Qed.

Lemma piece_start t w s : piece t w s -> exists c v, w = c :: v /\ contains_rune blanks (Some c) = false.
Proof.
  intros H. destruct H as [w s N W S|c s P|a b t s O|a t s O B|w s C S|w t s K S|a w s D W K F|a w s D W K S F].
  - destruct w as [|c w]; [easy|]. exists c, w. split; [easy|]. inversion W as [|? ? Dc _]. subst.
    apply is_digit_ok in Dc. rewrite is_digit_mem in Dc. revert Dc.
    destruct c as [[] [] [] [] [] [] [] []]; cbv; congruence.
  - exists c, []. split; [easy|]. apply is_punct_ok in P. revert P.
    destruct c as [[] [] [] [] [] [] [] []]; cbv; congruence.
  - exists a, [b]. split; [easy|]. cbn in O. repeat destruct O as [O|O]; try (injection O as <- _ _; reflexivity); try discriminate. destruct O.
  - exists a, []. split; [easy|]. cbn in O. repeat destruct O as [O|O]; try (injection O as <- _; reflexivity); try discriminate. destruct O.
  - exists "#"%char, w. easy.
  - destruct (keyword_word _ _ K) as [a [v [-> [D W]]]]. exists a, v. split; [easy|]. inversion W as [|? ? Wa _]. subst.
    apply is_word_ok in Wa. rewrite is_word_mem in Wa. revert Wa.
    destruct a as [[] [] [] [] [] [] [] []]; cbv; congruence.
  - exists a, w. split; [easy|]. inversion W as [|? ? Wa _]. subst.
    apply is_word_ok in Wa. rewrite is_word_mem in Wa. revert Wa.
    destruct a as [[] [] [] [] [] [] [] []]; cbv; congruence.
  - exists a, w. split; [easy|]. inversion W as [|? ? Wa _]. subst.
    apply is_word_ok in Wa. rewrite is_word_mem in Wa. revert Wa.
    destruct a as [[] [] [] [] [] [] [] []]; cbv; congruence.
Qed.

Lemma probably_nonblank c r o : contains_rune blanks (Some c) = false ->
  leads Probably (fresh (c :: r) o) Ident (fresh (c :: r) o).
Proof. intros B. apply leads_step. rewrite probably_blanks by easy. cbn [left]. now rewrite B. Qed.

(** Every tokenisation is what the lexer computes. *)
Theorem lex_complete src ts : tokens_of src ts -> forall o, ends Probably (fresh src o) (o ++ ts).
Proof.
  induction 1 as [|b B|b s ts B N T IH|t w s ts P T IH|w s ts N T IH]; intros o.
  - exists 1. now rewrite app_nil_r.
  - apply is_blank_ok in B. eapply leads_ends.
    + apply leads_step. rewrite probably_blanks by easy. cbn [left]. rewrite B. reflexivity.
    + exists 2. reflexivity.
  - apply is_blank_ok in B. destruct (IH o) as [[|n] E]; [discriminate|]. exists (S n). cbn [run] in *.
    rewrite probably_blanks in * by easy. cbn [left]. now rewrite B.
  - destruct (piece_start _ _ _ P) as [c [v [E B]]]. subst w.
    eapply leads_ends.
    + eapply leads_trans; [apply probably_nonblank; exact B|].
      apply (ident_piece t (c :: v) s o P).
    + replace (o ++ _ :: ts) with ((o ++ [Tok t (string_of_list_ascii (c :: v))]) ++ ts) by now rewrite <- app_assoc.
      apply IH.
  - eapply leads_ends.
    + eapply leads_trans; [apply probably_nonblank; reflexivity|]. apply (ident_quoted w s o N).
    + replace (o ++ _ :: ts) with ((o ++ [Tok TIdent (string_of_list_ascii w)]) ++ ts) by now rewrite <- app_assoc.
      apply IH.
Qed.

(** * Which texts can be read *)
Fixpoint to_quote (s : text) : option (text * text) :=
  match s with
  | [] => None
  | c :: s' => if Ascii.eqb c dq then Some ([], s')
               else match to_quote s' with Some (w, r) => Some (c :: w, r) | None => None end
  end.
Lemma to_quote_some s w r : to_quote s = Some (w, r) -> s = w ++ dq :: r /\ ~ In dq w.
Proof.
  revert w. induction s as [|c s IH]; intros w H; [discriminate|]. cbn [to_quote] in H.
  destruct (Ascii.eqb_spec c dq) as [->|N].
  - injection H as <- <-. now split.
  - destruct (to_quote s) as [[w' r']|]; [|discriminate]. injection H as <- <-.
    destruct (IH _ eq_refl) as [-> I]. split; [easy|]. intros [J|J]; auto.
Qed.
Lemma to_quote_none s : to_quote s = None -> ~ In dq s.
Proof.
  induction s as [|c s IH]; intros H; [easy|]. cbn [to_quote] in H.
  destruct (Ascii.eqb_spec c dq) as [->|N]; [discriminate|].
  destruct (to_quote s) as [[w' r']|]; [discriminate|]. intros [J|J]; auto. now apply IH.
Qed.

Inductive mode := Code | Quoted | Comment.
(** Is the text readable, character by character? *)
Fixpoint scan (m : mode) (s : text) : bool :=
  match m, s with
  | Code, [] => true
  | Comment, [] => true
  | Quoted, [] => false
  | Quoted, c :: s' => scan (if Ascii.eqb c dq then Code else Quoted) s'
  | Comment, c :: s' => scan (if Ascii.eqb c nl then Code else Comment) s'
  | Code, c :: s' =>
      if Ascii.eqb c dq then scan Quoted s'
      else if Ascii.eqb c "#" then scan Comment s'
      else if Ascii.eqb c "&" then match s' with d :: s'' => Ascii.eqb d "&" && scan Code s'' | [] => false end
      else if Ascii.eqb c "|" then match s' with d :: s'' => Ascii.eqb d "|" && scan Code s'' | [] => false end
      else if Ascii.eqb c "!" then match s' with d :: s'' => Ascii.eqb d "=" && scan Code s'' | [] => false end
      else (mem blanks c || mem word_list c || mem syntax_tokens c || mem (chars "=-+*/<>") c) && scan Code s'
  end.
Definition usual (c : ascii) : bool := mem blanks c || mem word_list c || mem syntax_tokens c || mem (chars "=-+*/<>") c.
Lemma scan_usual c s : usual c = true -> scan Code (c :: s) = scan Code s.
Proof.
  intros U. cbn [scan]. fold (usual c). rewrite U, andb_true_l.
  assert (F : forall x, usual x = false -> Ascii.eqb c x = false).
  { intros x X. apply Ascii.eqb_neq. intros ->. congruence. }
  rewrite (F dq), (F "#"%char), (F "&"%char), (F "|"%char), (F "!"%char) by reflexivity. reflexivity.
Qed.
Lemma usual_ok c : usual c = true <-> blank c \/ word_char c \/ punctuation c \/ In c (chars "=-+*/<>").
Proof.
  unfold usual. rewrite !orb_true_iff, <- is_word_mem, is_word_ok, (mem_in (chars "=-+*/<>")).
  change (mem blanks c) with (contains_rune blanks (Some c)). rewrite is_blank_ok.
  change (mem syntax_tokens c) with (contains_rune syntax_tokens (Some c)). rewrite is_punct_ok. tauto.
Qed.
Lemma scan_usuals w s : Forall (fun c => usual c = true) w -> scan Code (w ++ s) = scan Code s.
Proof. induction 1 as [|c w U W IH]; cbn [app]; [easy|]. now rewrite scan_usual. Qed.
Lemma scan_quoted w s : ~ In dq w -> scan Quoted (w ++ dq :: s) = scan Code s.
Proof.
  induction w as [|c w IH]; intros N; [reflexivity|]. cbn [app scan].
  destruct (Ascii.eqb_spec c dq) as [->|]; [exfalso; apply N; now left|]. apply IH. intros H. apply N. now right.
Qed.
Lemma scan_unclosed w : ~ In dq w -> scan Quoted w = false.
Proof.
  induction w as [|c w IH]; intros N; [reflexivity|]. cbn [scan].
  destruct (Ascii.eqb_spec c dq) as [->|]; [exfalso; apply N; now left|]. apply IH. intros H. apply N. now right.
Qed.
Lemma scan_comment w s : ~ In nl w -> not_before (fun c => c <> nl) s -> scan Comment (w ++ s) = scan Code s.
Proof.
  intros N S. induction w as [|c w IH]; cbn [app].
  - destruct s as [|c s]; [reflexivity|]. cbn in S. destruct (Ascii.eqb_spec c nl) as [->|]; [|tauto]. reflexivity.
  - cbn [scan]. destruct (Ascii.eqb_spec c nl) as [->|]; [exfalso; apply N; now left|]. apply IH. intros H. apply N. now right.
Qed.
Lemma readable_scan s : readable s -> scan Code s = true.
Proof.
  induction 1 as [|c s U R IH|w s P R IH|w s N S R IH|w s N R IH].
  - reflexivity.
  - rewrite scan_usual; [easy|]. now apply usual_ok.
  - cbn [In] in P. destruct P as [<-|[<-|[<-|[]]]]; cbn; exact IH.
  - change (scan Comment (w ++ s) = true). now rewrite scan_comment.
  - change (scan Quoted (w ++ dq :: s) = true). now rewrite scan_quoted.
Qed.

Lemma word_usual c : is_word c = true -> usual c = true.
Proof. intros W. apply usual_ok. right. left. now apply is_word_ok. Qed.
Lemma readable_words w s : Forall word_char w -> readable s -> readable (w ++ s).
Proof. induction 1; cbn; intros; auto. apply readable_char; auto. Qed.
Lemma piece_readable t w s : piece t w s -> readable s -> readable (w ++ s).
Proof.
  intros H R. destruct H as [w s N W S|c s P|a b t s O|a t s O B|w s C S|w t s K S|a w s D W K F|a w s D W K S F].
  - apply readable_words; [|easy]. eapply Forall_impl; [|exact W]. intros x. now left.
  - apply readable_char; auto.
  - cbn [string_of_list_ascii] in O. cbn in O.
    repeat destruct O as [O|O]; try discriminate; try contradiction; injection O as <- <- _;
      first [apply (readable_pair (chars "&&")); [cbn; tauto|easy]
            |apply (readable_pair (chars "||")); [cbn; tauto|easy]
            |apply (readable_pair (chars "!=")); [cbn; tauto|easy]
            |cbn; apply readable_char; [cbn; tauto|]; apply readable_char; [cbn; tauto|easy]].
  - cbn [string_of_list_ascii] in O. cbn in O.
    repeat destruct O as [O|O]; try discriminate; try contradiction; injection O as <- _;
      (apply readable_char; [cbn; tauto|easy]).
  - now apply readable_comment.
  - apply readable_words; [|easy]. now destruct (keyword_word _ _ K) as [a [v [_ [_ W]]]].
  - now apply readable_words.
  - now apply readable_words.
Qed.
Lemma tokens_readable s ts : tokens_of s ts -> readable s.
Proof.
  induction 1 as [|b B|b s ts B N T IH|t w s ts P T IH|w s ts N T IH].
  - constructor.
  - apply readable_char; [auto|constructor].
  - apply readable_char; auto.
  - eapply piece_readable; eauto.
  - now apply readable_quoted.
Qed.

(** A text on which IdentState makes no progress. *)
Lemma stuck_loops c r : plain c -> contains_rune blanks (Some c) = false ->
  operation_map (String.append (String c "") (rune_string (hd_error r))) = None ->
  operation_map (String c "") = None -> Ascii.eqb c "#" = false -> is_word c = false ->
  forall o, loops Ident (fresh (c :: r) o) /\ loops Probably (fresh (c :: r) o) /\
            forall n, emitted (n + n) Ident (fresh (c :: r) o) = o ++ repeat (Tok TIdent "") n.
Proof.
  intros P B T O H W.
  assert (S : forall o, exists t, step Ident (fresh (c :: r) o) = Ret (Some Probably, fresh (c :: r) (o ++ [Tok t ""])) /\ t = TIdent).
  { intros o. exists TIdent. split; [|easy]. rewrite ident_plain by exact P. rewrite T, O, H.
    destruct (read_ident_ok [] (c :: r) o) as [st E]; [constructor|cbn; rewrite <- is_word_ok; congruence|].
    cbn [app] in E. rewrite E. cbn [rev app current cur string_of_list_ascii keyword_map String.eqb].
    replace (is_rune "(" (hd_error (rest (Lex [] (c :: r) st o)))) with false; [reflexivity|].
    cbn [rest hd_error is_rune]. symmetry. apply Ascii.eqb_neq. intros ->. destruct P as [_ [P _]]. discriminate. }
  assert (S2 : forall o, step Probably (fresh (c :: r) o) = Ret (Some Ident, fresh (c :: r) o)).
  { intros o. rewrite probably_blanks by easy. cbn [left]. now rewrite B. }
  assert (L : forall n o, run n Ident (fresh (c :: r) o) = Running /\ run n Probably (fresh (c :: r) o) = Running).
  { induction n as [|n IH]; intros o; [easy|]. cbn [run]. rewrite S2. destruct (S o) as [t [-> _]]. split; apply IH. }
  intros o. split; [|split].
  - intros n. apply L.
  - intros n. apply L.
  - intros n. revert o. induction n as [|n IH]; intros o; [cbn; now rewrite app_nil_r|].
    rewrite Nat.add_succ_r. cbn [Nat.add emitted]. destruct (S o) as [t [-> ->]]. rewrite S2, IH, <- app_assoc. reflexivity.
Qed.
Lemma stuck_scan c r : plain c -> contains_rune blanks (Some c) = false ->
  operation_map (String.append (String c "") (rune_string (hd_error r))) = None ->
  operation_map (String c "") = None -> Ascii.eqb c "#" = false -> is_word c = false ->
  scan Code (c :: r) = false.
Proof.
  intros [D [S Q]] B T O H W. cbn [scan]. change (Ascii.eqb c dq) with (Ascii.eqb c quote). rewrite Q, H.
  destruct (Ascii.eqb_spec c "&") as [->|].
  { destruct r as [|d r]; [easy|]. destruct (Ascii.eqb_spec d "&") as [->|]; [discriminate|easy]. }
  destruct (Ascii.eqb_spec c "|") as [->|].
  { destruct r as [|d r]; [easy|]. destruct (Ascii.eqb_spec d "|") as [->|]; [discriminate|easy]. }
  destruct (Ascii.eqb_spec c "!") as [->|].
  { destruct r as [|d r]; [easy|]. destruct (Ascii.eqb_spec d "=") as [->|]; [discriminate|easy]. }
  rewrite <- is_word_mem, W. change (mem blanks c) with (contains_rune blanks (Some c)). rewrite B.
  change (mem syntax_tokens c) with (contains_rune syntax_tokens (Some c)). rewrite S. cbn [orb].
  replace (mem (chars "=-+*/<>") c) with false; [easy|]. symmetry. apply mem_false.
  cbn. intros K. repeat destruct K as [<-|K]; try discriminate. easy.
Qed.
Lemma unclosed_loops w k st o : ~ In dq w -> loops InString (Lex k w st o).
Proof.
  intros N n. revert w k st N. induction n as [|n IH]; intros w k st N; [easy|].
  cbn [run step]. unfold string_state. rewrite peek_ok. destruct w as [|c w]; cbn [rest hd_error is_rune].
  - cbn [negb next rest snd cur stack out]. now apply IH.
  - replace (Ascii.eqb c quote) with false by (symmetry; apply Ascii.eqb_neq; intros ->; apply N; now left).
    cbn [negb next rest snd cur stack out]. apply IH. intros H. apply N. now right.
Qed.

(** The beginning of a text: a token, a closed string, or an endless loop. *)
Lemma beginning c r : contains_rune blanks (Some c) = false ->
  (exists t w s, c :: r = w ++ s /\ piece t w s) \/
  (exists w s, c :: r = dq :: w ++ dq :: s /\ ~ In dq w) \/
  (scan Code (c :: r) = false /\ forall o, loops Probably (fresh (c :: r) o)).
Proof.
  intros B.
  destruct (is_digit c) eqn:D.
  { left. exists TNumber, (taken is_digit (c :: r)), (left is_digit (c :: r)). rewrite taken_left. split; [easy|].
    apply piece_number.
    - cbn [taken]. now rewrite D.
    - apply (forall_test is_digit _ _ is_digit_ok). apply taken_all.
    - generalize (left_not is_digit (c :: r)). destruct (left is_digit (c :: r)) as [|d s]; [easy|].
      cbn. intros E. now apply (bool_iff_false _ _ (is_digit_ok d)). }
  destruct (contains_rune syntax_tokens (Some c)) eqn:S.
  { left. exists TSyntax, [c], r. split; [easy|]. apply piece_syntax. now apply is_punct_ok. }
  destruct (Ascii.eqb_spec c quote) as [->|Q].
  { right. destruct (to_quote r) as [[w s]|] eqn:E.
    - left. apply to_quote_some in E. destruct E as [-> N]. now exists w, s.
    - right. apply to_quote_none in E. split.
      + change (scan Quoted r = false). now apply scan_unclosed.
      + intros o. eapply leads_loops; [apply probably_nonblank; reflexivity|].
        eapply leads_loops; [apply leads_step; reflexivity|]. now apply unclosed_loops. }
  apply Ascii.eqb_neq in Q. assert (P : plain c) by easy.
  destruct (operation_map (String.append (String c "") (rune_string (hd_error r)))) as [t|] eqn:T.
  { left. destruct r as [|d r].
    - exfalso. apply operators_ok in T. cbn in T. repeat destruct T as [T|T]; try discriminate. easy.
    - exists t, [c; d], r. split; [easy|]. apply piece_long. now apply operators_ok. }
  destruct (operation_map (String c "")) as [t|] eqn:O.
  { left. exists t, [c], r. split; [easy|]. apply piece_short; [now apply operators_ok|].
    intros b s' t' -> I. apply operators_ok in I. cbn [hd_error rune_string String.append string_of_list_ascii] in *. congruence. }
  destruct (Ascii.eqb_spec c "#") as [->|H].
  { left. set (test := fun c => negb (Ascii.eqb c nl)).
    exists TComment, ("#"%char :: taken test r), (left test r). cbn [app]. rewrite taken_left. split; [easy|].
    apply piece_comment.
    - intros I. generalize (taken_all test r). rewrite Forall_forall. intros F. apply F in I. discriminate.
    - generalize (left_not test r). destruct (left test r) as [|d s]; [easy|]. unfold test.
      intros E. apply negb_false_iff, Ascii.eqb_eq in E. cbn. tauto. }
  apply Ascii.eqb_neq in H.
  destruct (is_word c) eqn:W.
  { left. set (v := taken is_word r). set (s := left is_word r).
    assert (E : c :: r = (c :: v) ++ s) by (cbn; unfold v, s; now rewrite taken_left).
    assert (V : Forall word_char (c :: v)).
    { constructor; [now apply is_word_ok|]. apply (forall_test is_word _ _ is_word_ok). apply taken_all. }
    assert (Sn : not_before word_char s).
    { generalize (left_not is_word r). fold s. destruct s as [|d s']; [easy|]. cbn. intros F.
      now apply (bool_iff_false _ _ (is_word_ok d)). }
    assert (D' : ~ digit c) by now apply (bool_iff_false _ _ (is_digit_ok c)).
    destruct (keyword_map (string_of_list_ascii (c :: v))) as [t|] eqn:K.
    - exists t, (c :: v), s. split; [easy|]. apply piece_keyword; [now apply keywords_ok|easy].
    - assert (K' := proj1 (map_none _ _ keywords_ok _) K).
      destruct (is_rune "(" (hd_error s)) eqn:F.
      + exists TCall, (c :: v), s. split; [easy|]. apply piece_call; try easy. now apply first_paren.
      + exists TIdent, (c :: v), s. split; [easy|]. apply piece_name; try easy.
        intros G. apply first_paren in G. congruence. }
  right. right. split.
  - now apply stuck_scan.
  - intros o. now apply (stuck_loops c r P B T O H W o).
Qed.

Lemma scan_piece t w s : piece t w s -> scan Code (w ++ s) = scan Code s.
Proof.
  assert (U : forall c, word_char c -> usual c = true) by (intros c Wc; apply word_usual; now apply is_word_ok).
  intros H. destruct H as [w s N W S|c s P|a b t s O|a t s O B|w s C S|w t s K S|a w s D W K F|a w s D W K S F].
  - apply scan_usuals. eapply Forall_impl; [|exact W]. intros c Dc. apply U. now left.
  - cbn [app]. apply scan_usual. apply usual_ok. auto.
  - cbn [string_of_list_ascii] in O. cbn in O.
    repeat destruct O as [O|O]; try discriminate; try contradiction; injection O as <- <- _; reflexivity.
  - cbn [string_of_list_ascii] in O. cbn in O.
    repeat destruct O as [O|O]; try discriminate; try contradiction; injection O as <- _; reflexivity.
  - change (scan Comment (w ++ s) = scan Code s). now apply scan_comment.
  - apply scan_usuals. destruct (keyword_word _ _ K) as [a [v [_ [_ W]]]]. eapply Forall_impl; [exact U|exact W].
  - apply scan_usuals. eapply Forall_impl; [exact U|exact W].
  - apply scan_usuals. eapply Forall_impl; [exact U|exact W].
Qed.

(** Every text either has a tokenisation or makes the lexer run forever. *)
Theorem lex_dichotomy src :
  (exists ts, tokens_of src ts) \/ (scan Code src = false /\ forall o, loops Probably (fresh src o)).
Proof.
  remember (List.length src) as k eqn:E. revert src E. induction k as [k IH] using (well_founded_induction lt_wf). intros src ->.
  destruct src as [|c r]; [left; exists []; constructor|].
  destruct (contains_rune blanks (Some c)) eqn:B.
  - assert (Bl : blank c) by now apply is_blank_ok.
    destruct r as [|d r].
    + left. eexists. now apply tokens_last.
    + destruct (IH (List.length (d :: r))) with (src := d :: r) as [[ts T]|[Sc L]]; [cbn; lia|easy| |].
      * left. exists ts. now apply tokens_blank.
      * right. split; [rewrite scan_usual; [easy|now apply usual_ok; left]|].
        intros o [|n]; [easy|]. specialize (L o (S n)). cbn [run] in *. rewrite probably_blanks in * by easy.
        cbn [left] in *. now rewrite B.
  - destruct (beginning c r B) as [[t [w [s [E P]]]]|[[w [s [E N]]]|[Sc L]]].
    + rewrite E in *. destruct (piece_start _ _ _ P) as [d [v [-> _]]].
      destruct (IH (List.length s)) with (src := s) as [[ts T]|[Sc L]]; [cbn; rewrite app_length; lia|easy| |].
      * left. eexists. apply tokens_piece; eassumption.
      * right. split; [now rewrite (scan_piece _ _ _ P)|]. intros o. rewrite <- E.
        eapply leads_loops; [apply probably_nonblank; exact B|]. rewrite E.
        eapply leads_loops; [apply ident_piece; exact P|]. apply L.
    + rewrite E in *.
      destruct (IH (List.length s)) with (src := s) as [[ts T]|[Sc L]]; [cbn; rewrite app_length; cbn; lia|easy| |].
      * left. eexists. apply tokens_quoted; eassumption.
      * right. split; [change (scan Quoted (w ++ dq :: s) = false); now rewrite scan_quoted|].
        intros o. eapply leads_loops; [apply probably_nonblank; reflexivity|].
        eapply leads_loops; [apply ident_quoted; exact N|]. apply L.
    + now right.
Qed.

Theorem readable_iff src : readable src <-> exists ts, tokens_of src ts.
Proof.
  split.
  - intros R. apply readable_scan in R. destruct (lex_dichotomy src) as [H|[H _]]; [easy|congruence].
  - intros [ts T]. now apply tokens_readable in T.
Qed.

(** The source is the token texts with blanks and quotes between them. *)
Definition gap (g : text) : Prop := Forall (fun c => blank c \/ c = dq) g.
Lemma tokens_weave src ts : tokens_of src ts -> exists gaps, List.length gaps = S (List.length ts) /\ Forall gap gaps /\ weave gaps ts = src.
Proof.
  induction 1 as [|b B|b s ts B N T IH|t w s ts P T IH|w s ts N T IH].
  - exists [[]]. repeat constructor.
  - exists [[b]; []]. split; [easy|]. split; [|easy]. constructor; [constructor; [now left|constructor]|]. repeat constructor.
  - destruct IH as [gaps [L [F W]]]. destruct gaps as [|g gaps]; [discriminate|].
    inversion F as [|? ? G F']. subst. exists ((b :: g) :: gaps). split; [easy|]. split.
    + constructor; [constructor; auto|easy].
    + destruct ts; reflexivity.
  - destruct IH as [gaps [L [F W]]]. exists ([] :: gaps). split; [cbn; now rewrite L|]. split; [constructor; [constructor|easy]|].
    cbn [weave ident app]. unfold chars. now rewrite list_ascii_of_string_of_list_ascii, W.
  - destruct IH as [gaps [L [F W]]]. destruct gaps as [|g gaps]; [discriminate|].
    inversion F as [|? ? G F']. subst. exists ([dq] :: (dq :: g) :: gaps). split; [cbn in *; now rewrite <- L|]. split.
    + constructor; [constructor; auto|]. constructor; [constructor; auto|easy].
    + cbn [weave ident app]. unfold chars. rewrite list_ascii_of_string_of_list_ascii. destruct ts; reflexivity.
Qed.

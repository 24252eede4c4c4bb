(** A written program is that program. *)
Require Import ZArith Bool Ascii String List Lia.
Require Import Verif.FactorModel Verif.LexerModel Verif.LexerSpec Verif.LexerProofs Verif.LangSpec Verif.SourceSpec Verif.WriteSpec.
Import ListNotations.
Local Open Scope string_scope.
Local Open Scope list_scope.

Scheme w_exp_mut := Minimality for w_exp Sort Prop with w_exps_mut := Minimality for w_exps Sort Prop.
Combined Scheme w_both from w_exp_mut, w_exps_mut.
Scheme w_stmt_mut := Minimality for w_stmt Sort Prop with w_block_mut := Minimality for w_block Sort Prop.
Combined Scheme w_code from w_stmt_mut, w_block_mut.

(** * In the grammar *)
Lemma show_call f es : show (Call f es) = Tok TCall f :: sign "(" :: show_all es ++ [sign ")"].
Proof. reflexivity. Qed.
Lemma numeral_word s : numeral s -> word s.
Proof. intros [N F]. split; auto. eapply Forall_impl; [|exact F]. intros c H. now left. Qed.
Lemma operand_of e : (match e with Bin _ _ _ => False | _ => True end -> g_operand (show e) e) -> g_chain (show e) e -> g_operand (show_operand e) e.
Proof. intros A B. destruct e; cbn [show_operand]; auto. now apply g_paren. Qed.
Lemma show_grammar :
  (forall e, w_exp e -> (match e with Bin _ _ _ => False | _ => True end -> g_operand (show e) e) /\ g_chain (show e) e) /\
  (forall es, w_exps es -> g_args (show_all es) es).
Proof.
  apply w_both.
  - intros s H. assert (G : g_operand (show (Num s)) (Num s)) by (apply g_num; now apply numeral_word). split; auto. now apply g_last.
  - intros x [H _]. assert (G : g_operand (show (Var x)) (Var x)) by now apply g_var. split; auto. now apply g_last.
  - intros o a b Io _ [A1 A2] _ [_ B]. split; [easy|]. change (show (Bin o a b)) with (show_operand a ++ Tok TArith o :: show b). apply g_link; auto. now apply operand_of.
  - intros e _ [_ B]. assert (G : g_operand (show (Base e)) (Base e)) by now apply g_base. split; auto. now apply g_last.
  - intros f es [W _] N _ A. assert (G : g_operand (show (Call f es)) (Call f es)) by (rewrite show_call; now apply g_call). split; auto. now apply g_last.
  - constructor.
  - intros e es _ [_ B] W A. destruct es as [|e' es]; [now apply g_one|]. change (show_all (e :: e' :: es)) with (show e ++ sign "," :: show_all (e' :: es)). apply g_more; auto. discriminate.
Qed.
Lemma show_chain e : w_exp e -> g_chain (show e) e.
Proof. intros H. now apply show_grammar. Qed.
Lemma show_cond_grammar c : w_cond c -> g_cond (show_cond c) c.
Proof.
  destruct c as [o a b]. intros (Io & A & B). cbn in *. apply g_cmp; auto; [|now apply show_chain]. apply operand_of; now apply show_grammar.
Qed.
Ltac shape := cbn [flat_map show_stmt app]; repeat (rewrite <- app_assoc; cbn [app]).
Lemma show_code :
  (forall t, w_stmt t -> forall rest b, g_block rest b -> (forall c b', t = If c b' -> b <> []) -> g_block (show_stmt t ++ rest) (t :: b)) /\
  (forall b, w_block b -> g_block (flat_map show_stmt b) b).
Proof.
  apply w_code.
  - intros x e [W _] H rest b G _. shape. apply g_decl; auto; [now apply show_chain|now apply g_line|reflexivity].
  - intros x e [W _] H rest b G _. shape. apply g_assign; auto; [now apply show_chain|now apply g_line|reflexivity].
  - intros a b' A B rest b G _. unfold show_stmt. cbn [app]. rewrite <- app_assoc. cbn [app]. apply g_equal; [|now apply g_line|reflexivity].
    apply show_grammar. now repeat constructor.
  - intros f es [W _] N A rest b G _. unfold show_stmt. cbn [app]. rewrite <- app_assoc. cbn [app]. apply g_do; auto; [now apply show_grammar|now apply g_line|reflexivity].
  - intros c x e body C [W _] H _ IH rest b G _. shape. apply (g_for (show_cond c) c x (show e) e 0 (line :: flat_map show_stmt body) body (line :: rest) b); auto using show_cond_grammar, show_chain, g_line.
  - intros c body C _ IH rest b G N. shape. apply (g_if (show_cond c) c (line :: flat_map show_stmt body) body (line :: rest) b); auto using show_cond_grammar, g_line. now apply (N c body).
  - intros x [W _] rest b G _. shape. apply (g_public x [] (line :: rest) b); [now constructor|now apply g_line].
  - constructor.
  - intros e H. shape. apply (g_return (show e) e 1). now apply show_chain.
  - intros t b _ IH _ IHb N. cbn [flat_map]. now apply IH.
Qed.
Lemma listed_params xs : Forall word xs -> g_params (listed xs) xs.
Proof.
  induction 1 as [|x xs W F IH]; [constructor|]. destruct xs as [|y xs]; [now apply g_params_one, g_param_name|].
  change (listed (x :: y :: xs)) with ([Tok TIdent x] ++ sign "," :: listed (y :: xs)). apply (g_params_more _ [x] _ (y :: xs)); [now apply g_param_name|exact IH|]. destruct xs; discriminate.
Qed.
Lemma show_prog_grammar fs : writable fs -> g_prog (show_prog fs ++ [Tok TEOF ""]) fs.
Proof.
  induction 1 as [|[f [ps body]] fs (W & Ps & B) F IH]; [constructor|]. cbn [fst snd fparams fbody] in *. unfold show_prog in *. cbn [flat_map fst snd fparams fbody]. shape.
  apply (g_func TIdent f (listed ps) ps (line :: flat_map show_stmt body) body (line :: flat_map _ fs ++ [Tok TEOF ""]) fs).
  - apply W.
  - apply listed_params. eapply Forall_impl; [|exact Ps]. now intros x [].
  - apply g_line. now apply show_code.
  - now apply g_prog_line.
Qed.

(** * As text *)
Inductive lexeme : ttype -> string -> Prop :=
| lex_number s : numeral s -> lexeme TNumber s
| lex_keyword t s : In (s, t) keywords -> lexeme t s
| lex_name x : a_name x -> lexeme TIdent x
| lex_operator t s : In (s, t) operators -> lexeme t s.
Inductive spelled : list token -> Prop :=
| sp_nil : spelled []
| sp_sign c ts : punctuation c -> spelled ts -> spelled (sign (String c "") :: ts)
| sp_call f ts : a_name f -> spelled (sign "(" :: ts) -> spelled (Tok TCall f :: sign "(" :: ts)
| sp_word t w ts : lexeme t w -> ts <> [] -> spelled ts -> spelled (Tok t w :: ts).
Lemma not_blank_digit : ~ digit " "%char. Proof. cbn. intuition discriminate. Qed.
Lemma not_blank_word : ~ word_char " "%char. Proof. intros H. apply is_word_ok in H. discriminate. Qed.
Lemma chars_back s : string_of_list_ascii (chars s) = s.
Proof. apply string_of_list_ascii_of_string. Qed.
Lemma lexeme_piece t w s : lexeme t w -> piece t (chars w) (" "%char :: s).
Proof.
  intros [n [N F]|u k K|x ([N F] & K & D)|u o O].
  - apply piece_number; auto; [|apply not_blank_digit]. intros E. apply N. rewrite <- (chars_back n), E. reflexivity.
  - apply piece_keyword; [now rewrite chars_back|apply not_blank_word].
  - destruct (chars x) as [|a y] eqn:E; [destruct D|]. apply piece_name; auto; [|apply not_blank_word|discriminate].
    intros t0. rewrite <- E, chars_back. apply K.
  - repeat (destruct O as [O|O]; [injection O as <- <-; first [ apply piece_long; cbn; tauto | apply piece_short; [cbn; tauto|]; intros b s' t' [= <- <-]; cbn; intuition discriminate]|]). destruct O.
Qed.
Lemma lexeme_typ t w : lexeme t w -> ttyp (Tok t w) <> TSyntax /\ ttyp (Tok t w) <> TCall.
Proof.
  intros [n H|u k K|x H|u o O]; try (split; discriminate); cbn [ttyp].
  - repeat (destruct K as [K|K]; [injection K as <- <-; split; discriminate|]). destruct K.
  - repeat (destruct O as [O|O]; [injection O as <- <-; split; discriminate|]). destruct O.
Qed.
Lemma spelled_text ts : spelled ts -> tokens_of (flat_map spell ts) ts /\ (ts <> [] -> flat_map spell ts <> []).
Proof.
  induction 1 as [|c ts P S [IH _]|f ts (W & K & D) S [IH _]|t w ts L N S [IH I2]].
  - split; [constructor|easy].
  - split; [|discriminate]. cbn [flat_map]. unfold spell at 1. cbn [sign ident ttyp]. rewrite app_nil_r. apply (tokens_piece TSyntax [c]); auto. now apply piece_syntax.
  - split.
    + cbn [flat_map] in *. unfold spell at 1. cbn [ident ttyp]. rewrite app_nil_r. assert (E := chars_back f). rewrite <- E at 2. apply tokens_piece; auto.
      destruct (chars f) as [|a y] eqn:Ef; [destruct D|]. destruct W as [_ F]. rewrite Ef in F. apply piece_call; auto. intros t. rewrite E. apply K.
    + intros _ X. destruct W as [W _]. cbn [flat_map] in X. unfold spell at 1 in X. cbn [ident ttyp] in X. destruct (chars f) eqn:Ef; [|discriminate]. now destruct D.
  - destruct (lexeme_typ _ _ L) as [N1 N2]. assert (Es : spell (Tok t w) = chars w ++ [" "%char]) by (unfold spell; cbn [ttyp] in *; destruct t; auto; easy).
    split.
    + cbn [flat_map]. rewrite Es, <- app_assoc. cbn [app]. rewrite <- (chars_back w) at 2. apply tokens_piece; [now apply lexeme_piece|]. apply tokens_blank; auto. now left.
    + intros _. cbn [flat_map]. rewrite Es. destruct (chars w); discriminate.
Qed.
(** What may be followed by anything spelled. *)
Definition prefix (a : list token) : Prop := forall b, b <> [] -> spelled b -> spelled (a ++ b).
Lemma prefix_nil : prefix []. Proof. intros b _ H. exact H. Qed.
Lemma prefix_app a b : prefix a -> prefix b -> prefix (a ++ b).
Proof. intros A B c N S. rewrite <- app_assoc. apply A; [|now apply B]. destruct b, c; try discriminate. easy. Qed.
Lemma prefix_sign s a : (exists c, s = String c "" /\ punctuation c) -> prefix a -> prefix (sign s :: a).
Proof. intros (c & -> & P) A b N S. cbn [app]. apply sp_sign; auto. Qed.
Lemma prefix_word t w a : lexeme t w -> prefix a -> prefix (Tok t w :: a).
Proof. intros L A b N S. cbn [app]. apply sp_word; auto. destruct a, b; try discriminate. easy. Qed.
Lemma prefix_call f a : a_name f -> prefix a -> prefix (Tok TCall f :: sign "(" :: a).
Proof. intros F A b N S. cbn [app]. apply sp_call; auto. apply sp_sign; [right; now left|]. auto. Qed.
Ltac sign_ok := apply prefix_sign; [eexists; split; [reflexivity|]; first [now left|right; cbn; tauto]|].
Lemma name_known s : word s -> (forall t, ~ In (s, t) keywords) -> match chars s with [] => False | c :: _ => ~ digit c end -> a_name s.
Proof. now split. Qed.
Ltac known := split; [split; [discriminate|repeat (constructor; [right; cbn; tauto|]); constructor]|split; [cbn; intuition discriminate|cbn; intuition discriminate]].
Lemma base_name : a_name "scalarBaseMultiply". Proof. known. Qed.
Lemma equal_name : a_name "equal". Proof. known. Qed.
Lemma prefix_operand e : prefix (show e) -> prefix (show_operand e).
Proof. intros P. destruct e; cbn [show_operand]; auto. unfold bracketed. sign_ok. apply prefix_app; auto. sign_ok. apply prefix_nil. Qed.
Lemma show_spelled : (forall e, w_exp e -> prefix (show e)) /\ (forall es, w_exps es -> prefix (show_all es)).
Proof.
  apply w_both.
  - intros s H. apply prefix_word; [now constructor|apply prefix_nil].
  - intros x H. apply prefix_word; [now apply lex_name|apply prefix_nil].
  - intros o a b Io _ A _ B. change (show (Bin o a b)) with (show_operand a ++ Tok TArith o :: show b). apply prefix_app; [now apply prefix_operand|]. apply prefix_word; auto.
    apply lex_operator. repeat (destruct Io as [<-|Io]; [cbn; tauto|]). destruct Io.
  - intros e _ A. change (show (Base e)) with (Tok TCall "scalarBaseMultiply" :: sign "(" :: show e ++ [sign ")"]). apply prefix_call; [apply base_name|]. apply prefix_app; auto. sign_ok. apply prefix_nil.
  - intros f es F _ _ A. rewrite show_call. apply prefix_call; auto. apply prefix_app; auto. sign_ok. apply prefix_nil.
  - apply prefix_nil.
  - intros e es _ A _ B. destruct es as [|e' es]; [exact A|]. change (show_all (e :: e' :: es)) with (show e ++ sign "," :: show_all (e' :: es)). apply prefix_app; auto. sign_ok. exact B.
Qed.
Lemma cond_spelled c : w_cond c -> prefix (show_cond c).
Proof.
  intros (Io & A & B). unfold show_cond. apply prefix_app; [apply prefix_operand; now apply show_spelled|]. apply prefix_word; [|now apply show_spelled].
  apply lex_operator. destruct c as [o a b]. cbn [cop] in *. clear -Io. repeat (destruct Io as [<-|Io]; [cbn; tauto|]). destruct Io.
Qed.
Lemma line_prefix a : prefix a -> prefix (line :: a).
Proof. intros. unfold line. sign_ok. auto. Qed.
Ltac kw := apply prefix_word; [apply lex_keyword; cbn; tauto|].
Ltac op := apply prefix_word; [apply lex_operator; cbn; tauto|].
Ltac nm := apply prefix_word; [now apply lex_name|].
Ltac many := repeat first [assumption | apply prefix_nil | apply line_prefix | kw | op | nm | sign_ok | now apply show_spelled | now apply cond_spelled | apply prefix_app].
Lemma code_spelled : (forall t, w_stmt t -> prefix (show_stmt t)) /\ (forall b, w_block b -> prefix (flat_map show_stmt b)).
Proof.
  apply w_code.
  - intros x e W H. cbn [show_stmt]. many.
  - intros x e W H. cbn [show_stmt]. many.
  - intros a b A B. unfold show_stmt. apply prefix_call; [apply equal_name|]. apply prefix_app; [apply show_spelled; now repeat constructor|]. many.
  - intros f es W N A. unfold show_stmt. apply prefix_call; auto. many.
  - intros c x e b C W H _ IH. cbn [show_stmt]. many.
  - intros c b C _ IH. cbn [show_stmt]. many.
  - intros x W. cbn [show_stmt]. many.
  - apply prefix_nil.
  - intros e H. cbn [flat_map show_stmt]. many.
  - intros t b _ A _ B _. cbn [flat_map]. many.
Qed.
Lemma listed_spelled xs : Forall a_name xs -> prefix (listed xs).
Proof.
  induction 1 as [|x xs W F IH]; [apply prefix_nil|]. destruct xs as [|y xs]; [cbn [listed]; many|]. change (listed (x :: y :: xs)) with (Tok TIdent x :: sign "," :: listed (y :: xs)). many.
Qed.
Lemma prog_spelled fs : writable fs -> spelled (show_prog fs).
Proof.
  induction 1 as [|[f [ps body]] fs (W & Ps & B) F IH]; [constructor|]. cbn [fst snd fparams fbody] in *. unfold show_prog in *. cbn [flat_map fst snd fparams fbody].
  set (rest := flat_map _ fs) in *. assert (S : spelled (line :: rest)) by (apply sp_sign; [now left|exact IH]).
  replace (_ ++ rest) with ((Tok TFuncDef "func" :: Tok TIdent f :: sign "(" :: listed ps ++ sign ")" :: sign "{" :: line :: flat_map show_stmt body ++ [sign "}"]) ++ line :: rest).
  - assert (P : prefix (Tok TFuncDef "func" :: Tok TIdent f :: sign "(" :: listed ps ++ sign ")" :: sign "{" :: line :: flat_map show_stmt body ++ [sign "}"])).
    { kw. nm. sign_ok. apply prefix_app; [now apply listed_spelled|]. sign_ok. sign_ok. apply line_prefix. apply prefix_app; [now apply code_spelled|]. many. }
    apply P; [discriminate|exact S].
  - shape. reflexivity.
Qed.
Lemma no_comment ts : spelled ts -> filter (fun t => match ttyp t with TComment => false | _ => true end) ts = ts.
Proof.
  induction 1 as [|c ts P S IH|f ts F S IH|t w ts L N S IH]; cbn [filter sign ttyp]; [reflexivity|f_equal; exact IH|f_equal; exact IH|].
  rewrite IH. destruct L as [| t w K| |t w O]; auto; cbn [ttyp].
  - repeat (destruct K as [K|K]; [injection K as <- <-; reflexivity|]). destruct K.
  - repeat (destruct O as [O|O]; [injection O as <- <-; reflexivity|]). destruct O.
Qed.
Theorem written fs : writable fs -> is_program (write fs) fs.
Proof.
  intros W. exists (show_prog fs). assert (S := prog_spelled fs W). split.
  - unfold write, chars. rewrite list_ascii_of_string_of_list_ascii. now apply spelled_text.
  - rewrite (no_comment _ S). now apply show_prog_grammar.
Qed.

(** Proofs about programs that consist of several files. *)
Require Import ZArith Lia Bool Ascii String List.
Require Import Verif.SparseModel Verif.FactorModel Verif.LexerModel Verif.LexerSpec Verif.LexerProofs Verif.ParserModel Verif.ParserSpec Verif.ParserProofs
  Verif.LangSpec Verif.SourceSpec Verif.SourceProofs Verif.ImportSpec.
Import ListNotations.
Local Open Scope string_scope.
Local Open Scope list_scope.
Local Open Scope nat_scope.

(** * More steps, the same result *)
Definition leads {A} (a b : option A) : Prop := forall r, a = Some r -> b = Some r.
Lemma leads_bind {A B} (a a' : option A) (f f' : A -> option B) : leads a a' -> (forall x, leads (f x) (f' x)) -> leads (ParserModel.bind a f) (ParserModel.bind a' f').
Proof. intros H F r. destruct a as [x|]; [|discriminate]. cbn. rewrite (H x eq_refl). cbn. apply F. Qed.
Lemma leads_refl {A} (a : option A) : leads a a.
Proof. now intros r. Qed.
Section More.
Variables (go go' : list token -> option sent) (fl fl' : string -> option (list token)).
Hypothesis Go : forall ts, leads (go ts) (go' ts).
Hypothesis Fl : forall x, leads (fl x) (fl' x).
Ltac step := repeat first [exact (leads_refl _) | apply Go | apply Fl
  | apply leads_bind; [|intros]
  | match goal with |- leads (match ?x with _ => _ end) _ => destruct x end].
Lemma if_arm_more k b t ts : leads (if_arm go k b t ts) (if_arm go' k b t ts).
Proof. unfold if_arm. step. Qed.
Lemma else_ifs_more n : forall ts, leads (else_ifs go n ts) (else_ifs go' n ts).
Proof.
  induction n as [|n IH]; intros ts; cbn [else_ifs]; [apply leads_refl|]. destruct ts as [|a r]; [apply leads_refl|]. destruct (ttype_eqb (ttyp a) TElse); [|apply leads_refl].
  destruct r as [|b r]; [apply leads_refl|]. destruct (ttype_eqb (ttyp b) TIf); [|apply leads_refl]. apply leads_bind; [apply if_arm_more|]. intros [s rest]. apply leads_bind; [apply IH|]. intros. step.
Qed.
Lemma statement_more ts : leads (statement go fl ts) (statement go' fl' ts).
Proof.
  destruct ts as [|t0 r0]; [apply leads_refl|]. cbn [statement]. destruct (ttyp t0); try (apply leads_refl).
  all: step.
  all: try (apply if_arm_more).
  all: try (apply else_ifs_more).
Qed.
End More.
Lemma statement_in_more fl fl' : (forall x, leads (fl x) (fl' x)) -> forall n k ts, leads (statement_in fl n ts) (statement_in fl' (n + k) ts).
Proof.
  intros F. induction n as [|n IH]; intros k ts; [discriminate|]. cbn [statement_in Nat.add]. apply statement_more; auto.
Qed.
Lemma load_more files n k x : leads (load files n x) (load files (n + k) x).
Proof.
  intros r. unfold load. destruct (files x) as [text|]; [|discriminate]. destruct (lex n text) as [ts| |] eqn:E; try discriminate. intros [= <-].
  unfold lex in *. now rewrite (run_ret_more _ k _ _ _ E).
Qed.
Lemma parse_files_more files n k text : leads (parse_files files n text) (parse_files files (n + k) text).
Proof.
  intros r. unfold parse_files. destruct (lex n text) as [ts| |] eqn:E; try discriminate. unfold lex in *. rewrite (run_ret_more _ k _ _ _ E).
  destruct (statement_in (load files n) n (stack_all_tokens ts)) as [[cs d]|] eqn:S; [|discriminate]. now rewrite (statement_in_more _ (load files (n + k)) (load_more files n k) n k _ _ S).
Qed.

(** * Files as token lists, with a bound on the steps *)
Inductive s_file (fl : string -> option (list token)) : nat -> list token -> defs -> Prop :=
| s_end : s_file fl 0 [Tok TEOF ""] []
| s_line k ts fs : s_file fl k ts fs -> s_file fl k (line :: ts) fs
| s_func t f ts ps body bs k rest fs : word f -> g_params ts ps -> g_block body bs -> s_file fl k rest fs ->
    s_file fl (S (List.length body + k)) (Tok TFuncDef "func" :: Tok t f :: sign "(" :: ts ++ sign ")" :: sign "{" :: body ++ sign "}" :: rest) ((f, Fun ps bs) :: fs)
| s_import x w k fs k' rest fs' : fl x = Some (w ++ [Tok TEOF ""]) -> s_file fl k (w ++ [Tok TEOF ""]) fs ->
    s_file fl k' rest fs' -> s_file fl (S (k + k')) (Tok TImport "import" :: Tok TIdent x :: rest) (fs ++ fs').
Section Sized.
Variable fl : string -> option (list token).
Notation s_file := (s_file fl).
Lemma s_last k ts fs : s_file k ts fs -> exists w, ts = w ++ [Tok TEOF ""].
Proof.
  induction 1 as [|k ts fs _ [w ->]|t f hs ps body bs k rest fs _ _ _ _ [w ->]|x w k fs k' rest fs' _ _ _ _ [w' ->]]; [now exists []|now exists (line :: w)| |].
  - exists (Tok TFuncDef "func" :: Tok t f :: sign "(" :: hs ++ sign ")" :: sign "{" :: body ++ sign "}" :: w).
    cbn [app]. repeat (rewrite <- app_assoc; cbn [app]). reflexivity.
  - now exists (Tok TImport "import" :: Tok TIdent x :: w').
Qed.
(** One file after the other. *)
Lemma s_append k ts fs : s_file k ts fs -> forall w k' rest fs', ts = w ++ [Tok TEOF ""] -> s_file k' rest fs' -> s_file (k + k') (w ++ rest) (fs ++ fs').
Proof.
  assert (X : forall t (us w : list token), t :: us = w ++ [Tok TEOF ""] -> t <> Tok TEOF "" -> exists w', w = t :: w' /\ us = w' ++ [Tok TEOF ""]).
  { clear. intros t us [|y w] E N; cbn in E; [injection E as -> _; easy|]. injection E as -> ->. now exists w. }
  induction 1 as [|k ts fs G IH|t f hs ps body bs k rest fs Wf W Gb G IH|x w k fs k1 rest fs1 F G1 _ G2 IH]; intros u k' rest' fs' E R.
  - destruct u as [|y u]; [exact R|]. injection E as _ E. now destruct u.
  - apply X in E; [|discriminate]. destruct E as (u' & -> & ->). cbn [app]. apply s_line. now apply IH.
  - destruct (s_last _ _ _ G) as [w ->]. change (Tok TFuncDef "func" :: Tok t f :: sign "(" :: hs ++ sign ")" :: sign "{" :: body ++ sign "}" :: w ++ [Tok TEOF ""])
      with ((Tok TFuncDef "func" :: Tok t f :: [sign "("]) ++ hs ++ (sign ")" :: [sign "{"]) ++ body ++ (sign "}" :: w) ++ [Tok TEOF ""]) in E.
    rewrite !app_assoc in E. apply app_inj_tail in E. destruct E as [E _]. subst u. repeat (rewrite <- app_assoc; cbn [app]). cbn [Nat.add]. rewrite <- Nat.add_assoc.
    apply s_func; auto.
  - apply X in E; [|discriminate]. destruct E as (u1 & -> & E). apply X in E; [|discriminate]. destruct E as (u' & -> & ->). cbn [app Nat.add]. rewrite <- app_assoc, <- Nat.add_assoc. eapply s_import; eauto.
Qed.
Lemma s_trimmed k ts fs : s_file k ts fs -> s_file k (remove_breaks ts) fs /\ starts (remove_breaks ts).
Proof.
  assert (T : forall k ts fs, s_file k ts fs -> remove_trailing_breaks ts = ts).
  { intros j us gs G. destruct (s_last _ _ _ G) as [w ->]. unfold remove_trailing_breaks. rewrite rev_app_distr. reflexivity. }
  intros G. unfold remove_breaks. rewrite (T _ _ _ G). induction G as [|k ts fs G IH| |].
  - split; [constructor|reflexivity].
  - cbn [remove_leading_breaks]. rewrite text_line. exact IH.
  - split; [now constructor|reflexivity].
  - split; [econstructor; eauto|reflexivity].
Qed.
Theorem sized_read n : forall k ts fs, s_file k ts fs -> k < n -> exists cs, statement_in fl n ts = Some (cs, true) /\ enc_prog fs cs.
Proof.
  induction n as [|n IH]; intros k ts fs G L; [lia|]. cbn [statement_in]. destruct (s_trimmed _ _ _ G) as (G' & S').
  set (us := remove_breaks ts) in *. clearbody us. clear G.
  destruct G' as [|k us fs G|t f hs ps body bs k rest fs Wf W Gb G|x w k fs k' rest fs' F G1 G2]; cbn [statement ttyp].
  - exists []. split; [reflexivity|constructor].
  - discriminate S'.
  - change (text_is "(" (sign "(")) with true. cbn [guard ParserModel.bind]. unfold split_at_closing_brackets.
    destruct (params_read _ _ W) as (Si & hc & tr & Ej & F & Hd). rewrite <- Ej in Si.
    assert (P := chains_parse "(" ")" hc tr (sign "{" :: body ++ sign "}" :: rest) (or_introl (conj eq_refl eq_refl)) F Si). rewrite Ej in P. rewrite P. cbn [ParserModel.bind].
    rewrite Hd. cbn [ParserModel.bind]. change (text_is "{" (sign "{")) with true. cbn [guard ParserModel.bind]. rewrite (body_split body bs rest Gb).
    destruct (block_read fl n body bs Gb) as (cb & Eb & Enb); [lia|]. destruct (IH k rest fs G) as (cr & Er & Enr); [lia|]. rewrite Eb. cbn [ParserModel.bind]. rewrite Er. cbn [ParserModel.bind].
    eexists. split; [reflexivity|]. cbn [before after fst snd app ident]. apply enc_fun; auto. split; reflexivity.
  - change (ttype_eqb TIdent TIdent) with true. cbn [guard ParserModel.bind ident]. rewrite F. cbn [ParserModel.bind]. rewrite removelast_last.
    apply (IH (k + k')); [|lia]. now apply (s_append k (w ++ [Tok TEOF ""]) fs G1 w k' rest fs').
Qed.
End Sized.

(** * From the grammar *)
Section Grammar.
Variable files : string -> option string.
Lemma import_name x : x <> String nl "" -> text_is break (Tok TIdent x) = false.
Proof. intros N. unfold text_is. cbn [ident]. now apply String.eqb_neq. Qed.
Lemma file_lines ts fs : g_file files ts fs -> lines ts.
Proof.
  induction 1; [|now constructor| |].
  - apply lines_cons; [reflexivity|constructor].
  - repeat first [apply lines_cons; [reflexivity|] | apply lines_cons; [now apply word_break|] | assumption | apply lines_app
    | (apply quiet_lines; eapply quiet_params; eassumption) | (eapply block_lines; eassumption)].
  - apply lines_cons; [reflexivity|]. apply lines_cons; [now apply import_name|]. assumption.
Qed.
Lemma file_sized ts fs : g_file files ts fs -> forall p x, thin p ts x -> exists m k, forall n, m <= n -> s_file (load files n) k x fs.
Proof.
  induction 1 as [|ts fs G IH|t f hs ps body bs rest fs Wf W Gb G IH|x text ts fs rest fs' N F T G1 IH1 G2 IH2]; intros p l Th.
  - inversion Th as [| | |? ? ? ? ? K]; subst. inversion K; subst. exists 0, 0. intros. constructor.
  - inversion Th; subst; [eauto| |discriminate]. match goal with K : thin true _ _ |- _ => destruct (IH _ _ K) as (m & k & H) end. exists m, k. intros n L. apply s_line. auto.
  - rename Th into T. fixed ((Tok TFuncDef "func" :: Tok t f :: sign "(" :: hs ++ sign ")" :: [sign "{"]) ++ body ++ sign "}" :: rest).
    apply thin_quiet in T; [|loose; apply Forall_app; split; [apply quiet_break; eapply quiet_params; eauto|loose]|discriminate].
    destruct T as (r' & -> & T). apply thin_part in T; [|reflexivity]. destruct T as (body' & rest' & -> & A & T). cbn [app]. repeat (rewrite <- app_assoc; cbn [app]).
    destruct (IH _ _ T) as (m & k & H). exists m, (S (List.length body' + k)). intros n L. apply s_func; eauto using thin_block.
  - change (thin p ([Tok TImport "import"; Tok TIdent x] ++ rest) l) in Th. apply thin_quiet in Th; [|repeat constructor; now apply import_name|discriminate].
    destruct Th as (r' & -> & Th). cbn [app]. destruct (IH2 _ _ Th) as (m2 & k2 & H2).
    assert (C : thin false (without_comments ts ++ [Tok TEOF ""]) (filter kept (next_tokens false ts) ++ [Tok TEOF ""])).
    { apply collapsed; [eapply comment_text; exact T| |auto|intros b; apply thin_other; [reflexivity|constructor]]. apply file_lines in G1. apply Forall_app in G1. apply G1. }
    destruct (IH1 _ _ C) as (m1 & k1 & H1). destruct (lex_complete _ _ T []) as [n0 L0].
    exists (Nat.max n0 (Nat.max m1 m2)), (S (k1 + k2)). intros n L. eapply s_import; [|apply H1; lia|apply H2; lia].
    unfold load. rewrite F. unfold lex. replace n with (n0 + (n - n0)) by lia. unfold chars in L0. rewrite (run_ret_more _ _ _ _ _ L0). f_equal. unfold stack_all_tokens. now rewrite filtered.
Qed.
Theorem files_read text fs : is_program_in files text fs -> exists n0 cs, (forall n, n0 <= n -> parse_files files n text = Some cs) /\ enc_prog fs cs.
Proof.
  intros (ts & T & G).
  assert (C : thin false (without_comments ts ++ [Tok TEOF ""]) (filter kept (next_tokens false ts) ++ [Tok TEOF ""])).
  { apply collapsed; [eapply comment_text; exact T| |auto|intros b; apply thin_other; [reflexivity|constructor]]. assert (G' := G). apply file_lines in G'. apply Forall_app in G'. apply G'. }
  destruct (file_sized _ _ G _ _ C) as (m & k & H). destruct (lex_complete _ _ T []) as [n1 L0].
  set (n0 := S (Nat.max n1 (Nat.max m k))). destruct (sized_read (load files n0) n0 k _ _ (H n0 ltac:(lia)) ltac:(lia)) as (cs & E & En).
  assert (P : parse_files files n0 text = Some cs).
  { assert (Lx : lex n0 text = SparseModel.Ret ts) by (unfold lex; replace n0 with (n1 + (n0 - n1)) by lia; exact (run_ret_more _ _ _ _ _ L0)). unfold parse_files. rewrite Lx.
    replace (stack_all_tokens ts) with (filter kept (next_tokens false ts) ++ [Tok TEOF ""]) by (unfold stack_all_tokens; now rewrite filtered). now rewrite E. }
  exists n0, cs. split; auto. intros n L. replace n with (n0 + (n - n0)) by lia. now apply parse_files_more.
Qed.
(** * Files that import each other *)
Lemma begins_trim ts x : begins ts x -> x <> String nl "" -> exists rest, remove_breaks ts = Tok TImport "import" :: Tok TIdent x :: rest.
Proof.
  intros (k & rest & ->) N. unfold remove_breaks.
  assert (D : forall r, remove_leading_breaks (repeat line k ++ Tok TImport "import" :: Tok TIdent x :: r) = Tok TImport "import" :: Tok TIdent x :: r).
  { intros r. induction k as [|k IH]; cbn [repeat app remove_leading_breaks]; [reflexivity|]. rewrite text_line. exact IH. }
  unfold remove_trailing_breaks. destruct rest as [|t rest _] using rev_ind.
  - replace (repeat line k ++ [Tok TImport "import"; Tok TIdent x]) with ((repeat line k ++ [Tok TImport "import"]) ++ [Tok TIdent x]) by (now rewrite <- app_assoc).
    rewrite rev_app_distr. cbn [rev app]. rewrite (import_name x N), <- app_assoc. cbn [app]. rewrite D. eauto.
  - replace (repeat line k ++ Tok TImport "import" :: Tok TIdent x :: rest ++ [t]) with ((repeat line k ++ Tok TImport "import" :: Tok TIdent x :: rest) ++ [t]) by (now rewrite <- app_assoc).
    rewrite rev_app_distr. change (rev [t]) with [t]. cbn [app]. destruct (text_is break t); [rewrite rev_involutive, D; exists rest; reflexivity|]. rewrite <- app_assoc. cbn [app]. rewrite D. eauto.
Qed.
Lemma begins_glue ts x rest : begins (stack_all_tokens ts) x -> begins (removelast (stack_all_tokens ts) ++ rest) x.
Proof.
  intros (k & r & E). assert (L : exists w, stack_all_tokens ts = w ++ [Tok TEOF ""]) by (unfold stack_all_tokens; eauto). destruct L as [w Ew]. rewrite Ew in *. rewrite removelast_last.
  destruct r as [|t r] using rev_ind.
  - replace (repeat line k ++ [Tok TImport "import"; Tok TIdent x]) with ((repeat line k ++ [Tok TImport "import"]) ++ [Tok TIdent x]) in E by (now rewrite <- app_assoc).
    apply app_inj_tail in E. destruct E as [_ E]. discriminate.
  - replace (repeat line k ++ Tok TImport "import" :: Tok TIdent x :: r ++ [t]) with ((repeat line k ++ Tok TImport "import" :: Tok TIdent x :: r) ++ [t]) in E by (now rewrite <- app_assoc).
    apply app_inj_tail in E. destruct E as [-> _]. exists k, (r ++ rest). now rewrite <- app_assoc.
Qed.
Theorem import_cycle (P : string -> Prop) :
  (forall x, P x -> x <> String nl "" /\ forall text n ts, files x = Some text -> lex n text = SparseModel.Ret ts -> exists y, P y /\ begins (stack_all_tokens ts) y) ->
  forall m n ts x, P x -> begins ts x -> statement_in (load files m) n ts = None.
Proof.
  intros H m. induction n as [|n IH]; intros ts x Px B; [reflexivity|]. cbn [statement_in]. destruct (H x Px) as [N Hx]. destruct (begins_trim _ _ B N) as [rest ->].
  cbn [statement ttyp]. change (ttype_eqb TIdent TIdent) with true. cbn [guard ParserModel.bind ident]. destruct (load files m x) as [toks|] eqn:E; [|reflexivity]. cbn [ParserModel.bind].
  unfold load in E. destruct (files x) as [text|] eqn:F; [|discriminate]. destruct (lex m text) as [ts'| |] eqn:El; try discriminate. injection E as <-.
  destruct (Hx _ _ _ eq_refl El) as (y & Py & By). eapply IH; [exact Py|]. now apply begins_glue.
Qed.
End Grammar.
(** Texts that need no files. *)
Lemma plain_file files ts fs : g_prog ts fs -> g_file files ts fs.
Proof. induction 1; now constructor. Qed.
Lemma plain_append files ts fs : g_prog ts fs -> forall w rest fs', ts = w ++ [Tok TEOF ""] -> g_file files rest fs' -> g_file files (w ++ rest) (fs ++ fs').
Proof.
  induction 1 as [|ts fs G IH|t f hs ps body bs rest fs Wf W Gb G IH]; intros u rest' fs' E R.
  - destruct u as [|y u]; [exact R|]. injection E as _ E. now destruct u.
  - destruct u as [|y u]; cbn [app] in E; [discriminate|]. injection E as <- ->. cbn [app]. apply f_line. now apply IH.
  - destruct (prog_last _ _ G) as [w ->]. change (Tok TFuncDef "func" :: Tok t f :: sign "(" :: hs ++ sign ")" :: sign "{" :: body ++ sign "}" :: w ++ [Tok TEOF ""])
      with ((Tok TFuncDef "func" :: Tok t f :: [sign "("]) ++ hs ++ (sign ")" :: [sign "{"]) ++ body ++ (sign "}" :: w) ++ [Tok TEOF ""]) in E.
    rewrite !app_assoc in E. apply app_inj_tail in E. destruct E as [E _]. subst u. repeat (rewrite <- app_assoc; cbn [app]). apply f_func; auto.
Qed.

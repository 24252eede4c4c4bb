(** The parser reads programs of the grammar. *)
Require Import ZArith Bool Ascii String List Lia Arith.
Require Import Verif.SparseModel Verif.FactorModel Verif.LexerModel Verif.LexerSpec Verif.LexerProofs Verif.ParserModel Verif.ParserSpec Verif.ParserProofs.
Require Import Verif.LangSpec Verif.SourceSpec.
Import ListNotations.
Local Open Scope nat_scope.
Local Open Scope string_scope.
Local Open Scope list_scope.

Scheme g_operand_ind2 := Induction for g_operand Sort Prop
  with g_chain_ind2 := Induction for g_chain Sort Prop
  with g_args_ind2 := Induction for g_args Sort Prop
  with g_indices_ind2 := Induction for g_indices Sort Prop.
Combined Scheme g_exp_ind from g_operand_ind2, g_chain_ind2, g_args_ind2, g_indices_ind2.

(** * Words *)
Definition special : list string := ["("; ")"; "["; "]"; "{"; "}"; ","; break; ";"; "="].
Lemma word_special s : word s -> ~ In s special.
Proof.
  intros [N F] H. assert (B : forallb is_word (list_ascii_of_string s) = true).
  { apply forallb_forall. rewrite Forall_forall in F. intros c Hc. now apply is_word_ok, F. }
  unfold special in H. cbn [In] in H. repeat (destruct H as [<-|H]; [vm_compute in B; discriminate|]). exact H.
Qed.
Lemma word_solid s : word s -> solid s.
Proof. intros W H. apply (word_special s W). unfold solid, special in *. cbn [In] in *. unfold break, newline. tauto. Qed.

(** * Expressions *)
(** The tree of an expression is an encoding of it. *)
Definition encodes (a : ast) (e : exp) : Prop := forall t, reads t a -> enc e t.
Definition quiet (ts : list token) : Prop := Forall (fun t => text_is ";" t = false /\ text_is "=" t = false /\ text_is "{" t = false /\ text_is break t = false) ts.
Lemma quiet_app a b : quiet a -> quiet b -> quiet (a ++ b).
Proof. intros. apply Forall_app. now split. Qed.
Lemma quiet_word t w : word w -> quiet [Tok t w].
Proof.
  intros H. constructor; [|constructor]. assert (S := word_special w H). unfold special in S. cbn [In] in S.
  unfold text_is. cbn [ident]. repeat split; apply String.eqb_neq; intros ->; tauto.
Qed.
Lemma quiet_sign s : In s ["("; ")"; ","; "["; "]"] -> quiet [sign s].
Proof. cbn [In]. intros [<-|[<-|[<-|[<-|[<-|[]]]]]]; (constructor; [|constructor]); repeat split. Qed.
Lemma arith_solid o : In o ["+"; "-"; "*"; "/"] -> solid o.
Proof. cbn [In]. intros [<-|[<-|[<-|[<-|[]]]]] H; cbn [In] in H; repeat (destruct H as [H|H]; [discriminate|]); exact H. Qed.
Lemma quiet_arith o : In o ["+"; "-"; "*"; "/"] -> quiet [Tok TArith o].
Proof. cbn [In]. intros [<-|[<-|[<-|[<-|[]]]]]; (constructor; [|constructor]); repeat split. Qed.
Lemma cmp_solid o : In o ["=="; "!="; "<"; "<="; ">"; ">="] -> solid o.
Proof. cbn [In]. intros [<-|[<-|[<-|[<-|[<-|[<-|[]]]]]]] H; cbn [In] in H; repeat (destruct H as [H|H]; [discriminate|]); exact H. Qed.
Lemma quiet_cmp o : In o ["=="; "!="; "<"; "<="; ">"; ">="] -> quiet [Tok TCompare o].
Proof. cbn [In]. intros [<-|[<-|[<-|[<-|[<-|[<-|[]]]]]]]; (constructor; [|constructor]); repeat split. Qed.

Lemma grammar_chain :
  (forall ts e, g_operand ts e -> quiet ts /\ exists o, wfo o /\ printo o = ts /\ encodes (meano o) e) /\
  (forall ts e, g_chain ts e -> quiet ts /\ exists c, wfc c /\ printc c = ts /\ encodes (meanc c) e) /\
  (forall ts es, g_args ts es -> quiet ts /\ exists cs, Forall wfc cs /\ join cs = ts /\ (es <> [] -> cs <> []) /\ (es = [] -> cs = []) /\ Forall2 encodes (map meanc cs) es) /\
  (forall ts es, g_indices ts es -> quiet ts /\ exists cs, Forall wfc cs /\ cs <> [] /\ flat_map (fun c => syn "[" :: printc c ++ [syn "]"]) cs = ts /\ Forall2 encodes (map meanc cs) es).
Proof.
  apply g_exp_ind.
  - intros s W. split; [now apply quiet_word|]. exists (Leaf (Tok TNumber s)). split; [split; [now left|now apply word_solid]|]. split; auto.
    intros t R. cbn [meano] in R. remember (ALeaf (Tok TNumber s)) as a eqn:E. induction R; try discriminate; [injection E as ->; constructor|apply enc_wrap; auto].
  - intros x W. split; [now apply quiet_word|]. exists (Leaf (Tok TIdent x)). split; [split; [now right|now apply word_solid]|]. split; auto.
    intros t R. cbn [meano] in R. remember (ALeaf (Tok TIdent x)) as a eqn:E. induction R; try discriminate; [injection E as ->; constructor|apply enc_wrap; auto].
  - intros ts e _ [Q (c & Wc & <- & En)]. split; [apply (quiet_app [_]); [apply quiet_sign; now left|apply quiet_app; auto; apply quiet_sign; right; now left]|].
    exists (Paren c). split; auto.
  - intros ts e _ [Q (c & Wc & <- & En)]. split.
    { apply (quiet_app [_]); [constructor; [|constructor]; repeat split|]. apply (quiet_app [_]); [apply quiet_sign; now left|apply quiet_app; auto; apply quiet_sign; right; now left]. }
    exists (ParserSpec.Call "scalarBaseMultiply" [c]). split; [apply wf_call; split; [|now constructor]|].
    { intros H. cbn [In] in H. repeat (destruct H as [H|H]; [discriminate|]). exact H. }
    split; [reflexivity|]. intros t R. cbn [meano map] in R. remember (ACall "scalarBaseMultiply" [meanc c]) as a eqn:E.
    induction R; try discriminate; [apply enc_wrap; auto|]. injection E as -> ->. inversion H as [|u ? us ? Hu Hus]; subst. inversion Hus; subst. apply enc_base. now apply En.
  - intros f ts es W Nf _ [Q (cs & Wc & <- & _ & _ & En)]. split.
    { apply (quiet_app [_]); [now apply quiet_word|]. apply (quiet_app [_]); [apply quiet_sign; now left|apply quiet_app; auto; apply quiet_sign; right; now left]. }
    exists (ParserSpec.Call f cs). split; [apply wf_call; split; auto; now apply word_solid|]. split; [reflexivity|].
    intros t R. cbn [meano] in R. remember (ACall f (map meanc cs)) as a eqn:E. induction R; try discriminate; [apply enc_wrap; auto|].
    injection E as -> ->. apply enc_call. clear -En H. revert cs0 H. induction En as [|a e l es Ha _ IH]; intros us Hu; inversion Hu; subst; constructor; auto.
  - intros a ts es W _ [Q (cs & Wc & Nc & <- & En)]. split; [apply (quiet_app [_]); auto; now apply quiet_word|].
    destruct cs as [|i more]; [easy|]. exists (ParserSpec.Index a i more). split; [apply wf_index; split; auto; now apply word_solid|]. split.
    { cbn [printo flat_map app]. rewrite <- app_assoc. reflexivity. }
    intros t R. cbn [meano] in R. remember (AIndex a (meanc i :: map meanc more)) as x eqn:E. induction R; try discriminate; [apply enc_wrap; auto|].
    injection E as -> ->. apply enc_idx. cbn [map] in En. clear -En H. revert cs H. induction En as [|x e l es Ha _ IH]; intros us Hu; inversion Hu; subst; constructor; auto.
  - intros ts e _ [Q (o & Wo & <- & En)]. split; auto. exists (Last o). auto.
  - intros ts e o ts' e' _ [Q (l & Wl & <- & El)] Ho _ [Q' (c & Wc & <- & Ec)]. split.
    { apply quiet_app; auto. apply (quiet_app [_]); auto. now apply quiet_arith. }
    exists (Link l (Tok TArith o) c). split; [split; auto; split; [right; now left|split; auto; now apply arith_solid]|]. split; [reflexivity|].
    intros t R. cbn [meanc] in R. remember (ABin (Tok TArith o) (meano l) (meanc c)) as a eqn:E. induction R; try discriminate; [apply enc_wrap; auto|].
    injection E as -> -> ->. apply enc_bin; auto.
  - split; [constructor|]. exists []. split; [constructor|]. split; [reflexivity|]. split; [now intros []|]. split; auto. constructor.
  - intros ts e _ [Q (c & Wc & <- & En)]. split; auto. exists [c]. split; [now constructor|]. split; [reflexivity|]. split; [discriminate|]. split; [discriminate|]. cbn [map]. now repeat constructor.
  - intros ts e ts' es _ [Q (c & Wc & <- & En)] _ [Q' (cs & Ws & <- & N1 & N2 & Es)] Ne. split.
    { apply quiet_app; auto. apply (quiet_app [_]); auto. apply quiet_sign. right; right; now left. }
    exists (c :: cs). split; [now constructor|]. split; [|split; [discriminate|split; [discriminate|now constructor]]].
    destruct cs; [now destruct (N1 Ne)|reflexivity].
  - intros ts e _ [Q (c & Wc & <- & En)]. split.
    { apply (quiet_app [_]); [apply quiet_sign; cbn; tauto|apply quiet_app; auto; apply quiet_sign; cbn; tauto]. }
    exists [c]. split; [now constructor|]. split; [discriminate|]. cbn [flat_map map]. rewrite app_nil_r. split; [reflexivity|]. now repeat constructor.
  - intros ts e ts' es _ [Q (c & Wc & <- & En)] _ [Q' (cs & Ws & Nc & <- & Es)]. split.
    { apply (quiet_app [_]); [apply quiet_sign; cbn; tauto|]. apply quiet_app; auto. apply (quiet_app [_]); auto. apply quiet_sign; cbn; tauto. }
    exists (c :: cs). split; [now constructor|]. split; [discriminate|]. cbn [flat_map map]. split; [|now constructor]. cbn [app]. rewrite <- app_assoc. reflexivity.
Qed.
Lemma args_read ts es : g_args ts es -> quiet ts /\ exists cs, Forall wfc cs /\ join cs = ts /\ (es <> [] -> cs <> []) /\ (es = [] -> cs = []) /\ Forall2 encodes (map meanc cs) es.
Proof. apply grammar_chain. Qed.
Lemma quiet_indices ts es : g_indices ts es -> quiet ts.
Proof. intros G. now apply (proj2 (proj2 (proj2 grammar_chain))) in G. Qed.
Lemma chain_read ts e : g_chain ts e -> quiet ts /\ exists c, wfc c /\ printc c = ts /\ encodes (meanc c) e.
Proof. apply grammar_chain. Qed.
Lemma chain_parse ts e : g_chain ts e -> exists t, parse_expression ts = Some t /\ enc e t.
Proof.
  intros G. destruct (chain_read _ _ G) as (_ & c & W & <- & En). destruct (parse_expression_ok c W) as (t & E & R). exists t. split; auto.
Qed.

(** The parser's result is never a node that only passes its child on. *)
Lemma parse_no_wrap n ts s c : parse_expr n ts <> Some (Con (Tok TUnassigned s) [c]).
Proof.
  destruct n as [|n]; [discriminate|]. cbn [parse_expr]. destruct (strip_of_brackets ts) as [[|t0 [|t1 r]]|]; try discriminate.
  - destruct (ttyp t0) eqn:E; try discriminate; intros [= ->]; discriminate.
  - destruct (split_top_operator 0 0 (t0 :: t1 :: r)) as [[[l o] r']|].
    + destruct (strip_of_brackets l), (strip_of_brackets r'); try discriminate. destruct (parse_expr n l0), (parse_expr n l1); try discriminate.
    + destruct (ttyp t0) eqn:T.
      all: try (destruct (text_is "[" t1 && text_is "]" (last (t0 :: t1 :: r) t1)); [|discriminate]; destruct (indices_loop _ _ _); discriminate).
      destruct (argument_parse _ _ _) as [[cs [|x y]]|]; try discriminate. intros [= -> _]. discriminate.
Qed.
Lemma cond_read ts c : g_cond ts c -> quiet ts /\ exists d, wfc d /\ printc d = ts /\ exists l r, meanc d = ABin (Tok TCompare (cop c)) l r /\ encodes l (cleft c) /\ encodes r (cright c).
Proof.
  induction 1 as [ts e o ts' e' Gl Ho Gr|ts c G [Q (d & W & <- & M)]].
  - destruct (proj1 grammar_chain _ _ Gl) as [Q (l & Wl & <- & El)]. destruct (chain_read _ _ Gr) as [Q' (r & Wr & <- & Er)]. split.
    { apply quiet_app; auto. apply (quiet_app [_]); auto. now apply quiet_cmp. }
    exists (Link l (Tok TCompare o) r). split; [split; auto; split; [now left|split; auto; now apply cmp_solid]|]. split; [reflexivity|]. cbn [meanc cop cleft cright]. eauto.
  - split; [apply (quiet_app [_]); [apply quiet_sign; now left|apply quiet_app; auto; apply quiet_sign; right; now left]|].
    exists (Last (Paren d)). auto.
Qed.
Lemma cond_parse ts c : g_cond ts c -> exists t, parse_expression ts = Some t /\ enc_cond c t.
Proof.
  intros G. destruct (cond_read _ _ G) as (_ & d & W & <- & l & r & M & El & Er). destruct (parse_expression_ok d W) as (t & E & R). exists t. split; auto.
  rewrite M in R. inversion R; subst.
  - now destruct (parse_no_wrap _ _ _ _ E).
  - destruct c. apply enc_cmp; [now apply El|now apply Er].
Qed.

(** * Splitting *)
Lemma split_quiet s ts rest : Forall (fun t => text_is s t = false) ts -> (rest = [] \/ exists t r, rest = t :: r /\ text_is s t = true) ->
  split_at_string s (ts ++ rest) = (ts, rest).
Proof.
  intros F R. induction F as [|t ts H F IH]; cbn [app split_at_string].
  - destruct R as [->|(t & r & -> & E)]; [reflexivity|]. cbn [split_at_string]. now rewrite E.
  - now rewrite H, IH.
Qed.
Lemma quiet_semi ts : quiet ts -> Forall (fun t => text_is ";" t = false) ts.
Proof. apply Forall_impl. tauto. Qed.
Lemma quiet_eq ts : quiet ts -> Forall (fun t => text_is "=" t = false) ts.
Proof. apply Forall_impl. tauto. Qed.
Lemma quiet_swing ts : quiet ts -> Forall (fun t => text_is "{" t = false) ts.
Proof. apply Forall_impl. tauto. Qed.
Lemma quiet_break ts : quiet ts -> Forall (fun t => text_is break t = false) ts.
Proof. apply Forall_impl. tauto. Qed.
Lemma line_split ts rest : Forall (fun t => text_is break t = false) ts -> line_ends rest -> split_at_string break (ts ++ rest) = (ts, rest).
Proof. intros F L. apply split_quiet; auto. destruct rest as [|t r]; auto. right. exists t, r. split; auto. cbn in L. subst t. reflexivity. Qed.

(** * Line ends around a block *)
Lemma text_line : text_is break line = true. Proof. reflexivity. Qed.
(** Either nothing is left or the first token does not end a line. *)
Definition starts (ts : list token) : Prop := match ts with [] => True | t :: _ => text_is break t = false end.
Lemma word_break t w : word w -> text_is break (Tok t w) = false.
Proof. intros W. assert (Q := quiet_word t w W). inversion Q; subst. tauto. Qed.
Lemma leading_starts ts : starts (remove_leading_breaks ts).
Proof. induction ts as [|t ts IH]; cbn [remove_leading_breaks]; [exact I|]. destruct (text_is break t) eqn:E; auto. Qed.
Lemma leading_id ts : starts ts -> remove_leading_breaks ts = ts.
Proof. destruct ts as [|t ts]; auto. cbn. now intros ->. Qed.
Lemma leading ts b : g_block ts b -> g_block (remove_leading_breaks ts) b.
Proof.
  induction 1.
  2: exact IHg_block.
  all: rewrite leading_id; [now econstructor; eauto|try reflexivity; try exact I; cbn [starts]; now apply word_break].
Qed.
Lemma cut_line p t rest ts : text_is break t = false -> p ++ t :: rest = ts ++ [line] -> exists rest', rest = rest' ++ [line] /\ ts = p ++ t :: rest'.
Proof.
  intros T E. destruct rest as [|x rest _] using rev_ind.
  - apply app_inj_tail in E. destruct E as [_ ->]. discriminate.
  - change (p ++ t :: rest ++ [x]) with (p ++ (t :: rest) ++ [x]) in E. rewrite app_assoc in E. apply app_inj_tail in E. destruct E as [<- ->]. eauto.
Qed.
Lemma chain_end ts e : g_chain ts e -> exists w t, ts = w ++ [t] /\ text_is break t = false.
Proof. intros G. destruct (chain_read _ _ G) as (_ & c & W & <- & _). destruct (chain_last c W) as (t & w & -> & T). eauto. Qed.
Lemma cut_chain p ts e rest l : g_chain ts e -> p ++ ts ++ rest = l ++ [line] -> exists rest', rest = rest' ++ [line] /\ l = p ++ ts ++ rest'.
Proof.
  intros G E. destruct (chain_end _ _ G) as (w & t & -> & T). rewrite <- !app_assoc in *. cbn [app] in *.
  rewrite app_assoc in E. destruct (cut_line (p ++ w) t rest l T E) as (rest' & -> & ->). exists rest'. split; auto. repeat rewrite <- app_assoc. reflexivity.
Qed.
Lemma line_ends_cut rest : line_ends (rest ++ [line]) -> line_ends rest.
Proof. destruct rest; [intros _; exact I|auto]. Qed.
Lemma repeat_cut n l : repeat line n = l ++ [line] -> exists m, l = repeat line m.
Proof.
  destruct n as [|n]; [now destruct l|]. intros E. exists n. cbn [repeat] in E. rewrite repeat_cons in E. now apply app_inj_tail in E.
Qed.
Lemma trailing_line ts b : g_block ts b -> forall l, ts = l ++ [line] -> g_block l b.
Proof.
  induction 1; intros l El.
  - now destruct l.
  - destruct l as [|t l]; [|injection El as <- El; apply g_line; now apply IHg_block]. injection El as ->. apply H.
  - apply (cut_chain [_; _; _] ts e rest l H0) in El. destruct El as (rest' & -> & ->). apply (g_decl x ts e rest' b); auto. now apply line_ends_cut.
  - apply (cut_chain [_; _] ts e rest l H0) in El. destruct El as (rest' & -> & ->). apply (g_assign x ts e rest' b); auto. now apply line_ends_cut.
  - apply (cut_line (_ :: _ :: ts)) in El; [|reflexivity]. destruct El as (rest' & -> & ->). apply (g_equal ts e e' rest' b); auto. now apply line_ends_cut.
  - apply (cut_line (_ :: _ :: ts)) in El; [|reflexivity]. destruct El as (rest' & -> & ->). apply (g_do f ts es rest' b); auto. now apply line_ends_cut.
  - apply (cut_chain [_] ts e _ l H) in El. destruct El as (rest' & E & ->). destruct (repeat_cut _ _ E) as [m ->]. now apply (g_return ts e m).
  - match type of El with ?L = _ => replace L with ((Tok TFor "for" :: sign "(" :: ts ++ sign ";" :: Tok TIdent x :: Tok TAssign "=" :: ts' ++ sign ")" :: repeat line n ++ sign "{" :: body) ++ sign "}" :: rest) in El end.
    2:{ cbn [app]. repeat (rewrite <- app_assoc; cbn [app]). reflexivity. }
    apply cut_line in El; [|reflexivity]. destruct El as (rest' & -> & ->).
    cbn [app]. repeat (rewrite <- app_assoc; cbn [app]). apply (g_for ts c x ts' e n body bs rest' b); auto.
  - match type of El with ?L = _ => replace L with ((Tok TIf "if" :: ts ++ sign "{" :: body) ++ sign "}" :: rest) in El end.
    2:{ cbn [app]. repeat (rewrite <- app_assoc; cbn [app]). reflexivity. }
    apply cut_line in El; [|reflexivity]. destruct El as (rest' & -> & ->). cbn [app]. repeat (rewrite <- app_assoc; cbn [app]). apply (g_if ts c body bs rest' b); auto.
  - apply (cut_line (_ :: _ :: listed (x :: xs))) in El; [|reflexivity]. destruct El as (rest' & -> & ->). cbn [app]. apply (g_public x xs rest' b); auto.
  - change (Tok TIdent a :: ts ++ Tok TAssign "=" :: ts' ++ rest) with ((Tok TIdent a :: ts) ++ [Tok TAssign "="] ++ ts' ++ rest) in El. rewrite app_assoc in El.
    apply (cut_chain _ ts' e rest l H1) in El. destruct El as (rest' & -> & ->). rewrite <- app_assoc. apply (g_put a ts es ts' e rest' b); auto. now apply line_ends_cut.
  - apply (cut_line (_ :: _ :: _ :: _ :: _ :: _ :: ts)) in El; [|reflexivity]. destruct El as (rest' & -> & ->). cbn [app]. apply (g_array x ts es rest' b); auto. now apply line_ends_cut.
Qed.
(** Only the end of a line is written like one. *)
Definition lines (ts : list token) : Prop := Forall (fun t => text_is break t = true -> t = line) ts.
Lemma quiet_lines ts : quiet ts -> lines ts.
Proof. apply Forall_impl. intros t H E. destruct H as (_ & _ & _ & H). congruence. Qed.
Lemma lines_repeat n : lines (repeat line n).
Proof. apply Forall_forall. intros t H _. now apply repeat_spec in H. Qed.
Lemma lines_app a b : lines a -> lines b -> lines (a ++ b).
Proof. intros. apply Forall_app. now split. Qed.
Lemma lines_cons t b : text_is break t = false -> lines b -> lines (t :: b).
Proof. intros. constructor; auto. congruence. Qed.
Lemma quiet_args ts es : g_args ts es -> quiet ts.
Proof. intros G. now apply args_read in G. Qed.
Lemma quiet_listed xs : Forall word xs -> quiet (listed xs).
Proof.
  induction 1 as [|x xs W F IH]; [constructor|]. destruct xs as [|y xs]; [now apply quiet_word|]. change (listed (x :: y :: xs)) with ([Tok TIdent x] ++ [sign ","] ++ listed (y :: xs)).
  apply quiet_app; [now apply quiet_word|]. apply quiet_app; [apply quiet_sign; right; right; now left|exact IH].
Qed.
Lemma block_lines ts b : g_block ts b -> lines ts.
Proof.
  induction 1; repeat first [apply lines_repeat | apply lines_cons; [reflexivity|] | apply lines_cons; [now apply word_break|] | assumption | apply lines_app
    | (apply quiet_lines; eapply quiet_args; eassumption) | (apply quiet_lines; eapply quiet_indices; eassumption) | (apply quiet_lines; now apply (chain_read _ _ ltac:(eassumption))) | (apply quiet_lines; now apply (cond_read _ _ ltac:(eassumption))) | (apply quiet_lines; now apply quiet_listed)].
  - constructor.
  - constructor; auto.
Qed.
Lemma trimmed ts b : g_block ts b -> g_block (remove_breaks ts) b /\ starts (remove_breaks ts) /\ List.length (remove_breaks ts) <= List.length ts.
Proof.
  assert (LL : forall l, List.length (remove_leading_breaks l) <= List.length l).
  { induction l as [|t l IH]; cbn [remove_leading_breaks]; auto. destruct (text_is break t); cbn [List.length]; lia. }
  intros G. unfold remove_breaks. assert (K : g_block (remove_trailing_breaks ts) b /\ List.length (remove_trailing_breaks ts) <= List.length ts).
  { unfold remove_trailing_breaks. destruct (rev ts) as [|t r] eqn:E; [split; [|cbn; lia]|].
    - destruct ts; [exact G|]. apply (f_equal (@List.length _)) in E. rewrite rev_length in E. discriminate.
    - destruct (text_is break t) eqn:T; [|now split]. assert (Et : ts = rev r ++ [t]) by (rewrite <- (rev_involutive ts), E; reflexivity).
      rewrite Et, app_length, rev_length. split; [|assert (X := LL (rev r)); rewrite rev_length in X; lia].
      apply leading. apply (trailing_line ts b G). rewrite Et. f_equal. f_equal. assert (X := block_lines _ _ G). rewrite Et in X. apply Forall_app in X. destruct X as [_ X]. inversion X; auto. }
  destruct K as [K L]. split; [now apply leading|]. split; [apply leading_starts|]. assert (X := LL (remove_trailing_breaks ts)). lia.
Qed.

(** * Arguments *)
Lemma arguments_read args fuel : Forall wfc args -> args <> [] -> List.length (join args) < fuel ->
  exists cs, arguments_loop parse_expression fuel (join args) = Some cs /\ Forall2 reads cs (map meanc args).
Proof.
  revert fuel. induction args as [|c l IH]; intros fuel W N L; [easy|]. destruct fuel as [|fuel]; [lia|].
  inversion W as [|? ? Wc Wl]. destruct (parse_expression_ok c Wc) as (t & Et & Rt). subst. cbn [arguments_loop].
  destruct l as [|c' l].
  - cbn [join]. assert (E := covers_chain c Wc 0%Z [] ltac:(lia)). rewrite app_nil_r in E. rewrite E. unfold prepend2. cbn [split_top_string fst snd].
    rewrite app_nil_r, chain_breaks, Et by exact Wc. exists [t]. split; [easy|]. now repeat constructor.
  - change (join (c :: c' :: l)) with (printc c ++ syn "," :: join (c' :: l)) in *.
    rewrite (covers_chain c Wc) by lia. unfold prepend2.
    change (split_top_string "," 0 (syn "," :: join (c' :: l))) with (@nil token, join (c' :: l)). cbn [fst snd].
    rewrite app_nil_r, chain_breaks, Et by exact Wc.
    destruct (IH fuel Wl) as [cs [E R]]; [easy|rewrite app_length in L; cbn [List.length] in L; lia|].
    exists (t :: cs). rewrite E. split; [|now constructor].
    destruct (join (c' :: l)) as [|x y] eqn:J; [|easy]. exfalso. inversion Wl as [|? ? Wc' _]. subst.
    destruct (chain_first c' Wc') as [t' [w' [E' _]]]. destruct l; cbn in J; rewrite E' in J; discriminate.
Qed.
Lemma join_nonempty args : Forall wfc args -> args <> [] -> join args <> [].
Proof.
  intros W N. destruct args as [|c l]; [easy|]. inversion W; subst. destruct (chain_first c H1) as (t & w & E & _). destruct l; cbn [join]; rewrite E; discriminate.
Qed.
Lemma passes_join op cl args : bracket_pair op cl -> Forall wfc args -> passes op cl (join args).
Proof.
  intros B. induction args as [|c l IH]; intros W; [apply passes_nil|]. inversion W; subst. destruct l as [|c' l]; [now apply passes_chain|].
  change (join (c :: c' :: l)) with (printc c ++ [syn ","] ++ join (c' :: l)). apply passes_app; [now apply passes_chain|]. apply passes_app; [now apply passes_comma|auto].
Qed.
Lemma reads_encs cs args es : Forall2 reads cs args -> Forall2 encodes args es -> encs es cs.
Proof. intros R. revert es. induction R; intros es E; inversion E; subst; constructor; auto. Qed.
(** After "f" of a call. *)
Lemma list_parse op cl ts es rest : bracket_pair op cl -> g_args ts es ->
  exists cs, argument_parse parse_expression (split_at_closing op cl) (sign op :: ts ++ sign cl :: rest) = Some (cs, rest) /\ encs es cs.
Proof.
  intros B G. destruct (args_read _ _ G) as (_ & args & W & <- & N1 & N2 & E). unfold argument_parse.
  assert (B1 : text_is op (sign cl) = false) by (destruct B as [[-> ->]|[[-> ->]|[-> ->]]]; reflexivity).
  assert (B2 : text_is cl (sign op) = false) by (destruct B as [[-> ->]|[[-> ->]|[-> ->]]]; reflexivity).
  rewrite split_group; [|apply String.eqb_refl|exact B2|exact B1|apply String.eqb_refl|now apply passes_join].
  destruct args as [|c l].
  - cbn [join]. exists []. split; auto. inversion E; subst. constructor.
  - destruct (arguments_read (c :: l) (S (List.length (join (c :: l)))) W) as (cs & Ea & R); [discriminate|lia|].
    destruct (join (c :: l)) as [|t w] eqn:J; [now destruct (join_nonempty (c :: l) W ltac:(discriminate))|]. exists cs. rewrite Ea. split; auto. eapply reads_encs; eauto.
Qed.
Lemma call_parse ts es rest : g_args ts es ->
  exists cs, argument_parse parse_expression split_at_closing_brackets (sign "(" :: ts ++ sign ")" :: rest) = Some (cs, rest) /\ encs es cs.
Proof. intros G. apply (list_parse "(" ")" ts es rest); auto. now left. Qed.
(** Names with commas between them, the bracket that opens them already read. *)
Definition name_chain (x : string) : chain := Last (Leaf (Tok TIdent x)).
Definition starts_with_ident (ts : list token) : Prop := match ts with [] => True | t :: _ => exists x, word x /\ t = Tok TIdent x end.
Lemma listed_join xs : join (map name_chain xs) = listed xs.
Proof. induction xs as [|x [|y xs] IH]; auto. change (join (map name_chain (x :: y :: xs))) with (Tok TIdent x :: sign "," :: join (map name_chain (y :: xs))). now rewrite IH. Qed.
Lemma name_wf xs : Forall word xs -> Forall wfc (map name_chain xs).
Proof. induction 1; constructor; auto. split; [now right|now apply word_solid]. Qed.
Lemma parse_name x : word x -> parse_expression [Tok TIdent x] = Some (Con (Tok TIdent x) []).
Proof.
  intros W. destruct (parse_expression_ok (name_chain x)) as (t & E & R); [exact (Forall_inv (name_wf [x] (Forall_cons x W (Forall_nil _))))|].
  change (printc (name_chain x)) with [Tok TIdent x] in E. rewrite E. f_equal. unfold name_chain in R. cbn [meanc meano] in R. inversion R; subst; auto.
  now destruct (parse_no_wrap _ _ _ _ E).
Qed.
Lemma chains_loop : forall cs tr, Forall2 (fun c t => wfc c /\ parse_expression (printc c) = Some t) cs tr -> cs <> [] -> forall fuel, List.length (join cs) < fuel ->
  arguments_loop parse_expression fuel (join cs) = Some tr.
Proof.
  induction 1 as [|c t cs tr [Wc Ec] F IH]; intros N fuel L; [easy|]. destruct fuel as [|fuel]; [lia|]. cbn [arguments_loop].
  destruct cs as [|d cs].
  - inversion F; subst. cbn [join] in *. assert (E := covers_chain c Wc 0%Z [] ltac:(lia)). rewrite app_nil_r in E.
    rewrite E. unfold prepend2. cbn [split_top_string fst snd]. rewrite app_nil_r, chain_breaks by exact Wc. now rewrite Ec.
  - change (join (c :: d :: cs)) with (printc c ++ syn "," :: join (d :: cs)) in *.
    rewrite (covers_chain c Wc) by lia. unfold prepend2.
    change (split_top_string "," 0 (syn "," :: join (d :: cs))) with (@nil token, join (d :: cs)). cbn [fst snd].
    rewrite app_nil_r, chain_breaks by exact Wc. rewrite Ec.
    assert (Ne : join (d :: cs) <> []). { apply join_nonempty; [|discriminate]. clear -F. induction F as [|? ? ? ? [W _]]; constructor; auto. }
    rewrite IH; [|discriminate|rewrite app_length in L; cbn [List.length] in L; lia]. now destruct (join (d :: cs)).
Qed.
Lemma chains_parse op cl cs tr rest : bracket_pair op cl -> Forall2 (fun c t => wfc c /\ parse_expression (printc c) = Some t) cs tr -> starts_with_ident (join cs) ->
  argument_parse parse_expression (split_at_closing op cl) (join cs ++ sign cl :: rest) = Some (tr, rest).
Proof.
  intros B F Si. unfold argument_parse.
  assert (W : Forall wfc cs) by (clear -F; induction F as [|? ? ? ? [W _]]; constructor; auto).
  assert (B1 : text_is op (sign cl) = false) by (destruct B as [[-> ->]|[[-> ->]|[-> ->]]]; reflexivity).
  assert (B2 : text_is cl (sign cl) = true) by (apply String.eqb_refl).
  rewrite split_group_rest; auto.
  - destruct cs as [|c cs]; [inversion F; reflexivity|]. rewrite (chains_loop _ _ F); [|discriminate|lia].
    destruct (join (c :: cs)) eqn:E; auto. now destruct (join_nonempty (c :: cs) W ltac:(discriminate)).
  - destruct (join cs) as [|t l]; [exact B1|]. cbn in Si. destruct Si as (x & Wx & ->). cbn [app].
    apply text_solid; [now apply word_solid|]. destruct B as [[-> ->]|[[-> ->]|[-> ->]]]; cbn [In]; tauto.
  - now apply passes_join.
Qed.
Lemma names_loop xs fuel : Forall word xs -> xs <> [] -> List.length (listed xs) < fuel ->
  arguments_loop parse_expression fuel (listed xs) = Some (map (fun x => Con (Tok TIdent x) []) xs).
Proof.
  revert fuel. induction xs as [|x l IH]; intros fuel W N L; [easy|]. destruct fuel as [|fuel]; [lia|]. inversion W as [|? ? Wx Wl]; subst.
  assert (Wc := Forall_inv (name_wf (x :: l) W)). cbn beta in Wc. cbn [arguments_loop].
  destruct l as [|y l].
  - cbn [listed]. assert (E := covers_chain (name_chain x) Wc 0%Z [] ltac:(lia)). rewrite app_nil_r in E. change (printc (name_chain x)) with [Tok TIdent x] in E.
    rewrite E. unfold prepend2. cbn [split_top_string fst snd]. rewrite app_nil_r. change [Tok TIdent x] with (printc (name_chain x)) at 1. rewrite chain_breaks by exact Wc.
    change (printc (name_chain x)) with [Tok TIdent x]. now rewrite parse_name.
  - change (listed (x :: y :: l)) with (printc (name_chain x) ++ syn "," :: listed (y :: l)) in *.
    rewrite (covers_chain (name_chain x) Wc) by lia. unfold prepend2.
    change (split_top_string "," 0 (syn "," :: listed (y :: l))) with (@nil token, listed (y :: l)). cbn [fst snd].
    rewrite app_nil_r, chain_breaks by exact Wc. change (printc (name_chain x)) with [Tok TIdent x] in *. rewrite parse_name by exact Wx.
    rewrite IH; auto; [|discriminate|rewrite app_length in L; cbn [List.length] in L; lia]. now destruct l.
Qed.
Lemma names_parse op cl xs rest : bracket_pair op cl -> Forall word xs ->
  argument_parse parse_expression (split_at_closing op cl) (listed xs ++ sign cl :: rest) = Some (map (fun x => Con (Tok TIdent x) []) xs, rest).
Proof.
  intros B W. unfold argument_parse.
  assert (B1 : text_is op (sign cl) = false) by (destruct B as [[-> ->]|[[-> ->]|[-> ->]]]; reflexivity).
  assert (B2 : text_is cl (sign cl) = true) by (apply String.eqb_refl).
  rewrite split_group_rest; auto.
  - destruct xs as [|x xs]; [reflexivity|]. rewrite names_loop; auto; [|discriminate]. destruct (listed (x :: xs)) eqn:E; auto. destruct xs; discriminate.
  - destruct xs as [|x xs]; [exact B1|]. inversion W; subst. assert (text_is op (Tok TIdent x) = false); [|destruct xs; auto].
    apply text_solid; [now apply word_solid|]. destruct B as [[-> ->]|[[-> ->]|[-> ->]]]; cbn [In]; tauto.
  - rewrite <- listed_join. apply passes_join; auto. now apply name_wf.
Qed.

(** * Blocks *)
Lemma passes_quiet_word op cl t x : bracket_pair op cl -> word x -> passes op cl [Tok t x].
Proof. intros B W. apply passes_solid; auto. now apply word_solid. Qed.
Lemma passes_line n : passes "{" "}" (repeat line n).
Proof. induction n as [|n IH]; [apply passes_nil|]. cbn [repeat]. apply passes_cons; auto. Qed.
Lemma passes_expr ts e : g_chain ts e -> passes "{" "}" ts.
Proof. intros G. destruct (chain_read _ _ G) as (_ & c & W & <- & _). apply passes_chain; auto. right; now right. Qed.
Lemma passes_cond ts c : g_cond ts c -> passes "{" "}" ts.
Proof. intros G. destruct (cond_read _ _ G) as (_ & d & W & <- & _). apply passes_chain; auto. right; now right. Qed.
Lemma passes_args ts es : g_args ts es -> passes "{" "}" ts.
Proof. intros G. destruct (args_read _ _ G) as (_ & args & W & <- & _). apply passes_join; auto. right; now right. Qed.
Lemma passes_indices ts es : g_indices ts es -> passes "{" "}" ts.
Proof.
  intros G. destruct (proj2 (proj2 (proj2 grammar_chain)) _ _ G) as (_ & cs & W & _ & <- & _). clear G.
  induction W as [|c cs Wc _ IH]; [apply passes_nil|]. cbn [flat_map]. apply (passes_app _ _ (syn "[" :: printc c ++ [syn "]"])); auto.
  apply passes_square; [right; now right|]. apply passes_chain; auto. right; now right.
Qed.
Lemma passes_listed xs : Forall word xs -> passes "{" "}" (listed xs).
Proof. intros W. rewrite <- listed_join. apply passes_join; [right; now right|now apply name_wf]. Qed.
Lemma passes_word t x : word x -> passes "{" "}" [Tok t x].
Proof. intros W. apply passes_solid; [right; now right|now apply word_solid]. Qed.
Lemma passes_braces a b : passes "{" "}" a -> passes "{" "}" b -> passes "{" "}" (sign "{" :: a ++ sign "}" :: b).
Proof.
  intros A B. change (sign "{" :: a ++ sign "}" :: b) with (sign "{" :: a ++ [sign "}"] ++ b). rewrite app_assoc. change (sign "{" :: (a ++ [sign "}"]) ++ b) with ((sign "{" :: a ++ [sign "}"]) ++ b).
  apply passes_app; auto. now apply passes_group.
Qed.
Lemma block_passes ts b : g_block ts b -> passes "{" "}" ts.
Proof.
  assert (W : forall t x l, word x -> passes "{" "}" l -> passes "{" "}" (Tok t x :: l)) by (intros t x l Hx Hl; apply (passes_app _ _ [_]); auto; now apply passes_word).
  induction 1.
  - apply passes_nil.
  - now apply passes_cons.
  - apply passes_cons; [reflexivity..|]. apply W; auto. apply passes_cons; [reflexivity..|]. apply passes_app; auto. eapply passes_expr; eauto.
  - apply W; auto. apply passes_cons; [reflexivity..|]. apply passes_app; auto. eapply passes_expr; eauto.
  - apply passes_cons; [reflexivity..|]. apply passes_cons; [reflexivity..|]. apply passes_app; [eapply passes_args; eauto|]. apply passes_cons; auto.
  - apply W; auto. apply passes_cons; [reflexivity..|]. apply passes_app; [eapply passes_args; eauto|]. apply passes_cons; auto.
  - apply passes_cons; [reflexivity..|]. apply passes_app; [eapply passes_expr; eauto|]. apply passes_line.
  - apply passes_cons; [reflexivity..|]. apply passes_cons; [reflexivity..|]. apply passes_app; [eapply passes_cond; eauto|].
    apply passes_cons; [reflexivity..|]. apply W; auto. apply passes_cons; [reflexivity..|]. apply passes_app; [eapply passes_expr; eauto|].
    apply passes_cons; [reflexivity..|]. apply passes_app; [apply passes_line|]. now apply passes_braces.
  - apply passes_cons; [reflexivity..|]. apply passes_app; [eapply passes_cond; eauto|]. now apply passes_braces.
  - apply passes_cons; [reflexivity..|]. apply passes_braces; auto. now apply passes_listed.
  - apply W; auto. apply passes_app; [eapply passes_indices; eauto|]. apply passes_cons; [reflexivity..|]. apply passes_app; auto. eapply passes_expr; eauto.
  - apply passes_cons; [reflexivity..|]. apply W; auto. do 3 (apply passes_cons; [reflexivity..|]). apply passes_braces; auto. eapply passes_args; eauto.
Qed.
Lemma block_first ts b : g_block ts b -> match ts with t :: _ => text_is "{" t = false | [] => True end.
Proof.
  destruct 1; try exact I; try reflexivity; apply text_solid; try (now apply word_solid); cbn [In]; tauto.
Qed.
(** The inside of a block, its opening brace already read. *)
Lemma body_split body bs rest : g_block body bs -> split_at_closing_swing (body ++ sign "}" :: rest) = Some (Some (body, rest)).
Proof.
  intros G. unfold split_at_closing_swing. apply split_group_rest; try reflexivity; [|eapply block_passes; eauto].
  assert (F := block_first _ _ G). destruct body; auto.
Qed.
Lemma body_split_brace body bs rest : g_block body bs -> split_at_closing_swing (sign "{" :: body ++ sign "}" :: rest) = Some (Some (body, rest)).
Proof. intros G. unfold split_at_closing_swing. apply split_group; try reflexivity. eapply block_passes; eauto. Qed.

Lemma overload_parse x ts e : word x -> g_chain ts e ->
  exists c, overload (Tok TIdent x :: Tok TAssign "=" :: ts) = Some (Con (Tok TOverload "") [Con (Tok TIdent x) []; c]) /\ enc e c.
Proof.
  intros W G. destruct (chain_parse _ _ G) as (c & E & En). exists c. split; auto. unfold overload.
  change (Tok TIdent x :: Tok TAssign "=" :: ts) with ([Tok TIdent x] ++ Tok TAssign "=" :: ts). rewrite (split_quiet "=" [Tok TIdent x] (Tok TAssign "=" :: ts)); [|apply quiet_eq, (quiet_word TIdent x W)|right; eexists; eexists; split; reflexivity].
  rewrite parse_name by auto. cbn [ParserModel.bind]. rewrite E. reflexivity.
Qed.
Lemma put_parse a ts es ts' e : word a -> g_indices ts es -> g_chain ts' e ->
  exists cs c, overload (Tok TIdent a :: ts ++ Tok TAssign "=" :: ts') = Some (Con (Tok TOverload "") [Con (Tok TArrCall a) cs; c]) /\ encs es cs /\ enc e c.
Proof.
  intros W Gi G. destruct (chain_parse _ _ G) as (c & E & En). destruct (chain_parse _ _ (g_last _ _ (g_element a ts es W Gi))) as (t & Et & Ent).
  inversion Ent as [| | |s e0 c0 Ec| | |a0 es0 cs Es]; subst; [now destruct (parse_no_wrap _ _ _ _ Et)|]. exists cs, c. split; auto. unfold overload.
  change (Tok TIdent a :: ts ++ Tok TAssign "=" :: ts') with ((Tok TIdent a :: ts) ++ Tok TAssign "=" :: ts').
  rewrite (split_quiet "=" (Tok TIdent a :: ts) (Tok TAssign "=" :: ts')); [|apply quiet_eq, (quiet_app [_]); [now apply quiet_word|eapply quiet_indices; eauto]|right; eexists; eexists; split; reflexivity].
  rewrite Et. cbn [ParserModel.bind]. rewrite E. reflexivity.
Qed.
Lemma chain_start ts e : g_chain ts e -> exists t r, ts = t :: r /\ ttyp t <> TFuncDef.
Proof.
  intros G. enough (X : (forall ts e, g_operand ts e -> exists t r, ts = t :: r /\ ttyp t <> TFuncDef) /\
    (forall ts e, g_chain ts e -> exists t r, ts = t :: r /\ ttyp t <> TFuncDef) /\ (forall ts (es : list exp), g_args ts es -> True) /\ (forall ts (es : list exp), g_indices ts es -> True)) by (destruct X as (_ & X & _); eauto).
  clear. apply g_exp_ind; auto; intros; try (eexists; eexists; split; [reflexivity|discriminate]).
  destruct H as (t & r & -> & N). cbn [app]. eauto.
Qed.
Lemma if_first ts b : g_block ts b -> b <> [] -> exists t r, ts = t :: r /\ ttyp t <> TElse.
Proof. destruct 1; intros N; try (now destruct N); eexists; eexists; (split; [reflexivity|discriminate]). Qed.
Lemma skip_lines n ts : starts ts -> remove_leading_breaks (repeat line n ++ ts) = ts.
Proof. intros S. induction n as [|n IH]; [now apply leading_id|]. exact IH. Qed.
Lemma lines_removed n : remove_breaks (repeat line n) = [].
Proof.
  unfold remove_breaks, remove_trailing_breaks. destruct n as [|n]; [reflexivity|].
  replace (rev (repeat line (S n))) with (line :: repeat line n).
  - rewrite text_line. assert (R : rev (repeat line n) = repeat line n).
    { clear. induction n; auto. cbn [repeat rev]. rewrite IHn. now rewrite <- repeat_cons. }
    rewrite R. rewrite <- (app_nil_r (repeat line n)). now rewrite skip_lines.
  - clear. induction n as [|n IH]; auto. change (repeat line (S (S n))) with (line :: repeat line (S n)). cbn [rev]. rewrite <- IH. cbn [app]. now rewrite <- repeat_cons.
Qed.
Lemma quiet_cons_break t ts : text_is break t = false -> Forall (fun t => text_is break t = false) ts -> Forall (fun t => text_is break t = false) (t :: ts).
Proof. now constructor. Qed.

Definition read_as (r : option sent) (b : list stmt) : Prop := exists cs, r = Some (cs, false) /\ enc_block b cs.
Lemma enc_block_app a ca b cb : enc_block a ca -> enc_block b cb -> enc_block (a ++ b) (ca ++ cb).
Proof. intros A B. induction A; cbn [app]; auto; rewrite <- app_assoc; [now apply enc_cons|now apply enc_array]. Qed.

Theorem block_read fl n : forall ts b, g_block ts b -> List.length ts < n -> read_as (statement_in fl n ts) b.
Proof.
  induction n as [|n IH]; intros ts b G L; [lia|]. cbn [statement_in]. destruct (trimmed _ _ G) as (G' & S' & L').
  set (us := remove_breaks ts) in *. clearbody us. clear G. assert (LN : List.length us <= n) by lia. clear L L'.
  destruct G' as [|us b G|x us e rest b W C G Le|x us e rest b W C G Le|us e e' rest b A G Le|f us es rest b W Nf A G Le|us e k C
    |us c x us' e k body bs rest b Cd W C Gb G|us c body bs rest b Cd Gb G Nb|x xs rest b W G|x us es us' e rest b W Gi C G Le|x us es rest b W A Ne G Le]; cbn [statement ttyp].
  - exists []. split; [reflexivity|constructor].
  - discriminate S'.
  - (* var *)
    destruct (chain_parse _ _ C) as (c & E & En). destruct (chain_start _ _ C) as (t & r & -> & Nt).
    assert (Q : Forall (fun t => text_is break t = false) (Tok TVarDecl "var" :: Tok TIdent x :: Tok TAssign "=" :: t :: r)).
    { apply quiet_cons_break; [reflexivity|]. apply quiet_cons_break; [now apply word_break|]. apply quiet_cons_break; [reflexivity|]. apply quiet_break. now apply (chain_read _ _ C). }
    assert (Es := line_split _ rest Q Le). cbn [app] in Es |- *. rewrite Es. cbn [is_variable_assignment ttyp ttype_eqb andb].
    assert (F : ttype_eqb (ttyp t) TFuncDef = false) by (destruct (ttyp t); auto; contradiction). rewrite F. cbn [List.length Nat.ltb Nat.leb skipn]. rewrite E. cbn [ParserModel.bind].
    destruct (IH rest b G) as (cs & Er & Eb); [cbn [app List.length] in LN; rewrite app_length in LN; lia|]. rewrite Er. cbn [ParserModel.bind nth ident].
    eexists. split; [reflexivity|]. cbn [fst]. apply (enc_cons _ _ [_]); auto. now apply enc_decl.
  - (* assignment *)
    destruct (overload_parse x us e W C) as (c & E & En).
    assert (Q : Forall (fun t => text_is break t = false) (Tok TIdent x :: Tok TAssign "=" :: us)).
    { apply quiet_cons_break; [now apply word_break|]. apply quiet_cons_break; [reflexivity|]. apply quiet_break. now apply (chain_read _ _ C). }
    assert (Es := line_split _ rest Q Le). cbn [app] in Es. rewrite Es. rewrite E. cbn [ParserModel.bind].
    destruct (IH rest b G) as (cs & Er & Eb); [cbn [List.length] in LN; rewrite app_length in LN; lia|]. rewrite Er. cbn [ParserModel.bind].
    eexists. split; [reflexivity|]. cbn [fst]. apply (enc_cons _ _ [_]); auto. now apply enc_assign.
  - (* equal *)
    destruct (call_parse us [e; e'] rest A) as (cs & E & En). cbn [app]. rewrite E. cbn [ParserModel.bind].
    assert (B : break_follows rest = true) by (destruct rest as [|t r]; auto; cbn in Le; now subst t). rewrite B. cbn [guard ParserModel.bind].
    destruct (IH rest b G) as (cs' & Er & Eb); [cbn [List.length] in LN; rewrite app_length in LN; cbn [List.length] in LN; lia|]. rewrite Er. cbn [ParserModel.bind].
    eexists. split; [reflexivity|]. cbn [fst]. apply (enc_cons _ _ [_]); auto. inversion En as [|? ca ? l En1 En2]; subst. inversion En2 as [|? cb ? l' En3 En4]; subst. inversion En4; subst. now apply LangSpec.enc_equal.
  - (* call *)
    destruct (call_parse us es rest A) as (cs & E & En). cbn [app]. rewrite E. cbn [ParserModel.bind].
    assert (B : break_follows rest = true) by (destruct rest as [|t r]; auto; cbn in Le; now subst t). rewrite B. cbn [guard ParserModel.bind].
    destruct (IH rest b G) as (cs' & Er & Eb); [cbn [List.length] in LN; rewrite app_length in LN; cbn [List.length] in LN; lia|]. rewrite Er. cbn [ParserModel.bind].
    eexists. split; [reflexivity|]. cbn [fst]. apply (enc_cons _ _ [_]); auto. now apply enc_do.
  - (* return *)
    destruct (chain_parse _ _ C) as (c & E & En).
    assert (Q : Forall (fun t => text_is break t = false) (Tok TReturn "return" :: us)).
    { apply quiet_cons_break; [reflexivity|]. apply quiet_break. now apply (chain_read _ _ C). }
    assert (Es := line_split _ (repeat line k) Q ltac:(destruct k; [exact I|reflexivity])). cbn [app] in Es. rewrite Es.
    destruct (chain_start _ _ C) as (t & r & -> & _). cbn [List.length Nat.ltb Nat.leb tl]. rewrite E. cbn [ParserModel.bind]. rewrite lines_removed. cbn [guard ParserModel.bind].
    eexists. split; [reflexivity|]. apply (enc_cons _ _ [_] []); [now apply enc_return|constructor].
  - (* for *)
    destruct (cond_parse _ _ Cd) as (c1 & E1 & En1). destruct (overload_parse x us' e W C) as (c2 & E2 & En2).
    cbn [app]. change (text_is "(" (sign "(")) with true. cbn [guard ParserModel.bind].
    rewrite (split_quiet ";" us); [|apply quiet_semi; now apply (cond_read _ _ Cd)|right; eexists; eexists; split; reflexivity]. rewrite E1. cbn [ParserModel.bind].
    assert (Sp : split_at_closing_brackets ((Tok TIdent x :: Tok TAssign "=" :: us') ++ sign ")" :: repeat line k ++ sign "{" :: body ++ sign "}" :: rest) =
                 Some (Some (Tok TIdent x :: Tok TAssign "=" :: us', repeat line k ++ sign "{" :: body ++ sign "}" :: rest))).
    { unfold split_at_closing_brackets. apply split_group_rest; try reflexivity.
      - apply text_solid; [now apply word_solid|cbn [In]; tauto].
      - apply (passes_app _ _ [_]); [apply passes_solid; [now left|now apply word_solid]|]. apply passes_cons; [reflexivity..|].
        destruct (chain_read _ _ C) as (_ & d & Wd & <- & _). apply passes_chain; auto. now left. }
    cbn [app] in Sp. rewrite Sp. destruct (chain_start _ _ C) as (t & r & Et & _). rewrite Et at 1. cbn [is_variable_assignment ttyp ttype_eqb andb ParserModel.bind].
    rewrite E2. cbn [ParserModel.bind]. rewrite skip_lines by reflexivity. change (text_is "{" (sign "{")) with true. cbn [guard ParserModel.bind].
    rewrite (body_split body bs rest Gb).
    cbn [List.length] in LN. rewrite app_length in LN. cbn [List.length] in LN. rewrite app_length in LN. cbn [List.length] in LN. rewrite app_length in LN. cbn [List.length] in LN. rewrite app_length in LN. cbn [List.length] in LN.
    destruct (IH body bs Gb) as (cb & Eb & Enb); [lia|]. destruct (IH rest b G) as (cr & Er & Enr); [lia|]. rewrite Eb. cbn [ParserModel.bind]. rewrite Er. cbn [ParserModel.bind].
    eexists. split; [reflexivity|]. cbn [before after fst snd]. 
    change ([Con (Tok TFor "") [c1; Con (Tok TOverload "") [Con (Tok TIdent x) []; c2]]] ++ cb ++ [marker TNestedEnd] ++ cr) with
      (Con (Tok TFor "") [c1; Con (Tok TOverload "") [Con (Tok TIdent x) []; c2]] :: cb ++ [marker TNestedEnd] ++ cr).
    rewrite app_assoc. change (?a :: (cb ++ [marker TNestedEnd]) ++ cr) with ((a :: cb ++ [marker TNestedEnd]) ++ cr). apply enc_cons; auto.
    apply enc_for; auto. split; reflexivity.
  - (* if *)
    destruct (cond_parse _ _ Cd) as (c1 & E1 & En1). destruct (if_first _ _ G Nb) as (t & r & Et & Nt).
    cbn [List.length] in LN. rewrite app_length in LN. cbn [List.length] in LN. rewrite app_length in LN. cbn [List.length] in LN.
    destruct (IH body bs Gb) as (cb & Eb & Enb); [lia|]. destruct (IH rest b G) as (cr & Er & Enr); [lia|].
    assert (Arm : if_arm (statement_in fl n) 1 true TIf (Tok TIf "if" :: us ++ sign "{" :: body ++ sign "}" :: rest) =
      Some (([Con (Tok TIf "") [c1]] ++ cb ++ [marker TNestedEnd], false), rest)).
    { unfold if_arm. change (Tok TIf "if" :: us ++ ?r) with ((Tok TIf "if" :: us) ++ r). rewrite (split_quiet "{" (Tok TIf "if" :: us) (sign "{" :: body ++ sign "}" :: rest)); [|constructor; [reflexivity|apply quiet_swing; now apply (cond_read _ _ Cd)]|right; eexists; eexists; split; reflexivity].
      cbn [List.length Nat.ltb Nat.leb skipn]. rewrite E1. cbn [ParserModel.bind]. rewrite (body_split_brace body bs rest Gb). rewrite Eb. reflexivity. }
    rewrite Arm. cbn [ParserModel.bind]. rewrite Et. cbn [List.length else_ifs].
    assert (F : ttype_eqb (ttyp t) TElse = false) by (destruct (ttyp t); auto; contradiction). rewrite F. cbn [ParserModel.bind]. rewrite F. cbn [ParserModel.bind negb andb guard].
    rewrite <- Et, Er. cbn [ParserModel.bind]. eexists. split; [reflexivity|]. cbn [before after fst snd]. cbn [app].
    change (Con (Tok TIf "") [c1] :: (cb ++ [marker TNestedEnd]) ++ marker TIfEnd :: cr) with (Con (Tok TIf "") [c1] :: (cb ++ [marker TNestedEnd]) ++ [marker TIfEnd] ++ cr).
    rewrite app_assoc. rewrite <- (app_assoc cb). change (?a :: (cb ++ [marker TNestedEnd] ++ [marker TIfEnd]) ++ cr) with ((a :: cb ++ [marker TNestedEnd; marker TIfEnd]) ++ cr).
    apply enc_cons; auto. apply enc_if; auto; split; reflexivity.
  - (* public *)
    change (text_is "{" (sign "{")) with true. cbn [guard ParserModel.bind]. unfold split_at_closing_swing.
    assert (P := names_parse "{" "}" (x :: xs) rest (or_intror (or_intror (conj eq_refl eq_refl))) W). rewrite P. cbn [ParserModel.bind].
    cbn [List.length] in LN. rewrite app_length in LN. cbn [List.length] in LN.
    destruct (IH rest b G) as (cr & Er & Enr); [lia|]. rewrite Er. cbn [ParserModel.bind]. eexists. split; [reflexivity|]. cbn [before fst].
    apply enc_block_app; auto. rewrite map_map. cbn [output inputs ident]. clear. induction (x :: xs) as [|y l IHl]; [constructor|]. cbn [map]. apply (enc_cons _ _ [_]); auto. constructor.
  - (* an element of an array *)
    destruct (put_parse x us es us' e W Gi C) as (ci & c & E & Es & En).
    assert (Q : Forall (fun t => text_is break t = false) (Tok TIdent x :: us ++ Tok TAssign "=" :: us')).
    { apply quiet_cons_break; [now apply word_break|]. apply Forall_app. split; [eapply quiet_break, quiet_indices; eauto|]. apply quiet_cons_break; [reflexivity|]. apply quiet_break. now apply (chain_read _ _ C). }
    assert (Sp := line_split _ rest Q Le). cbn [app] in Sp. rewrite <- app_assoc in Sp. cbn [app] in Sp. rewrite Sp. rewrite E. cbn [ParserModel.bind].
    destruct (IH rest b G) as (cs & Er & Eb); [cbn [List.length] in LN; rewrite app_length in LN; cbn [List.length] in LN; rewrite app_length in LN; lia|]. rewrite Er. cbn [ParserModel.bind].
    eexists. split; [reflexivity|]. cbn [fst]. apply (enc_cons _ _ [_]); auto. now apply enc_set.
  - (* an array *)
    destruct (list_parse "{" "}" us es [] ltac:(right; now right) A) as (ca & Ea & Ena).
    assert (Q : Forall (fun t => text_is break t = false) (Tok TVarDecl "var" :: Tok TIdent x :: sign "[" :: sign "]" :: Tok TAssign "=" :: sign "{" :: us ++ [sign "}"])).
    { apply quiet_cons_break; [reflexivity|]. apply quiet_cons_break; [now apply word_break|]. do 4 (apply quiet_cons_break; [reflexivity|]). apply Forall_app. split; [apply quiet_break; eapply quiet_args; eauto|]. now repeat constructor. }
    assert (Sp := line_split _ rest Q Le). cbn [app] in Sp. rewrite <- app_assoc in Sp. cbn [app] in Sp |- *. rewrite Sp. cbn [is_variable_assignment ttyp ttype_eqb andb tl].
    change (is_array_assignment (Tok TIdent x :: sign "[" :: sign "]" :: Tok TAssign "=" :: sign "{" :: us ++ [sign "}"])) with true. cbn [skipn].
    unfold split_at_closing_swing. rewrite Ea. cbn [ParserModel.bind guard].
    destruct (IH rest b G) as (cs & Er & Eb); [cbn [List.length] in LN; rewrite app_length in LN; cbn [List.length] in LN; lia|]. rewrite Er. cbn [ParserModel.bind nth ident].
    eexists. split; [reflexivity|]. cbn [before fst app]. now apply enc_array.
Qed.

(** * Programs *)
Lemma prog_last ts fs : g_prog ts fs -> exists w, ts = w ++ [Tok TEOF ""].
Proof.
  induction 1 as [|ts fs _ [w ->]|t f hs ps body bs rest fs _ _ _ _ [w ->]]; [now exists []|now exists (line :: w)|].
  exists (Tok TFuncDef "func" :: Tok t f :: sign "(" :: hs ++ sign ")" :: sign "{" :: body ++ sign "}" :: w).
  cbn [app]. repeat (rewrite <- app_assoc; cbn [app]). reflexivity.
Qed.
Lemma prog_trimmed ts fs : g_prog ts fs -> g_prog (remove_breaks ts) fs /\ starts (remove_breaks ts) /\ List.length (remove_breaks ts) <= List.length ts.
Proof.
  intros G. assert (T : remove_trailing_breaks ts = ts).
  { destruct (prog_last _ _ G) as [w ->]. unfold remove_trailing_breaks. rewrite rev_app_distr. reflexivity. }
  unfold remove_breaks. rewrite T. induction G; [split; [constructor|split; [reflexivity|auto]]| |split; [now constructor|split; [reflexivity|auto]]].
  assert (T' : remove_trailing_breaks ts = ts).
  { destruct (prog_last _ _ G) as [w ->]. unfold remove_trailing_breaks. rewrite rev_app_distr. reflexivity. }
  destruct (IHG T') as (A & B & D). split; [exact A|]. split; [exact B|]. cbn [remove_leading_breaks]. rewrite text_line. cbn [List.length]. lia.
Qed.
Lemma parse_elements_plain n ts a cs : parse_expr n ts = Some (Con (Tok TArrCall a) cs) -> Forall (fun c => forall s d, c <> Con (Tok TUnassigned s) [d]) cs.
Proof.
  assert (I : forall n fuel ts cs, indices_loop (parse_expr n) fuel ts = Some cs -> Forall (fun c => forall s d, c <> Con (Tok TUnassigned s) [d]) cs).
  { clear. intros n. induction fuel as [|fuel IH]; intros ts cs; [discriminate|]. cbn [indices_loop]. destruct (split_at_closing_square ts) as [lr|]; [|discriminate].
    destruct (match lr with Some p => p | None => ([], []) end) as [l r]. destruct (parse_expr n l) as [c|] eqn:E; [|discriminate].
    assert (N : forall s d, c <> Con (Tok TUnassigned s) [d]) by (intros s d ->; now apply parse_no_wrap in E).
    destruct r; [intros [= <-]; now repeat constructor|]. destruct (indices_loop _ _ _) as [l0|] eqn:E0; [|discriminate]. intros [= <-]. constructor; eauto. }
  destruct n as [|n]; [discriminate|]. cbn [parse_expr]. destruct (strip_of_brackets ts) as [[|t0 [|t1 r]]|]; try discriminate.
  - destruct (ttyp t0) eqn:E; try discriminate; intros [= ->]; discriminate.
  - destruct (split_top_operator 0 0 (t0 :: t1 :: r)) as [[[l o] r']|].
    + destruct (strip_of_brackets l), (strip_of_brackets r'); try discriminate. destruct (parse_expr n l0), (parse_expr n l1); discriminate.
    + destruct (ttyp t0) eqn:T.
      all: try (destruct (text_is "[" t1 && text_is "]" (last (t0 :: t1 :: r) t1)); [|discriminate]; destruct (indices_loop _ _ _) eqn:E; [|discriminate]; intros [= _ <-]; eapply I; exact E).
      destruct (argument_parse _ _ _) as [[cs' [|x y]]|]; try discriminate. intros [= -> _]. discriminate.
Qed.
Lemma digit_word d : d <> "" -> Forall digit (chars d) -> word d.
Proof. intros N F. split; auto. eapply Forall_impl; [|exact F]. intros c H. now left. Qed.
Lemma digits_decimal s : Forall digit (chars s) -> digits_value 0 s = Some (decimal s).
Proof.
  unfold decimal, chars. generalize 0%Z as acc. induction s as [|c s IH]; intros acc F; [reflexivity|]. cbn [list_ascii_of_string fold_left digits_value] in *.
  inversion F as [|? ? D F']; subst. assert (E := proj2 (is_digit_ok c) D). rewrite E. rewrite IH by exact F'. f_equal. f_equal. lia.
Qed.
Lemma array_names a : forall dims res, map (fun post => (a ++ post)%string) (array_string_build dims res) = map (fun l => (a ++ res ++ brackets l)%string) (positions dims).
Proof.
  assert (Ass : forall x y z : string, ((x ++ y) ++ z)%string = (x ++ (y ++ z))%string) by (induction x; intros; cbn; congruence).
  induction dims as [|k dims IH]; intros res; cbn [array_string_build positions map].
  - cbn [brackets]. f_equal. f_equal. clear. induction res; cbn; congruence.
  - unfold index_names. generalize (seq 0 (Z.to_nat k)) as l. induction l as [|j l IHl]; [reflexivity|]. cbn [map flat_map]. rewrite !map_app, IHl, IH, map_map. f_equal.
    apply map_ext. intros p. f_equal. cbn [brackets]. rewrite !Ass. reflexivity.
Qed.
Lemma param_read ts xs : g_param ts xs -> exists c t, wfc c /\ printc c = ts /\ parse_expression ts = Some t /\ header_argument t = Some (map (fun x => Con (Tok TArgument x) []) xs).
Proof.
  destruct 1 as [x W|a ds W N F].
  - exists (name_chain x), (Con (Tok TIdent x) []). split; [exact (Forall_inv (name_wf [x] (Forall_cons x W (Forall_nil _))))|]. split; [reflexivity|]. split; [now apply parse_name|reflexivity].
  - assert (G : g_indices (flat_map (fun d => [sign "["; Tok TNumber d; sign "]"]) ds) (map Num ds)).
    { clear -F N. induction F as [|d ds (Nd & Fd & _) F IH]; [easy|]. assert (Gd : g_chain [Tok TNumber d] (Num d)) by (apply g_last, g_num; now apply digit_word).
      destruct ds as [|d' ds]; [exact (g_index _ _ Gd)|]. exact (g_index_more [_] _ _ _ Gd (IH ltac:(discriminate))). }
    assert (Gc := g_last _ _ (g_element a _ _ W G)). destruct (chain_read _ _ Gc) as (_ & c & Wc & Pc & _). destruct (chain_parse _ _ Gc) as (t & Et & En).
    exists c, t. split; [exact Wc|]. split; [exact Pc|]. split; [exact Et|]. inversion En as [| | |s e0 c0 Ec| | |a0 es0 cs Es]; subst; [now destruct (parse_no_wrap _ _ _ _ Et)|].
    assert (P := parse_elements_plain _ _ _ _ Et). assert (Cs : cs = map (fun d => Con (Tok TNumber d) []) ds).
    { clear -Es P. revert cs Es P. induction ds as [|d ds IH]; intros cs Es P; inversion Es as [|? ? ? ? E1 E2]; subst; [reflexivity|]. inversion P as [|? ? P1 P2]; subst. cbn [map]. rewrite <- (IH _ E2 P2). f_equal.
      inversion E1; subst; auto. now destruct (P1 s c0). }
    subst cs. unfold header_argument. cbn [output ttyp inputs ident].
    assert (Ed : all_some (map parse_dimension (map (fun d => Con (Tok TNumber d) []) ds)) = Some (map decimal ds)).
    { clear -F. induction F as [|d ds (_ & Fd & B) F IH]; [reflexivity|]. cbn [map]. unfold parse_dimension at 1. cbn [output ttyp ident]. rewrite (digits_decimal d Fd).
      rewrite (proj2 (Z.ltb_lt _ _) (proj1 B)), (proj2 (Z.ltb_lt _ _) (proj2 B)). cbn [andb all_some]. now rewrite IH. }
    rewrite Ed. f_equal. assert (X := array_names a (map decimal ds) ""). cbn [append] in X. unfold element. rewrite <- X, map_map. reflexivity.
Qed.
Lemma params_read ts ps : g_params ts ps -> starts_with_ident ts /\ exists cs tr, join cs = ts /\ Forall2 (fun c t => wfc c /\ parse_expression (printc c) = Some t) cs tr /\
  header_arguments tr = Some (map (fun x => Con (Tok TArgument x) []) ps).
Proof.
  assert (St : forall ts xs, g_param ts xs -> exists x r, word x /\ ts = Tok TIdent x :: r) by (destruct 1; eauto).
  induction 1 as [|ts xs P|ts xs ts' ys P G IH N].
  - split; [exact I|]. exists [], []. repeat split; constructor.
  - split; [destruct (St _ _ P) as (x & r & W & ->); cbn; eauto|]. destruct (param_read _ _ P) as (c & t & Wc & <- & E & H). exists [c], [t]. split; [reflexivity|]. split; [now repeat constructor|].
    unfold header_arguments. cbn [map all_some]. rewrite H. cbn [concat]. now rewrite app_nil_r.
  - split; [destruct (St _ _ P) as (x & r & W & ->); cbn; eauto|]. destruct IH as (_ & cs & tr & <- & F & Hs). destruct (param_read _ _ P) as (c & t & Wc & <- & E & H). exists (c :: cs), (t :: tr).
    split; [destruct cs; [easy|reflexivity]|]. split; [now constructor|]. unfold header_arguments in *. cbn [map all_some]. rewrite H. destruct (all_some (map header_argument tr)); [|discriminate].
    injection Hs as Hs. cbn [concat]. rewrite Hs, map_app. reflexivity.
Qed.
Lemma quiet_params ts ps : g_params ts ps -> quiet ts.
Proof.
  assert (Q : forall ts xs, g_param ts xs -> quiet ts).
  { destruct 1 as [x W|a ds W N F]; [now apply quiet_word|]. apply (quiet_app [_]); [now apply quiet_word|]. clear N. induction F as [|d ds (Nd & Fd & _) F IH]; [constructor|]. cbn [flat_map].
    apply (quiet_app [sign "["; Tok TNumber d; sign "]"]); auto. apply (quiet_app [_]); [apply quiet_sign; cbn; tauto|]. apply (quiet_app [_]); [|apply quiet_sign; cbn; tauto].
    assert (X := digit_word d Nd Fd). destruct (chain_read _ _ (g_last _ _ (g_num d X))) as [Y _]. exact Y. }
  induction 1 as [|ts xs P|ts xs ts' ys P G IH N]; [constructor|eauto|]. apply quiet_app; [eauto|]. apply (quiet_app [_]); auto. apply quiet_sign; cbn; tauto.
Qed.
Theorem program_read fl n : forall ts fs, g_prog ts fs -> List.length ts < n -> exists cs, statement_in fl n ts = Some (cs, true) /\ enc_prog fs cs.
Proof.
  induction n as [|n IH]; intros ts fs G L; [lia|]. cbn [statement_in]. destruct (prog_trimmed _ _ G) as (G' & S' & L').
  set (us := remove_breaks ts) in *. clearbody us. clear G. assert (LN : List.length us <= n) by lia. clear L L'.
  destruct G' as [|us fs G|t f hs ps body bs rest fs Wf W Gb G]; cbn [statement ttyp].
  - exists []. split; [reflexivity|constructor].
  - discriminate S'.
  - change (text_is "(" (sign "(")) with true. cbn [guard ParserModel.bind]. unfold split_at_closing_brackets.
    destruct (params_read _ _ W) as (Si & hc & tr & Ej & F & Hd). rewrite <- Ej in Si.
    assert (P := chains_parse "(" ")" hc tr (sign "{" :: body ++ sign "}" :: rest) (or_introl (conj eq_refl eq_refl)) F Si). rewrite Ej in P. rewrite P. cbn [ParserModel.bind].
    rewrite Hd. cbn [ParserModel.bind]. change (text_is "{" (sign "{")) with true. cbn [guard ParserModel.bind]. rewrite (body_split body bs rest Gb).
    cbn [List.length] in LN. rewrite app_length in LN. cbn [List.length] in LN. rewrite app_length in LN. cbn [List.length] in LN.
    destruct (block_read fl n body bs Gb) as (cb & Eb & Enb); [lia|]. destruct (IH rest fs G) as (cr & Er & Enr); [lia|]. rewrite Eb. cbn [ParserModel.bind]. rewrite Er. cbn [ParserModel.bind].
    eexists. split; [reflexivity|]. cbn [before after fst snd app ident]. apply enc_fun; auto. split; reflexivity.
Qed.
Theorem tokens_read ts fs : g_prog ts fs -> exists cs, parse_tokens ts = Some (Some cs) /\ enc_prog fs cs.
Proof. intros G. destruct (program_read (fun _ => None) (S (List.length ts)) ts fs G) as (cs & E & En); [lia|]. exists cs. split; auto. unfold parse_tokens. now rewrite E. Qed.

(** * Line ends in a row *)
Inductive thin : bool -> list token -> list token -> Prop :=
| thin_nil p : thin p [] []
| thin_drop a b : thin true a b -> thin true (line :: a) b
| thin_keep p a b : thin true a b -> thin p (line :: a) (line :: b)
| thin_other p t a b : text_is break t = false -> thin false a b -> thin p (t :: a) (t :: b).
Lemma thin_part p a t r x : text_is break t = false -> thin p (a ++ t :: r) x -> exists a' r', x = a' ++ t :: r' /\ thin p a a' /\ thin false r r'.
Proof.
  intros T. revert p x. induction a as [|y a IH]; intros p x H; cbn [app] in H; inversion H; subst.
  - discriminate.
  - discriminate.
  - exists [], b. split; auto. split; auto. constructor.
  - destruct (IH _ _ H4) as (a' & r' & -> & A & R). exists a', r'. split; auto. split; auto. now constructor.
  - destruct (IH _ _ H4) as (a' & r' & -> & A & R). exists (line :: a'), r'. split; auto. split; auto. now constructor.
  - destruct (IH _ _ H5) as (a' & r' & -> & A & R). exists (y :: a'), r'. split; auto. split; auto. now constructor.
Qed.
Lemma thin_quiet p a r x : Forall (fun t => text_is break t = false) a -> thin p (a ++ r) x -> a <> [] -> exists r', x = a ++ r' /\ thin false r r'.
Proof.
  intros F. revert p x. induction F as [|t a T F IH]; intros p x H N; [easy|]. cbn [app] in H. inversion H; subst; try discriminate.
  destruct a as [|u a]; [now exists b|]. assert (Na : u :: a <> []) by congruence. destruct (IH _ _ H5 Na) as (r' & -> & R). now exists r'.
Qed.
Lemma thin_line_ends r r' : thin false r r' -> line_ends r -> line_ends r'.
Proof. intros H. destruct r as [|t r]; inversion H; subst; auto. Qed.
Lemma thin_repeat p n x : thin p (repeat line n) x -> exists m, x = repeat line m.
Proof.
  revert p x. induction n as [|n IH]; intros p x H; cbn [repeat] in H; inversion H; subst; try discriminate; [now exists 0| |].
  - eauto.
  - match goal with K : thin _ (repeat line n) _ |- _ => destruct (IH _ _ K) as [m ->] end. now exists (S m).
Qed.
Ltac loose := repeat (apply quiet_cons_break; [first [reflexivity | now apply word_break]|]); try (constructor; fail).
Ltac fixed P := match goal with H : thin _ ?L _ |- _ => let E := fresh in assert (E : L = P) by (cbn [app]; repeat (rewrite <- app_assoc; cbn [app]); reflexivity); rewrite E in H; clear E end.
Lemma thin_block ts b : g_block ts b -> forall p x, thin p ts x -> g_block x b.
Proof.
  induction 1; intros p l T.
  - inversion T; subst. constructor.
  - inversion T; subst; eauto; [|discriminate]. apply g_line. eauto.
  - change (thin p ((Tok TVarDecl "var" :: Tok TIdent x :: Tok TAssign "=" :: []) ++ ts ++ rest) l) in T. rewrite app_assoc in T.
    apply thin_quiet in T; [|apply Forall_app; split; [loose|apply quiet_break; now apply (chain_read _ _ H0)]|discriminate]. destruct T as (r' & -> & T).
    rewrite <- app_assoc. apply (g_decl x ts e r' b); eauto. eapply thin_line_ends; eauto.
  - change (thin p ((Tok TIdent x :: Tok TAssign "=" :: []) ++ ts ++ rest) l) in T. rewrite app_assoc in T.
    apply thin_quiet in T; [|apply Forall_app; split; [loose|apply quiet_break; now apply (chain_read _ _ H0)]|discriminate]. destruct T as (r' & -> & T).
    rewrite <- app_assoc. apply (g_assign x ts e r' b); eauto. eapply thin_line_ends; eauto.
  - change (thin p ((Tok TCall "equal" :: sign "(" :: ts) ++ sign ")" :: rest) l) in T. apply thin_part in T; [|reflexivity]. destruct T as (a' & r' & -> & A & T).
    rewrite <- (app_nil_r (_ :: _ :: ts)) in A. apply thin_quiet in A; [|loose; apply quiet_break; eapply quiet_args; eauto|discriminate]. destruct A as (n' & -> & A). inversion A; subst.
    rewrite app_nil_r. apply (g_equal ts e e' r' b); eauto. eapply thin_line_ends; eauto.
  - change (thin p ((Tok TCall f :: sign "(" :: ts) ++ sign ")" :: rest) l) in T. apply thin_part in T; [|reflexivity]. destruct T as (a' & r' & -> & A & T).
    rewrite <- (app_nil_r (_ :: _ :: ts)) in A. apply thin_quiet in A; [|loose; apply quiet_break; eapply quiet_args; eauto|discriminate]. destruct A as (n' & -> & A). inversion A; subst.
    rewrite app_nil_r. apply (g_do f ts es r' b); eauto. eapply thin_line_ends; eauto.
  - change (thin p ((Tok TReturn "return" :: ts) ++ repeat line n) l) in T. apply thin_quiet in T; [|loose; apply quiet_break; now apply (chain_read _ _ H)|discriminate].
    destruct T as (r' & -> & T). apply thin_repeat in T. destruct T as [m ->]. now apply (g_return ts e m).
  - fixed ((Tok TFor "for" :: sign "(" :: ts ++ sign ";" :: Tok TIdent x :: Tok TAssign "=" :: ts' ++ [sign ")"]) ++ repeat line n ++ sign "{" :: body ++ sign "}" :: rest).
    apply thin_quiet in T; [|loose|discriminate].
    2:{ apply Forall_app. split; [apply quiet_break; now apply (cond_read _ _ H)|]. loose. apply Forall_app. split; [apply quiet_break; now apply (chain_read _ _ H1)|loose]. }
    destruct T as (r' & -> & T). apply thin_part in T; [|reflexivity]. destruct T as (a' & r1 & -> & A & T). apply thin_repeat in A. destruct A as [m ->].
    apply thin_part in T; [|reflexivity]. destruct T as (body' & rest' & -> & A & T). cbn [app]. repeat (rewrite <- app_assoc; cbn [app]).
    apply (g_for ts c x ts' e m body' bs rest' b); eauto.
  - fixed ((Tok TIf "if" :: ts ++ [sign "{"]) ++ body ++ sign "}" :: rest).
    apply thin_quiet in T; [|loose; apply Forall_app; split; [apply quiet_break; now apply (cond_read _ _ H)|loose]|discriminate].
    destruct T as (r' & -> & T). apply thin_part in T; [|reflexivity]. destruct T as (body' & rest' & -> & A & T). cbn [app]. repeat (rewrite <- app_assoc; cbn [app]).
    apply (g_if ts c body' bs rest' b); eauto.
  - fixed ((Tok TPublic "public" :: sign "{" :: listed (x :: xs) ++ [sign "}"]) ++ rest).
    apply thin_quiet in T; [|loose; apply Forall_app; split; [apply quiet_break; now apply quiet_listed|loose]|discriminate].
    destruct T as (r' & -> & T). cbn [app]. repeat (rewrite <- app_assoc; cbn [app]). apply (g_public x xs r' b); eauto.
  - fixed ((Tok TIdent a :: ts ++ Tok TAssign "=" :: ts') ++ rest).
    apply thin_quiet in T; [|loose; apply Forall_app; split; [eapply quiet_break, quiet_indices; eauto|loose; apply quiet_break; now apply (chain_read _ _ H1)]|discriminate].
    destruct T as (r' & -> & T). cbn [app]. repeat (rewrite <- app_assoc; cbn [app]). apply (g_put a ts es ts' e r' b); eauto. eapply thin_line_ends; eauto.
  - fixed ((Tok TVarDecl "var" :: Tok TIdent x :: sign "[" :: sign "]" :: Tok TAssign "=" :: sign "{" :: ts ++ [sign "}"]) ++ rest).
    apply thin_quiet in T; [|loose; apply Forall_app; split; [apply quiet_break; eapply quiet_args; eauto|loose]|discriminate].
    destruct T as (r' & -> & T). cbn [app]. repeat (rewrite <- app_assoc; cbn [app]). apply (g_array x ts es r' b); eauto. eapply thin_line_ends; eauto.
Qed.
Lemma thin_prog ts fs : g_prog ts fs -> forall p x, thin p ts x -> g_prog x fs.
Proof.
  induction 1; intros p x T.
  - inversion T; subst. inversion H4; subst. constructor.
  - inversion T; subst; eauto; [|discriminate]. apply g_prog_line. eauto.
  - rename x into l. fixed ((Tok TFuncDef "func" :: Tok t f :: sign "(" :: ts ++ sign ")" :: [sign "{"]) ++ body ++ sign "}" :: rest).
    apply thin_quiet in T; [|loose; apply Forall_app; split; [apply quiet_break; eapply quiet_params; eauto|loose]|discriminate].
    destruct T as (r' & -> & T). apply thin_part in T; [|reflexivity]. destruct T as (body' & rest' & -> & A & T). cbn [app]. repeat (rewrite <- app_assoc; cbn [app]).
    apply (g_func t f ts ps body' bs rest' fs); eauto using thin_block.
Qed.
Lemma prog_lines ts fs : g_prog ts fs -> lines ts.
Proof.
  induction 1; [|now constructor|].
  - apply lines_cons; [reflexivity|constructor].
  - repeat first [apply lines_cons; [reflexivity|] | apply lines_cons; [now apply word_break|] | assumption | apply lines_app
    | (apply quiet_lines; eapply quiet_params; eassumption) | (eapply block_lines; eassumption)].
Qed.
Lemma comment_text src ts : tokens_of src ts -> Forall (fun t => ttyp t = TComment -> text_is break t = false) ts.
Proof.
  induction 1 as [|b B|b s ts B N T IH|t w s ts P T IH|w s ts N T IH]; auto; constructor; auto; cbn; try discriminate.
  intros ->. inversion P; subst; try reflexivity; exfalso.
  all: match goal with K : In _ operators |- _ => cbn in K; intuition congruence | K : In _ keywords |- _ => cbn in K; intuition congruence end.
Qed.
Definition kept (t : token) : bool := match ttyp t with TComment => false | _ => true end.
Lemma filtered ts : filter (fun t => negb (ttype_eqb (ttyp t) TComment)) ts = filter kept ts.
Proof. apply filter_ext. intros t. unfold kept. now destruct (ttyp t). Qed.
Lemma collapsed ts : Forall (fun t => ttyp t = TComment -> text_is break t = false) ts -> lines (filter kept ts) ->
  forall p q r r', (q = true -> p = true) -> (forall b, thin b r r') -> thin p (filter kept ts ++ r) (filter kept (next_tokens q ts) ++ r').
Proof.
  induction 1 as [|t ts C F IH]; intros Ls p q r r' Q R; [apply R|]. cbn [next_tokens]. change (String.eqb (ident t) (String newline "")) with (text_is break t).
  cbn [filter] in *. destruct (kept t) eqn:K.
  - inversion Ls as [|? ? L1 L2]; subst. destruct (text_is break t) eqn:B.
    + rewrite (L1 eq_refl) in *. destruct q.
      * rewrite (Q eq_refl). cbn [app]. apply thin_drop. apply IH; auto.
      * cbn [filter]. rewrite K. cbn [app]. apply thin_keep. apply IH; auto.
    + cbn [filter]. rewrite K. cbn [app]. apply thin_other; [exact B|]. apply IH; auto.
  - assert (Tc : ttyp t = TComment) by (unfold kept in K; destruct (ttyp t); congruence). rewrite (C Tc). cbn [filter]. rewrite K. apply IH; auto; discriminate.
Qed.
Theorem stacked src ts fs : tokens_of src ts -> g_prog (filter kept ts ++ [Tok TEOF ""]) fs -> g_prog (stack_all_tokens ts) fs.
Proof.
  intros T G. unfold stack_all_tokens. rewrite filtered. apply (thin_prog _ _ G false). apply collapsed.
  - eapply comment_text. exact T.
  - apply prog_lines in G. apply Forall_app in G. apply G.
  - auto.
  - intros b. apply thin_other; [reflexivity|constructor].
Qed.
Theorem text_read text fs : is_program text fs -> exists n0 ts cs, (forall n, lex (n0 + n) text = SparseModel.Ret ts) /\ parse_tokens (stack_all_tokens ts) = Some (Some cs) /\ enc_prog fs cs.
Proof.
  intros (ts & T & G). destruct (tokens_read _ _ (stacked _ _ _ T G)) as (cs & E & En). destruct (lex_complete _ _ T []) as [n0 L].
  exists n0, ts, cs. split; auto. intros n. unfold lex. now apply run_ret_more.
Qed.

(** * One meaning per text *)
Scheme enc_mind := Minimality for enc Sort Prop with encs_mind := Minimality for encs Sort Prop.
Combined Scheme enc_both from enc_mind, encs_mind.
Scheme enc_stmt_mind := Minimality for enc_stmt Sort Prop with enc_block_mind := Minimality for enc_block Sort Prop.
Combined Scheme enc_code from enc_stmt_mind, enc_block_mind.
(** The two built-in functions with a form of their own. *)
Inductive own : exp -> Prop :=
| own_num s : own (Num s)
| own_var x : own (Var x)
| own_bin o a b : own a -> own b -> own (Bin o a b)
| own_base e : own e -> own (Base e)
| own_call f es : f <> "scalarBaseMultiply" -> owns es -> own (Call f es)
| own_idx a es : owns es -> own (Idx a es)
with owns : list exp -> Prop :=
| owns_nil : owns []
| owns_cons e es : own e -> owns es -> owns (e :: es).
Definition own_cond (c : cond) : Prop := own (cleft c) /\ own (cright c).
Inductive own_stmt : stmt -> Prop :=
| own_decl x e : own e -> own_stmt (Decl x e)
| own_assign x e : own e -> own_stmt (Assign x e)
| own_equal a b : own a -> own b -> own_stmt (Equal a b)
| own_do f es : f <> "equal" -> owns es -> own_stmt (Do f es)
| own_return e : own e -> own_stmt (Return e)
| own_for c x e b : own_cond c -> own e -> own_block b -> own_stmt (For c x e b)
| own_if c b : own_cond c -> own_block b -> own_stmt (If c b)
| own_public x : own_stmt (Public x)
| own_put a es e : owns es -> own e -> own_stmt (Put a es e)
| own_array x : own_stmt (Array x)
with own_block : list stmt -> Prop :=
| own_none : own_block []
| own_more t b : own_stmt t -> own_block b -> own_block (t :: b).
Lemma grammar_own : (forall ts e, g_operand ts e -> own e) /\ (forall ts e, g_chain ts e -> own e) /\ (forall ts es, g_args ts es -> owns es) /\ (forall ts es, g_indices ts es -> owns es).
Proof. apply g_exp_ind; intros; auto; repeat (constructor; auto). Qed.
Lemma cond_own ts c : g_cond ts c -> own_cond c.
Proof. induction 1; auto. split; cbn; [now apply (proj1 grammar_own) with ts|now apply (proj1 (proj2 grammar_own)) with ts']. Qed.
Lemma block_own ts b : g_block ts b -> own_block b.
Proof.
  assert (X := proj1 (proj2 grammar_own)). assert (Y := proj1 (proj2 (proj2 grammar_own))). assert (Z := proj2 (proj2 (proj2 grammar_own))).
  induction 1; eauto; try (repeat (constructor; eauto using cond_own); fail).
  - constructor; auto. apply Y in H. inversion H; subst. inversion H5; subst. now constructor.
  - cbn [map]. constructor; [constructor|]. clear H. induction xs; cbn [map app]; auto. constructor; auto. constructor.
  - unfold array. cbn [app]. constructor; [constructor|]. apply Y in H0. clear -H0 IHg_block. revert H0. generalize 0 as i. induction es as [|e es IH]; intros i O; cbn [elements app]; auto. inversion O; subst. constructor; [now constructor|auto].
Qed.
Ltac parts := repeat match goal with
  | H : own (_ _) |- _ => inversion H; clear H; subst
  | H : owns (_ :: _) |- _ => inversion H; clear H; subst
  | H : own_stmt (_ _) |- _ => inversion H; clear H; subst
  | H : own_block (_ :: _) |- _ => inversion H; clear H; subst
  end.
Lemma enc_inj : (forall e c, enc e c -> own e -> forall e', enc e' c -> own e' -> e = e') /\ (forall es cs, encs es cs -> owns es -> forall es', encs es' cs -> owns es' -> es = es').
Proof.
  apply enc_both.
  - intros s O e' E' O'. inversion E'; subst; auto.
  - intros s O e' E' O'. inversion E'; subst; auto.
  - intros s o a b ca cb E1 I1 E2 I2 O e' E' O'. inversion E'; subst. parts. f_equal; auto.
  - intros s e c E1 I1 O e' E' O'. inversion E'; subst. auto.
  - intros e c E1 I1 O e' E' O'. inversion E'; subst; parts; [f_equal; auto|easy].
  - intros f es cs E1 I1 O e' E' O'. inversion E'; subst; parts; [easy|f_equal; auto].
  - intros a es cs E1 I1 O e' E' O'. inversion E'; subst; parts. f_equal; auto.
  - intros _ es' E' _. now inversion E'.
  - intros e c es cs E1 I1 E2 I2 O es' E' O'. inversion E'; subst. parts. f_equal; auto.
Qed.
Lemma enc_cond_inj c t c' : enc_cond c t -> own_cond c -> enc_cond c' t -> own_cond c' -> c = c'.
Proof. intros [s o a b ca cb E1 E2] [A B] H [A' B']. inversion H; subst. cbn in *. f_equal; [eapply (proj1 enc_inj a ca)|eapply (proj1 enc_inj b cb)]; auto. Qed.
Definition end_mark (c : ctree) : Prop := ttyp (output c) = TNestedEnd \/ ttyp (output c) = TIfEnd.
Lemma stmt_head t c : enc_stmt t c -> exists h r, c = h :: r /\ ~ end_mark h /\ ttyp (output h) <> TFuncDef /\ ttyp (output h) <> TArrDecl.
Proof. destruct 1; eexists _, _; (split; [reflexivity|]); unfold end_mark; cbn; intuition discriminate. Qed.
Definition stops (r : list ctree) : Prop := match r with [] => True | h :: _ => end_mark h end.
Lemma stops_here c r : ttyp (output c) = TNestedEnd -> stops (c :: r).
Proof. now left. Qed.
Lemma code_inj :
  (forall t c, enc_stmt t c -> own_stmt t -> forall r t' c' r', enc_stmt t' c' -> own_stmt t' -> c ++ r = c' ++ r' -> t = t' /\ r = r') /\
  (forall b c, enc_block b c -> own_block b -> forall r b' c' r', enc_block b' c' -> own_block b' -> stops r -> stops r' -> c ++ r = c' ++ r' -> b = b' /\ r = r').
Proof.
  destruct enc_inj as [I1 I2]. apply enc_code.
  - intros x e c E1 O r t' c' r' E' O' E. destruct E'; cbn in E; try discriminate. parts. injection E as -> -> ->. split; auto. f_equal. eauto.
  - intros s x e c E1 O r t' c' r' E' O' E. destruct E'; cbn in E; try discriminate. parts. injection E as _ -> -> ->. split; auto. f_equal. eauto.
  - intros a b ca cb E1 E2 O r t' c' r' E' O' E. destruct E'; cbn in E; try discriminate; parts; injection E.
    + intros -> -> ->. split; auto. f_equal; eauto.
    + intros. subst. easy.
  - intros f es cs E1 O r t' c' r' E' O' E. destruct E'; cbn in E; try discriminate; parts; injection E.
    + intros. subst. easy.
    + intros -> -> ->. split; auto. f_equal; eauto.
  - intros s e c E1 O r t' c' r' E' O' E. destruct E'; cbn in E; try discriminate. parts. injection E as _ -> ->. split; auto. f_equal. eauto.
  - intros s c cc s1 x e ce body cs fin E1 E2 E3 IH [F _] O r t' c' r' E' O' E. destruct E' as [| | | | |s' c0 cc' s1' x' e' ce' body' cs' fin' E1' E2' E3' [F' _]| | |]; cbn in E; try discriminate.
    injection E as _ Ec _ Ex Ee E. subst. rewrite <- !app_assoc in E. cbn [app] in E. parts.
    destruct (IH ltac:(assumption) _ _ _ _ E3' ltac:(assumption) (stops_here _ _ F) (stops_here _ _ F') E) as [-> E4]. injection E4 as _ ->. split; auto. f_equal; eauto using enc_cond_inj.
  - intros s c cc body cs f1 f2 E1 E3 IH [F _] [F2 _] O r t' c' r' E' O' E. destruct E' as [| | | | | |s' c0 cc' body' cs' f1' f2' E1' E3' [F' _] [F2' _]| |]; cbn in E; try discriminate.
    injection E as _ Ec E. subst. rewrite <- !app_assoc in E. cbn [app] in E. parts.
    destruct (IH ltac:(assumption) _ _ _ _ E3' ltac:(assumption) (stops_here _ _ F) (stops_here _ _ F') E) as [-> E4]. injection E4 as _ _ ->. split; auto. f_equal; eauto using enc_cond_inj.
  - intros x O r t' c' r' E' O' E. destruct E'; cbn in E; try discriminate. injection E as -> ->. auto.
  - intros s a es cs e c Es Ee O r t' c' r' E' O' E. destruct E'; cbn in E; try discriminate. parts. injection E as _ -> -> -> ->. split; auto. f_equal; eauto.
  - intros _ r b' c' r' E' O' S1 S2 E. destruct E' as [|t' b' c1 cs' E1 E2|x' es' ca b' cs' Ne' Ea' E2]; [auto| |]. 2:{ exfalso. cbn in E. subst r. destruct S1; discriminate. } exfalso. destruct (stmt_head _ _ E1) as (h & k & -> & N & _). cbn in E. subst r. easy.
  - intros t b c cs E1 IH1 E2 IH2 O r b' c' r' E' O' S1 S2 E. destruct E' as [|t' b' c1 cs' E1' E2'|x' es' ca b' cs' Ne' Ea' E2'].
    3:{ exfalso. destruct (stmt_head _ _ E1) as (h & k & -> & _ & _ & N). cbn in E. injection E as -> _. now apply N. }
    + exfalso. destruct (stmt_head _ _ E1) as (h & k & -> & N & _). cbn in E. subst r'. easy.
    + parts. rewrite <- !app_assoc in E. destruct (IH1 ltac:(assumption) _ _ _ _ E1' ltac:(assumption) E) as [-> E3].
      destruct (IH2 ltac:(assumption) _ _ _ _ E2' ltac:(assumption) S1 S2 E3) as [-> E4]. auto.
  - intros x es cs b c Ne Ea E2 IH2 O r b' c' r' E' O' S1 S2 E. destruct E' as [|t' b' c1 cs' E1' E2'|x' es' ca b' cs' Ne' Ea' E2'].
    + exfalso. cbn in E. subst r'. destruct S2; discriminate.
    + exfalso. destruct (stmt_head _ _ E1') as (h & k & -> & _ & _ & N). cbn in E. injection E as <- _. now apply N.
    + cbn in E. injection E as -> -> E. assert (Oe : forall es b, own_block (array x' es ++ b) -> owns es /\ own_block b).
      { clear. intros es b O. unfold array in O. cbn [app] in O. inversion O; subst. clear O. revert H2. generalize 0 as i. induction es as [|e es IH]; intros i O; cbn [elements app] in O; [split; [constructor|exact O]|].
        inversion O; subst. destruct (IH _ H3) as [A B]. split; auto. constructor; auto. now inversion H2. }
      destruct (Oe _ _ O) as [O1 O2]. destruct (Oe _ _ O') as [O1' O2']. rewrite (I2 _ _ Ea O1 _ Ea' O1'). destruct (IH2 O2 _ _ _ _ E2' O2' S1 S2 E) as [-> ->]. auto.
Qed.
Lemma map_arguments ps ps' : map (fun x => Con (Tok TArgument x) []) ps = map (fun x => Con (Tok TArgument x) []) ps' -> ps = ps'.
Proof. revert ps'. induction ps as [|x ps IH]; intros [|y ps'] E; try discriminate; auto. injection E as -> E. f_equal. auto. Qed.
Lemma prog_inj fs cs : enc_prog fs cs -> Forall (fun d => own_block (fbody (snd d))) fs -> forall fs', enc_prog fs' cs -> Forall (fun d => own_block (fbody (snd d))) fs' -> fs = fs'.
Proof.
  induction 1 as [|f ps body fs cs fin cs' E1 [F _] E2 IH]; intros O fs' E' O'; inversion E' as [|f' ps' body' fs1 cs1 fin1 cs1' E1' [F1 _] E2' A B]; subst; auto.
  inversion O; subst. inversion O'; subst. cbn in *. match goal with K : map _ _ = map _ _ |- _ => apply map_arguments in K; subst ps' end.
  destruct (proj2 code_inj body cs E1 ltac:(assumption) (fin :: cs') body' cs1 (fin1 :: cs1') E1' ltac:(assumption) (stops_here _ _ F) (stops_here _ _ F1) ltac:(symmetry; assumption)) as [-> E3].
  injection E3 as -> ->. f_equal. auto.
Qed.
Lemma prog_own ts fs : g_prog ts fs -> Forall (fun d => own_block (fbody (snd d))) fs.
Proof. induction 1; auto. constructor; auto. cbn. eapply block_own. eassumption. Qed.
Theorem program_unique text fs fs' : is_program text fs -> is_program text fs' -> fs = fs'.
Proof.
  intros H H'. destruct (text_read _ _ H) as (n & ts & cs & L & P & En). destruct (text_read _ _ H') as (n' & ts' & cs' & L' & P' & En').
  specialize (L n'). specialize (L' n). rewrite Nat.add_comm in L'. rewrite L in L'. injection L' as <-. rewrite P in P'. injection P' as <-.
  destruct H as (? & _ & G). destruct H' as (? & _ & G'). eapply prog_inj; eauto using prog_own.
Qed.
(** * An if at the end of a block *)
Theorem if_last fl n ts c body bs k : g_cond ts c -> g_block body bs -> k <= 1 -> statement_in fl n (Tok TIf "if" :: ts ++ sign "{" :: body ++ sign "}" :: repeat line k) = None.
Proof.
  intros Gc Gb K. destruct n as [|n]; [reflexivity|]. cbn [statement_in].
  set (us := Tok TIf "if" :: ts ++ sign "{" :: body ++ [sign "}"]).
  assert (E : remove_breaks (Tok TIf "if" :: ts ++ sign "{" :: body ++ sign "}" :: repeat line k) = us).
  { replace (Tok TIf "if" :: ts ++ sign "{" :: body ++ sign "}" :: repeat line k) with ((Tok TIf "if" :: ts ++ sign "{" :: body) ++ sign "}" :: repeat line k) by (cbn [app]; rewrite <- app_assoc; reflexivity).
    replace us with ((Tok TIf "if" :: ts ++ sign "{" :: body) ++ [sign "}"]) by (unfold us; cbn [app]; rewrite <- app_assoc; reflexivity).
    unfold remove_breaks, remove_trailing_breaks. destruct k as [|[|k]]; [| |lia]; cbn [repeat].
    - rewrite rev_app_distr. reflexivity.
    - rewrite rev_app_distr. cbn [rev app]. rewrite text_line. rewrite rev_app_distr, rev_involutive. reflexivity. }
  rewrite E. unfold us. clear E us. destruct (cond_parse _ _ Gc) as (c1 & E1 & _). cbn [statement ttyp].
  assert (Arm : if_arm (statement_in fl n) 1 true TIf (Tok TIf "if" :: ts ++ sign "{" :: body ++ [sign "}"]) =
    ParserModel.bind (statement_in fl n body) (fun s => Some (([Con (Tok TIf "") [c1]] ++ fst s ++ [marker TNestedEnd], snd s), []))).
  { unfold if_arm. change (Tok TIf "if" :: ts ++ ?r) with ((Tok TIf "if" :: ts) ++ r). rewrite (split_quiet "{" (Tok TIf "if" :: ts) (sign "{" :: body ++ [sign "}"])); [|constructor; [reflexivity|apply quiet_swing; now apply (cond_read _ _ Gc)]|right; eexists; eexists; split; reflexivity].
    cbn [List.length Nat.ltb Nat.leb skipn]. rewrite E1. cbn [ParserModel.bind]. rewrite (body_split_brace body bs [] Gb). reflexivity. }
  rewrite Arm. destruct (statement_in fl n body); reflexivity.
Qed.
(** * Assignments with an operation *)
Lemma trim_after p w t rest : p = w ++ [t] -> text_is break t = false -> starts p -> line_ends rest -> exists rest', remove_breaks (p ++ rest) = p ++ rest' /\ line_ends rest'.
Proof.
  intros E T S L. assert (S' : forall r, starts (p ++ r)) by (intros r; rewrite E in *; destruct w; exact S). unfold remove_breaks, remove_trailing_breaks. destruct rest as [|r rest _] using rev_ind.
  - exists []. split; auto. rewrite app_nil_r. rewrite E at 1. rewrite rev_app_distr. cbn [rev app]. rewrite T. now rewrite leading_id.
  - rewrite app_assoc, rev_app_distr. cbn [rev app]. rewrite rev_involutive. destruct (text_is break r).
    + exists rest. rewrite (leading_id (p ++ rest)) by apply S'. split; [apply leading_id, S'|]. destruct rest; [exact I|exact L].
    + exists (rest ++ [r]). split; auto. rewrite <- app_assoc. apply leading_id, S'.
Qed.
Theorem compound_fails fl n x o ts e rest : word x -> In o ["+="; "-="; "*="; "/="] -> g_chain ts e -> line_ends rest ->
  statement_in fl n (Tok TIdent x :: Tok TAssign o :: ts ++ rest) = None.
Proof.
  intros W Io C L. destruct n as [|n]; [reflexivity|]. cbn [statement_in]. destruct (chain_end _ _ C) as (w & t & Et & T).
  destruct (trim_after (Tok TIdent x :: Tok TAssign o :: ts) (Tok TIdent x :: Tok TAssign o :: w) t rest) as (rest' & E & L'); auto.
  { now rewrite Et. } { cbn [starts]. now apply word_break. }
  cbn [app] in E. rewrite E. clear E. cbn [statement ttyp].
  assert (Q : quiet ts) by now apply (chain_read _ _ C).
  assert (B : text_is break (Tok TAssign o) = false) by (repeat (destruct Io as [<-|Io]; [reflexivity|]); destruct Io).
  assert (B' : text_is "=" (Tok TAssign o) = false) by (repeat (destruct Io as [<-|Io]; [reflexivity|]); destruct Io).
  assert (S := line_split (Tok TIdent x :: Tok TAssign o :: ts) rest'). cbn [app] in S. rewrite S; auto.
  2:{ constructor; [now apply word_break|]. constructor; auto. now apply quiet_break. }
  unfold overload. assert (S2 := split_quiet "=" (Tok TIdent x :: Tok TAssign o :: ts) []). rewrite app_nil_r in S2. rewrite S2; auto.
  constructor; [|constructor; auto; now apply quiet_eq].
  assert (N := word_special _ W). unfold text_is. cbn [ident]. apply String.eqb_neq. intros ->. apply N. cbn; tauto.
Qed.

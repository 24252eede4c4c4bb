(** Properties of arrays: their elements are separate variables. *)
Require Import ZArith Znumtheory Lia Bool Ascii String List Permutation DecimalString.
Require Import Verif.CurveModel Verif.Pocklington.
Require Import Verif.Cong Verif.SparseModel Verif.FqModel Verif.FactorModel Verif.FactorSpec Verif.FactorProofs Verif.SplitProofs Verif.PropsFactor Verif.ExprModel Verif.ExprSpec Verif.ExprProofs Verif.PropsExpr
  Verif.R1csModel Verif.WitnessModel Verif.LexerModel Verif.LexerSpec Verif.LexerProofs Verif.ParserModel Verif.SourceSpec Verif.SourceProofs Verif.WriteSpec
  Verif.CircuitModel Verif.LangSpec Verif.LangHeap Verif.LangSym Verif.LangTree Verif.LangScope Verif.LangRun Verif.LangBuild Verif.LangTotal Verif.LangEnds Verif.LangAccept Verif.OpsProofs
  Verif.PropsLang Verif.PropsProgram Verif.PropsSource Verif.PropsAccept.
Import ListNotations.
Local Open Scope string_scope.
Local Open Scope list_scope.
Local Open Scope nat_scope.

Lemma dec_chars z : Forall (fun c => c <> "]"%char) (chars (dec z)).
Proof.
  assert (U : forall u, Forall (fun c => c <> "]"%char) (chars (NilEmpty.string_of_uint u))) by (induction u; constructor; auto; discriminate).
  assert (V : forall u, Forall (fun c => c <> "]"%char) (chars (NilZero.string_of_uint u))) by (intros []; [repeat constructor; discriminate|apply U..]).
  unfold dec. destruct (Z.to_int z) as [u|u]; cbn; [apply V|]. constructor; [discriminate|apply V].
Qed.
Lemma chars_app a b : chars (a ++ b)%string = chars a ++ chars b.
Proof. unfold chars. induction a; cbn; [reflexivity|]. now f_equal. Qed.
Lemma chars_inj a b : chars a = chars b -> a = b.
Proof. unfold chars. intros H. apply (Logic.f_equal string_of_list_ascii) in H. now rewrite !string_of_list_ascii_of_string in H. Qed.
Lemma cut_same c : forall u u' v v' : list ascii, Forall (fun x => x <> c) u -> Forall (fun x => x <> c) u' -> u ++ c :: v = u' ++ c :: v' -> u = u' /\ v = v'.
Proof.
  induction u as [|x u IH]; intros [|x' u'] v v' A B H; cbn in H.
  - injection H as ->. auto.
  - injection H as H1 H2. subst. inversion B; now subst.
  - injection H as H1 H2. subst. inversion A; now subst.
  - injection H as H1 H2. subst. inversion A; inversion B; subst. destruct (IH u' v v') as [-> ->]; auto.
Qed.
Lemma brackets_inj : forall l l', brackets l = brackets l' -> l = l'.
Proof.
  induction l as [|i l IH]; intros [|i' l'] H; cbn [brackets] in H; auto; try discriminate.
  injection H as H. apply (Logic.f_equal chars) in H. rewrite !chars_app in H. apply cut_same in H; [|apply dec_chars..]. destruct H as [A B].
  apply chars_inj, SplitProofs.dec_inj in A. apply chars_inj, IH in B. congruence.
Qed.
(** Elements of arrays of different names, and elements with different indices, have different names; none is the name
    of another variable (no indices). *)
Theorem C87_names : forall a b l l', word a -> word b -> element a l = element b l' -> a = b /\ l = l'.
Proof.
  assert (Sh : forall a b l l', Forall word_char (chars a) -> Forall word_char (chars b) -> element a l = element b l' -> a = b).
  { unfold element. intros a b l l' A B H. apply chars_inj. apply (Logic.f_equal chars) in H. rewrite !chars_app in H. revert A H. generalize (chars a) as u. revert B. generalize (chars b) as u'. clear a b.
    assert (N : forall l c r, chars (brackets l) = c :: r -> ~ word_char c) by (intros [|i k] c r; [discriminate|]; intros [= <- _] W; apply LexerProofs.is_word_ok in W; discriminate W).
    intros u' B u A. revert u' B. induction A as [|c u Hc _ IH]; intros u' B H; destruct u' as [|c' u']; auto; cbn [app] in H.
    - inversion B; subst. now destruct (N _ _ _ H).
    - now destruct (N _ _ _ (eq_sym H)).
    - injection H as <- H. inversion B; subst. f_equal. auto. }
  intros a b l l' [_ A] [_ B] H. assert (E := Sh _ _ _ _ A B H). subst b. split; auto. apply brackets_inj. unfold element in H. clear -H. induction a; cbn in H; [auto|]. injection H as H. auto.
Qed.
Print Assumptions C87_names.
Lemma find_put_same {A} x (v : A) : forall m, find_at x m <> None -> find_at x (put_at x v m) = Some v.
Proof. induction m as [|[y b] m IH]; cbn; [easy|]. destruct (String.eqb x y) eqn:E; cbn; rewrite E; auto. Qed.
Lemma find_put_other {A} x y (v : A) : x <> y -> forall m, find_at y (put_at x v m) = find_at y m.
Proof.
  intros N. induction m as [|[z b] m IH]; cbn; auto. destruct (String.eqb_spec x z) as [->|Nx]; cbn; [|now rewrite IH].
  destruct (String.eqb_spec y z); [congruence|reflexivity].
Qed.
(** An assignment to an element changes that element and nothing else. *)
Theorem C87_assign : forall D fs m s a es e m' v b s', word a -> xs D fs m s (Put a es e) m' v b s' ->
  exists l u, idxs D fs m es l /\ ev D fs m s e u s' /\ v = Some u /\ find_at (element a l) m' = Some u /\
    forall c k, word c -> (c, k) <> (a, l) -> find_at (element c k) m' = find_at (element c k) m.
Proof.
  intros D fs m s a es e m' v b s' W H. inversion H; subst. exists l, v0. repeat (split; auto); [now apply find_put_same|].
  intros c k Wc N. apply find_put_other. intros E. destruct (C87_names _ _ _ _ W Wc E) as [-> ->]. now apply N.
Qed.
Print Assumptions C87_assign.
(** Declaring an array declares its elements, numbered from 0, each with the value of its expression. *)
Theorem C87_declare : forall D fs x es rest m s m' r s', xb D fs m s (array x es ++ rest) m' r s' ->
  exists vs s1, List.length vs = List.length es /\
    xb D fs (m ++ combine (map (fun i => element x [Z.of_nat i]) (seq 0 (List.length es))) vs) s1 rest m' r s' /\
    forall i e, nth_error es i = Some e -> exists u t t', nth_error vs i = Some u /\
      ev D fs (m ++ firstn i (combine (map (fun i => element x [Z.of_nat i]) (seq 0 (List.length es))) vs)) t e u t'.
Proof.
  intros D fs x es rest m s m' r s' H. unfold array in H. cbn [app] in H.
  assert (H0 : xb D fs m s (elements x 0 es ++ rest) m' r s') by (inversion H; subst; match goal with K : xs _ _ _ _ (Array _) _ _ _ _ |- _ => inversion K; subst end; auto).
  clear H. revert m s H0. generalize 0 as k. induction es as [|e es IH]; intros k m s H; cbn [elements app] in H.
  - exists [], s. split; [reflexivity|]. cbn. rewrite app_nil_r. split; auto. intros [|i] e; discriminate.
  - inversion H; subst; match goal with K : xs _ _ _ _ (Decl _ _) _ _ _ _ |- _ => inversion K; subst end.
    match goal with K : xb _ _ _ _ (elements _ _ _ ++ _) _ _ _ |- _ => destruct (IH _ _ _ K) as (vs & t & Lv & X & Y) end.
    match goal with K : ev _ _ _ _ e ?u ?z |- _ => exists (u :: vs), t; split; [cbn; congruence|]; cbn [List.length seq map combine]; rewrite <- app_assoc in X; split; [exact X|];
      intros [|i] e0 Ei; cbn [nth_error] in Ei; [injection Ei as <-; exists u, s, z; split; [reflexivity|]; cbn [firstn]; rewrite app_nil_r; exact K|] end.
    destruct (Y i e0 Ei) as (u & t1 & t2 & A & B). exists u, t1, t2. split; [exact A|]. cbn [firstn]. rewrite <- app_assoc in B. exact B.
Qed.
Print Assumptions C87_declare.

(** A program with an array, a loop over its elements and computed indices. *)
Definition C87_text := "
func main(x,y){
	var a[] = {x, y*y, 3}
	var i = 0
	for( i<2 ; i=i+1){
		a[i] = a[i+1]*x
	}
	return a[0]+a[1]
}
".
Definition C87_defs : defs :=
  [("main", Fun ["x"; "y"]
     (array "a" [Var "x"; Bin "*" (Var "y") (Var "y"); Num "3"] ++
     [Decl "i" (Num "0");
      For (Cmp "<" (Var "i") (Num "2")) "i" (Bin "+" (Var "i") (Num "1"))
        [Put "a" [Var "i"] (Bin "*" (Idx "a" [Bin "+" (Var "i") (Num "1")]) (Var "x"))];
      Return (Bin "+" (Idx "a" [Num "0"]) (Idx "a" [Num "1"]))]))].
Definition C87_tokens : list token := Eval vm_compute in tokens_in C87_text.
Lemma C87_lex : lex 1000 C87_text = SparseModel.Ret C87_tokens.
Proof. vm_compute. reflexivity. Qed.
Lemma C87_program : is_program C87_text C87_defs.
Proof.
  exists C87_tokens. split; [apply (lexed 1000); exact C87_lex|].
  match goal with |- g_prog ?l _ => let l' := eval vm_compute in l in change (g_prog l' C87_defs) end. unfold C87_defs.
  apply g_prog_line. fn 5 ["x"; "y"].
  { apply g_line.
    match goal with |- g_block (?t1 :: ?t2 :: ?t3 :: ?t4 :: ?t5 :: ?t6 :: ?L) ?b => let a := first_of 7 L in let r := rest_of 8 L in change (g_block (t1 :: t2 :: t3 :: t4 :: t5 :: t6 :: a ++ sign "}" :: r) b) end.
    apply g_array; [wd| |discriminate| |reflexivity].
    { cut 1. apply g_more; [leaf| |discriminate]. cut 3. apply g_more; [link; leaf|apply g_one; leaf|discriminate]. }
    apply g_line. 
    match goal with |- ?g (?t :: ?u :: ?v :: ?L) ?b => let a := first_of 1 L in let r := rest_of 1 L in change (g (t :: u :: v :: a ++ r) b) end.
    apply g_decl; [wd|leaf| |reflexivity]. apply g_line.
    match goal with |- g_block (?a :: ?b :: ?L) ?bs => let c := first_of 3 L in let L1 := rest_of 6 L in let e := first_of 3 L1 in let L2 := rest_of 5 L1 in let s := eval vm_compute in (split_at_closing_swing L2) in
      match s with Some (Some (?body, ?rest)) => change (g_block (a :: sign "(" :: c ++ sign ";" :: Tok TIdent "i" :: Tok TAssign "=" :: e ++ sign ")" :: repeat line 0 ++ sign "{" :: body ++ sign "}" :: rest) bs) end end.
    apply g_for; [|wd| | |].
    - cut 1. apply g_cmp; [oper|cbn; tauto|leaf].
    - link. leaf.
    - apply g_line.
      match goal with |- g_block (?t :: ?L) ?b => let i := first_of 3 L in let L1 := rest_of 4 L in let e := first_of 8 L1 in let r := rest_of 8 L1 in change (g_block (t :: i ++ Tok TAssign "=" :: e ++ r) b) end.
      apply g_put; [wd|apply (g_index [_]); leaf| |apply g_line, g_empty|reflexivity].
      cut 6. apply g_link; [|cbn; tauto|leaf]. apply g_element; [wd|]. apply (g_index [_; _; _]). link. leaf.
    - apply g_line. match goal with |- g_block (?t :: ?L) ?b => let a := first_of 9 L in change (g_block (t :: a ++ repeat line 1) b) end. apply g_return.
      cut 4. apply g_link; [apply g_element; [wd|apply (g_index [_]); leaf]|cbn; tauto|]. apply g_last. apply g_element; [wd|apply (g_index [_]); leaf]. }
  repeat apply g_prog_line. apply g_end.
Qed.
Definition C87_plain : defs :=
  [("main", Fun ["x"; "y"]
     [Array "a"; Decl "a[0]" (Var "x"); Decl "a[1]" (Bin "*" (Var "y") (Var "y")); Decl "a[2]" (Num "3"); Decl "i" (Num "0");
      For (Cmp "<" (Var "i") (Num "2")) "i" (Bin "+" (Var "i") (Num "1"))
        [Put "a" [Var "i"] (Bin "*" (Idx "a" [Bin "+" (Var "i") (Num "1")]) (Var "x"))];
      Return (Bin "+" (Idx "a" [Num "0"]) (Idx "a" [Num "1"]))])].
Lemma C87_same : C87_defs = C87_plain.
Proof. vm_compute. reflexivity. Qed.
Lemma C87_ok : prog_ok C87_defs /\ publics_at_main C87_defs.
Proof.
  rewrite C87_same. split.
  - split; [repeat (constructor; [apply absent; reflexivity|]); constructor|].
    constructor; [|constructor]; unfold fun_ok; cbn [fst snd fparams fbody]; heading.
    lazy beta iota zeta delta [block_ok stmt_ok exp_ok app cond_ok cleft cright new_ok name_ok]. scope; try discriminate.
    all: first [apply array_okb_ok; [split; [reflexivity|apply absent; reflexivity]|reflexivity] | constructor; [apply present; reflexivity|constructor]].
  - intros f d [E|[]]; injection E as <- <-; cbn [fbody]; repeat (apply Forall_cons; [left; reflexivity|]); apply Forall_nil.
Qed.
(** With x = 2 and y = 5: a[0] = a[1] * x = 50, then a[1] = a[2] * x = 6. *)
Definition C87_w (x : string) : Z := if String.eqb x "x" then 2%Z else if String.eqb x "y" then 5%Z else 0%Z.
Lemma C87_means gx : program_means Order gx C87_defs C87_w (Some (Wire 56)) [].
Proof.
  rewrite C87_same. eexists _, _. split; [reflexivity|].
  change (map (fun x => (x, Wire (C87_w x))) ["x"; "y"]) with [("x", Wire 2); ("y", Wire 5)]. cbn [app].
  assert (Q : (2 ^ 63 <= Order)%Z) by (intros X; discriminate X).
  assert (Known_num : forall m s x z, set_string10 x = Some z -> (z mod Order = z)%Z -> ev (field_values Order gx) C87_plain m s (Num x) (Known z) s).
  { intros m s x z E M. apply ev_num. exists z. split; [exact E|now rewrite M]. }
  eapply mb_cons; [apply xs_array|reflexivity|]. eapply mb_cons; [apply xs_decl; field_ev|reflexivity|]. cbn [app].
  eapply mb_cons; [apply xs_decl; eapply ev_bin; [field_ev|field_ev|]|reflexivity|].
  { split; [apply value_left with (z := 25%Z), result_mul; cong|reflexivity]. }
  cbn [app]. eapply mb_cons; [apply xs_decl; apply (Known_num _ _ "3" 3%Z); reflexivity|reflexivity|]. cbn [app].
  eapply mb_cons; [apply xs_decl; apply (Known_num _ _ "0" 0%Z); reflexivity|reflexivity|]. cbn [app].
  set (env := fun (u v : Z) (k : Z) => [("x", Wire 2); ("y", Wire 5); ("a[0]", Wire u); ("a[1]", Wire v); ("a[2]", Known 3); ("i", Known k)]).
  assert (Inc : forall u v k s, (0 <= k < 10)%Z -> ev (field_values Order gx) C87_plain (env u v k) s (Bin "+" (Var "i") (Num "1")) (Known (k + 1)) s).
  { intros u v k s B. eapply ev_bin; [field_ev|apply (Known_num _ _ "1" 1%Z); reflexivity|]. split; [|reflexivity]. apply value_known; [unfold Order; lia|]. apply result_add. reflexivity. }
  assert (Lt : forall u v k b, (k <? 2)%Z = b -> test (field_values Order gx) C87_plain (env u v k) (Cmp "<" (Var "i") (Num "2")) b).
  { intros u v k b <-. eapply test_cmp; [field_ev|apply (Known_num _ _ "2" 2%Z); reflexivity|]. apply cmp_lt. }
  eapply mb_cons; [|reflexivity|].
  { change [("x", Wire 2); ("y", Wire 5); ("a[0]", Wire 2); ("a[1]", Wire 25); ("a[2]", Known 3); ("i", Known 0)] with (env 2 25 0)%Z.
    eapply xs_for with (m1 := env 50%Z 25%Z 0%Z); [apply Lt; reflexivity| |apply (Inc 50 25 0)%Z; lia|discriminate|].
    { eapply xb_cons; [|apply xb_nil]. change (env 50 25 0)%Z with (put_at (element "a" [0%Z]) (Wire 50) (env 2 25 0)%Z). eapply xs_set; [|eapply ev_bin|discriminate].
      - eapply idxs_cons; [field_ev|split; [reflexivity|split; [split; [lia|reflexivity]|exact Q]]|apply idxs_nil].
      - eapply ev_idx; [eapply idxs_cons; [apply (Inc 2 25 0)%Z; lia|split; [reflexivity|split; [split; [lia|reflexivity]|exact Q]]|apply idxs_nil]|reflexivity|reflexivity].
      - field_ev.
      - split; [apply value_left with (z := 50%Z), result_mul; cong|reflexivity]. }
    change (put_at "i" (Known (0 + 1)) (firstn (List.length (env 2 25 0)%Z) (env 50 25 0)%Z)) with (env 50 25 1)%Z.
    eapply xs_for with (m1 := env 50%Z 6%Z 1%Z); [apply Lt; reflexivity| |apply (Inc 50 6 1)%Z; lia|discriminate|].
    { eapply xb_cons; [|apply xb_nil]. change (env 50 6 1)%Z with (put_at (element "a" [1%Z]) (Wire 6) (env 50 25 1)%Z). eapply xs_set; [|eapply ev_bin|discriminate].
      - eapply idxs_cons; [field_ev|split; [reflexivity|split; [split; [lia|reflexivity]|exact Q]]|apply idxs_nil].
      - eapply ev_idx; [eapply idxs_cons; [apply (Inc 50 25 1)%Z; lia|split; [reflexivity|split; [split; [lia|reflexivity]|exact Q]]|apply idxs_nil]|reflexivity|reflexivity].
      - field_ev.
      - split; [apply value_right with (z := 6%Z), result_mul; cong|reflexivity]. }
    change (put_at "i" (Known (1 + 1)) (firstn (List.length (env 50 25 1)%Z) (env 50 6 1)%Z)) with (env 50 6 2)%Z.
    apply xs_for_end. apply Lt. reflexivity. }
  eapply mb_return; [|reflexivity]. apply xs_return. eapply ev_bin.
  - eapply ev_idx; [eapply idxs_cons; [apply (Known_num _ _ "0" 0%Z); reflexivity|split; [reflexivity|split; [split; [lia|reflexivity]|exact Q]]|apply idxs_nil]|reflexivity|reflexivity].
  - eapply ev_idx; [eapply idxs_cons; [apply (Known_num _ _ "1" 1%Z); reflexivity|split; [reflexivity|split; [split; [lia|reflexivity]|exact Q]]|apply idxs_nil]|reflexivity|reflexivity].
  - split; [apply value_left with (z := 56%Z), result_add; cong|reflexivity].
Qed.
Lemma C87_checked : checked (run_all sort_factors toy_hash Order 1000 (tree_of 1000 C87_text)) 3 = true.
Proof. vm_compute. reflexivity. Qed.
Lemma C87_tree : tree_of 1000 C87_text <> [].
Proof. vm_compute. discriminate. Qed.
Example C87_case : exists r st w, is_program C87_text C87_defs /\ prog_ok C87_defs /\ prime Order /\ program_means Order (fun _ => 0%Z) C87_defs C87_w (Some (Wire 56)) [] /\
  compile_text sort_factors toy_hash Order 1000 C87_text = Done (r, st) /\ no_collision (strace st) /\ Forall distinct_names (sstored st) /\ List.length (gates (scoll st)) = 3 /\
  w "x" = 2%Z /\ w "y" = 5%Z /\ all_hold Order (fun _ => 0%Z) w (gates (scoll st)) /\ lin w (strip (rvals r)) ==[Order] 56.
Proof.
  destruct (checked_ok _ _ C87_checked) as (p & r & st & E & H1 & D & H3). apply run_all_inv in E. destruct E as [Eb Er].
  assert (C : compile_text sort_factors toy_hash Order 1000 C87_text = Done (r, st)).
  { refine (tree_text _ _ _ _ _ _ _ _ _ Eb Er). exact C87_tree. }
  destruct (C83_complete _ _ _ (fun _ => 0%Z) _ _ _ _ _ C87_w _ _ sort_factors_perm prime_Order C87_program (proj1 C87_ok) C H1 D (C87_means _) (Forall_nil _)) as (w & W1 & W2 & W3).
  exists r, st, w. split; [exact C87_program|]. split; [exact (proj1 C87_ok)|]. split; [exact prime_Order|]. split; [exact (C87_means _)|]. split; [exact C|]. split; [exact H1|]. split; [exact D|]. split; [exact H3|].
  split; [rewrite W1; [reflexivity|split; [reflexivity|apply absent; reflexivity]]|]. split; [rewrite W1; [reflexivity|split; [reflexivity|apply absent; reflexivity]]|]. split; [exact W2|exact W3].
Qed.

(** Arrays as parameters: their elements in order, the last index running fastest. *)
Definition C87_header := "
func main(v[2][2],y){
	return f(v[1][0],v[0][1],y)
}
func f(a[2],c){
	return a[0]*a[1]+c
}
".
Definition C87_functions : defs :=
  [("main", Fun ["v[0][0]"; "v[0][1]"; "v[1][0]"; "v[1][1]"; "y"]
     [Return (Call "f" [Idx "v" [Num "1"; Num "0"]; Idx "v" [Num "0"; Num "1"]; Var "y"])]);
   ("f", Fun ["a[0]"; "a[1]"; "c"] [Return (Bin "*" (Idx "a" [Num "0"]) (Bin "+" (Idx "a" [Num "1"]) (Var "c")))])].
Definition C87_header_tokens : list token := Eval vm_compute in tokens_in C87_header.
Lemma C87_header_lex : lex 1000 C87_header = SparseModel.Ret C87_header_tokens.
Proof. vm_compute. reflexivity. Qed.
Ltac fna k := match goal with |- g_prog (?a :: ?b :: ?c :: ?L) ?fs => let hs := first_of k L in let L2 := rest_of (S (S k)) L in let s := eval vm_compute in (split_at_closing_swing L2) in
  match s with Some (Some (?body, ?rest)) => change (g_prog (a :: b :: sign "(" :: hs ++ sign ")" :: sign "{" :: body ++ sign "}" :: rest) fs) end end; apply g_func; [wd| | |].
Ltac size := split; [discriminate|split; [repeat (constructor; [cbn; tauto|]); constructor|split; reflexivity]].
Lemma C87_params : is_program C87_header C87_functions.
Proof.
  exists C87_header_tokens. split; [apply (lexed 1000); exact C87_header_lex|].
  match goal with |- g_prog ?l _ => let l' := eval vm_compute in l in change (g_prog l' C87_functions) end. unfold C87_functions.
  apply g_prog_line. fna 9.
  { change (g_params (([Tok TIdent "v"] ++ flat_map (fun d => [sign "["; Tok TNumber d; sign "]"]) ["2"; "2"]) ++ sign "," :: [Tok TIdent "y"]) (map (element "v") (positions (map decimal ["2"; "2"])) ++ ["y"])).
    apply g_params_more; [|apply g_params_one, g_param_name; wd|discriminate]. apply g_param_array; [wd|discriminate|]. constructor; [size|constructor; [size|constructor]]. }
  { apply g_line. match goal with |- g_block (?t :: ?L) ?b => let a := first_of 20 L in change (g_block (t :: a ++ repeat line 1) b) end. apply g_return. apply g_last.
    match goal with |- g_operand (?a :: ?b :: ?L) ?e => let s := first_of 17 L in change (g_operand (a :: b :: s ++ [sign ")"]) e) end. apply g_call; [wd|discriminate|].
    cut 7. apply g_more; [| |discriminate]; [apply g_last, g_element; [wd|]; apply (g_index_more [_]); [leaf|apply (g_index [_]); leaf]|].
    cut 7. apply g_more; [| |discriminate]; [apply g_last, g_element; [wd|]; apply (g_index_more [_]); [leaf|apply (g_index [_]); leaf]|]. apply g_one. leaf. }
  apply g_prog_line. fna 6.
  { change (g_params (([Tok TIdent "a"] ++ flat_map (fun d => [sign "["; Tok TNumber d; sign "]"]) ["2"]) ++ sign "," :: [Tok TIdent "c"]) (map (element "a") (positions (map decimal ["2"])) ++ ["c"])).
    apply g_params_more; [|apply g_params_one, g_param_name; wd|discriminate]. apply g_param_array; [wd|discriminate|]. constructor; [size|constructor]. }
  { apply g_line. match goal with |- g_block (?t :: ?L) ?b => let a := first_of 11 L in change (g_block (t :: a ++ repeat line 1) b) end. apply g_return.
    cut 4. apply g_link; [apply g_element; [wd|apply (g_index [_]); leaf]|cbn; tauto|]. cut 4. apply g_link; [apply g_element; [wd|apply (g_index [_]); leaf]|cbn; tauto|leaf]. }
  repeat apply g_prog_line. apply g_end.
Qed.
Lemma C87_header_ok : prog_ok C87_functions /\ publics_at_main C87_functions.
Proof.
  split.
  - split; [repeat (constructor; [apply absent; reflexivity|]); constructor|].
    assert (C : callable C87_functions "f" 3) by (split; [discriminate|eexists; split; reflexivity]).
    assert (G : gives C87_functions "f") by (eexists; split; [reflexivity|]; eexists; left; reflexivity).
    constructor; [|constructor; [|constructor]]; unfold fun_ok; cbn [fst snd fparams fbody]; heading.
    all: lazy beta iota zeta delta [block_ok stmt_ok exp_ok app cond_ok cleft cright new_ok name_ok]; scope; try discriminate.
    all: apply array_okb_ok; [split; [reflexivity|apply absent; reflexivity]|reflexivity].
  - intros f d [E|[E|[]]]; injection E as <- <-; cbn [fbody]; repeat (apply Forall_cons; [left; reflexivity|]); apply Forall_nil.
Qed.
Example C87_header_case : exists cs n0 p, constraints C87_header cs /\ enc_prog C87_functions cs /\ (forall n, n0 <= n -> build sort_factors toy_hash Order n cs = Done p) /\
  forall n, n0 <= n -> compile_text sort_factors toy_hash Order n C87_header = run_program sort_factors toy_hash Order n p.
Proof. exact (C85_text _ _ _ _ _ C87_params (proj1 C87_header_ok) (proj2 C87_header_ok)). Qed.

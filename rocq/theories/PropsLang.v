(** Properties of the compiler: constraints in, gates out, compared with the meaning of the program. *)
Require Import ZArith Znumtheory Lia Bool Ascii String List Permutation.
Require Import Verif.Cong Verif.FqModel Verif.FactorModel Verif.FactorSpec Verif.FactorProofs Verif.PropsFactor Verif.ExprModel Verif.ExprSpec Verif.ExprProofs Verif.PropsExpr
  Verif.LexerModel Verif.ParserModel Verif.CircuitModel Verif.LangSpec Verif.LangHeap Verif.LangSym Verif.LangTree Verif.LangScope Verif.LangLater Verif.LangRun Verif.LangBuild Verif.LangField.
Import ListNotations.
Local Open Scope string_scope.
Local Open Scope list_scope.
Local Open Scope nat_scope.

Lemma main_params fs ins body : prog_ok fs -> find_at "main" fs = Some (Fun ins body) -> Forall name_ok ins.
Proof.
  intros [_ H] E. assert (I : exists x, In (x, Fun ins body) fs).
  { clear H. induction fs as [|[y d] fs IH]; [discriminate|]. cbn [find_at] in E. destruct (String.eqb "main" y); [injection E as ->; exists y; now left|].
    destruct (IH E) as [x Ix]. exists x. now right. }
  destruct I as [x I]. rewrite Forall_forall in H. destruct (H _ I) as (_ & _ & A & _). eapply Forall_impl; [|exact A]. now intros y [].
Qed.
Lemma argument_good q x : name_ok x -> good q (argument x).
Proof. intros [A B]. apply good_wire; [|exact B]. intros ->. destruct A. Qed.
Lemma start_inv : Inv (Coll [] []) [].
Proof. split; [constructor|]. exists []. repeat split; auto; now intros x. Qed.

(** ** C74.  If the gates hold then the program's result, and every equality it asks for, hold. *)
Theorem C74_sound : forall sort hash q gx fs cs n n' p r st w v asked, (forall l, Permutation (sort l) l) -> prime q ->
  prog_ok fs -> enc_prog fs cs -> build sort hash q n cs = Done p -> run_program sort hash q n' p = Done (r, st) ->
  no_collision (strace st) -> Forall distinct_names (sstored st) -> all_hold q gx w (gates (scoll st)) ->
  program_means q gx fs w v asked ->
  match v with Some u => lin w (strip (rvals r)) ==[q] num_of u | None => strip (rvals r) = [] end /\
  Forall (fun e => fst e ==[q] snd e) asked.
Proof.
  intros sort hash q gx fs cs n n' p r st w v asked Hs Hq Pk En Eb Er NC Dn HA (ins & body & Em & M).
  destruct (runs_symbolic sort hash q fs Pk cs n n' p r st En Eb Er Dn) as (ins' & body' & Em' & M' & _).
  rewrite Em in Em'. injection Em' as <- <-. assert (Np := main_params _ _ _ Pk Em).
  destruct (main_sound sort Hs hash q Hq gx fs w _ _ _ _ _ M' (map (fun x => (x, Wire (w x))) ins) [] v asked) as [A B]; [| | | |exact M|].
  - clear -Np. induction Np; constructor; auto. now apply argument_good.
  - exact start_inv.
  - split; auto.
  - clear. induction ins as [|x ins IH]; constructor; auto. split; [reflexivity|]. split; [exact I|]. cbn [snd argument num_of]. change (argument x) with (wire x 1). rewrite lin_wire, Z.mul_1_l. reflexivity.
  - split; [|apply B; split; constructor]. destruct (strip (rvals r)) as [|x f]; destruct v as [v|]; cbn in A; try contradiction; auto. destruct A as [_ A]. now symmetry.
Qed.
Print Assumptions C74_sound.

(** ** C75.  If every equality the program asks for holds then the gates can be satisfied, with the same
    inputs and the program's result. *)
Theorem C75_complete : forall sort hash q gx fs cs n n' p r st w v asked, (forall l, Permutation (sort l) l) -> prime q ->
  prog_ok fs -> enc_prog fs cs -> build sort hash q n cs = Done p -> run_program sort hash q n' p = Done (r, st) ->
  no_collision (strace st) -> Forall distinct_names (sstored st) ->
  program_means q gx fs w v asked -> Forall (fun e => fst e ==[q] snd e) asked ->
  exists w', (forall x, name_ok x -> w' x = w x) /\ all_hold q gx w' (gates (scoll st)) /\
    match v with Some u => lin w' (strip (rvals r)) ==[q] num_of u | None => strip (rvals r) = [] end.
Proof.
  intros sort hash q gx fs cs n n' p r st w v asked Hs Hq Pk En Eb Er NC Dn (ins & body & Em & M) HA.
  destruct (runs_symbolic sort hash q fs Pk cs n n' p r st En Eb Er Dn) as (ins' & body' & Em' & M' & _).
  rewrite Em in Em'. injection Em' as <- <-. assert (Np := main_params _ _ _ Pk Em).
  assert (Hh : hashed (scoll st)) by (apply (main_hashed sort hash q fs _ _ _ _ _ M'); constructor).
  destruct (main_exists sort Hs hash q Hq gx fs name_ok _ _ _ _ _ M' w (map (fun x => (x, Wire (w x))) ins) [] v asked) as (w' & (_ & _ & A) & [_ E] & B); auto.
  - split; [exact start_inv|]. split; constructor.
  - clear -Np. induction Np as [|x ins Hx _ IH]; constructor; auto. split; [reflexivity|]. split; [now apply argument_good|]. split; [apply (wire_in _ x 1); now left|]. split; [exact I|].
    cbn [snd num_of]. change (argument x) with (wire x 1). rewrite lin_wire, Z.mul_1_l. reflexivity.
  - split; auto. now apply hashed_apart.
  - exists w'. split; [intros x Hx; apply E; now left|]. split; auto.
    destruct (strip (rvals r)) as [|x f]; destruct v as [v|]; cbn in B; try contradiction; auto. destruct B as (_ & _ & _ & B). now symmetry.
Qed.
Print Assumptions C75_complete.

(** A program with a loop, a branch, a call, a quotient and an equality, from its text. *)
Definition C74_text := "
func main(x,y){
	var s = x
	var k = 0
	for( k<2 ; k=k+1){
		s = mul(s,y) + k
	}
	if k==2 {
		equal(s,x*y*y+1)
	}
	return s/y
}
func mul(a,b){
	return a*b
}
".
Definition C74_defs : defs :=
  [("main", Fun ["x"; "y"]
     [Decl "s" (Var "x"); Decl "k" (Num "0");
      For (Cmp "<" (Var "k") (Num "2")) "k" (Bin "+" (Var "k") (Num "1"))
        [Assign "s" (Bin "+" (Call "mul" [Var "s"; Var "y"]) (Var "k"))];
      If (Cmp "==" (Var "k") (Num "2"))
        [Equal (Var "s") (Bin "*" (Var "x") (Bin "*" (Var "y") (Bin "+" (Var "y") (Num "1"))))];
      Return (Bin "/" (Var "s") (Var "y"))]);
   ("mul", Fun ["a"; "b"] [Return (Bin "*" (Var "a") (Var "b"))])].
(** The parser's output, and the compiler's steps after it. *)
Definition tree_of (n : nat) (text : string) : list ctree :=
  match lex n text with
  | SparseModel.Ret toks => match parse_tokens (stack_all_tokens toks) with Some (Some cs) => cs | _ => [] end
  | _ => []
  end.
Definition run_all sort hash q n cs : option (program * ret * state) :=
  match build sort hash q n cs with
  | Done p => match run_program sort hash q n p with Done (r, st) => Some (p, r, st) | _ => None end
  | _ => None
  end.
Lemma run_all_inv sort hash q n cs p r st : run_all sort hash q n cs = Some (p, r, st) ->
  build sort hash q n cs = Done p /\ run_program sort hash q n p = Done (r, st).
Proof.
  unfold run_all. destruct (build sort hash q n cs) as [p'| | |]; try discriminate. destruct (run_program sort hash q n p') as [[r' st']| | |] eqn:E; try discriminate.
  intros [= <- <- <-]. auto.
Qed.
Lemma tree_text sort hash q n text p r st : tree_of n text <> [] -> build sort hash q n (tree_of n text) = Done p -> run_program sort hash q n p = Done (r, st) ->
  compile_text sort hash q n text = Done (r, st).
Proof.
  unfold tree_of, compile_text. destruct (lex n text) as [toks| |]; [|now intros []..]. destruct (parse_tokens (stack_all_tokens toks)) as [[cs|]|]; [|now intros []..].
  intros _ E E'. rewrite E. exact E'.
Qed.
Definition distinctb (f : factors) : bool :=
  (fix go (l : list string) : bool := match l with [] => true | x :: l' => negb (existsb (String.eqb x) l') && go l' end) (map (fun x => ident (ftok x)) f).
Lemma absent x l : existsb (String.eqb x) l = false -> ~ In x l.
Proof. intros H I. assert (E : existsb (String.eqb x) l = true) by (apply existsb_exists; exists x; split; auto; apply String.eqb_refl). congruence. Qed.
Lemma distinctb_ok f : distinctb f = true -> distinct_names f.
Proof.
  unfold distinctb, distinct_names. induction (map (fun x => ident (ftok x)) f) as [|x l IH]; [constructor|]. intros H. apply andb_true_iff in H. destruct H as [A B].
  constructor; auto. apply absent. now apply negb_true_iff.
Qed.
Definition checked (o : option (program * ret * state)) (k : nat) : bool :=
  match o with
  | Some (_, _, st) => no_collisionb (strace st) && forallb distinctb (sstored st) && Nat.eqb (List.length (gates (scoll st))) k
  | None => false
  end.
Lemma checked_ok o k : checked o k = true -> exists p r st, o = Some (p, r, st) /\ no_collision (strace st) /\ Forall distinct_names (sstored st) /\
  List.length (gates (scoll st)) = k.
Proof.
  unfold checked. destruct o as [[[p r] st]|]; [|discriminate]. intros H. apply andb_true_iff in H. destruct H as [H H3]. apply andb_true_iff in H. destruct H as [H1 H2].
  exists p, r, st. split; auto. split; [now apply no_collisionb_ok|]. split; [|now apply Nat.eqb_eq].
  apply Forall_forall. intros f If. rewrite forallb_forall in H2. now apply distinctb_ok, H2.
Qed.
Ltac enc_exp := lazymatch goal with |- enc _ _ => first [apply enc_num|apply enc_var|apply enc_bin; enc_exp|apply enc_base; enc_exp|apply enc_call; enc_exp|apply enc_wrap; enc_exp]
  | |- encs [] _ => apply encs_nil | |- encs _ _ => apply encs_cons; enc_exp end.
Lemma C74_encoded : enc_prog C74_defs (tree_of 1000 C74_text).
Proof.
  remember (tree_of 1000 C74_text) as cs eqn:E. vm_compute in E. subst cs. unfold C74_defs.
  assert (En : forall t s, ends t (Con (Tok t s) [])) by (split; reflexivity).
  apply (enc_fun "main" ["x"; "y"] _ _ [_; _; _; _; _; _; _; _; _; _] _ _); [|apply En|].
  - apply (enc_cons _ _ [_] _); [apply enc_decl; enc_exp|]. apply (enc_cons _ _ [_] _); [apply enc_decl; enc_exp|].
    apply (enc_cons _ _ [_; _; _] _); [apply (enc_for _ _ _ _ _ _ _ _ [_] _); [apply enc_cmp; enc_exp|enc_exp| |apply En]|].
    { apply (enc_cons _ _ [_] _); [apply enc_assign; enc_exp|apply enc_nil]. }
    apply (enc_cons _ _ [_; _; _; _] _); [apply (enc_if _ _ _ _ [_] _ _); [apply enc_cmp; enc_exp| |apply En|apply En]|].
    { apply (enc_cons _ _ [_] _); [apply enc_equal; enc_exp|apply enc_nil]. }
    apply (enc_cons _ _ [_] _); [apply enc_return; enc_exp|apply enc_nil].
  - apply (enc_fun "mul" ["a"; "b"] _ _ [_] _ _); [|apply En|apply enc_none]. apply (enc_cons _ _ [_] _); [apply enc_return; enc_exp|apply enc_nil].
Qed.
Lemma present x l : existsb (String.eqb x) l = true -> In x l.
Proof. intros H. apply existsb_exists in H. destruct H as (y & I & E). apply String.eqb_eq in E. now subst. Qed.
Ltac scope := repeat match goal with |- _ /\ _ => split end; try exact I; try (apply present; reflexivity); try (apply absent; reflexivity); try reflexivity; auto.
(** The names declared in a block, in nested blocks too. *)
Fixpoint names_in (t : stmt) : list string :=
  match t with Decl x _ | Array x => [x] | For _ _ _ b | If _ b => flat_map names_in b | _ => [] end.
Lemma all_names fs ps B : block_ok fs (ps ++ flat_map names_in B) false false ps B -> exists ns, incl ps ns /\ block_ok fs ns false false ps B.
Proof. intros H. exists (ps ++ flat_map names_in B). split; [apply incl_appl, incl_refl|exact H]. Qed.
Definition array_okb (fs : defs) (ns vs : list string) (a : string) : bool :=
  forallb (fun x => negb (prefix (a ++ "[") x) || existsb (String.eqb x) vs) (ns ++ map fst fs).
Lemma array_okb_ok fs ns vs a : name_ok a -> array_okb fs ns vs a = true -> array_ok fs ns vs a.
Proof.
  intros Na H. split; [exact Na|]. intros x Px. unfold array_okb in H. rewrite forallb_forall in H.
  destruct (in_dec string_dec x (ns ++ map fst fs)) as [I|I].
  - left. specialize (H x I). rewrite Px in H. now apply present.
  - right. split; [intros J; apply I, in_app_iff; auto|]. destruct (find_at x fs) as [d|] eqn:E; [|reflexivity]. exfalso. apply I, in_app_iff. right.
    clear -E. induction fs as [|[y e] fs IH]; [discriminate|]. cbn [find_at] in E. destruct (String.eqb_spec x y) as [->|_]; [now left|right; auto].
Qed.
Ltac heading := split; [split; [reflexivity|apply absent; reflexivity]|]; split; [repeat (constructor; [apply absent; reflexivity|]); constructor|];
  split; [repeat (constructor; [split; [split; [reflexivity|apply absent; reflexivity]|reflexivity]|]); constructor|]; apply all_names; cbn [flat_map names_in app].
Lemma C74_ok : prog_ok C74_defs.
Proof.
  split; [repeat (constructor; [apply absent; reflexivity|]); constructor|].
  assert (C : callable C74_defs "mul" 2) by (split; [discriminate|eexists; split; reflexivity]).
  assert (G : gives C74_defs "mul") by (eexists; split; [reflexivity|]; eexists; left; reflexivity).
  constructor; [|constructor; [|constructor]]; unfold fun_ok; cbn [fst snd fparams fbody]; heading; cbn [block_ok stmt_ok exp_ok app]; unfold new_ok, name_ok, cond_ok; cbn [cleft cright exp_ok]; scope.
Qed.
(** With x = 51 and y = 2, where x*y = 1, the loop leaves s = 3, and so is x*(y*(y+1)). *)
Definition C74_w (x : string) : Z := if String.eqb x "x" then 51%Z else if String.eqb x "y" then 2%Z else 0%Z.
Ltac cong := match goal with |- ?a ==[?q] ?b => apply cong_mod_iff; [discriminate|vm_compute; reflexivity] end.
Ltac field_ev := cbn [cleft cright]; lazymatch goal with
  | |- ev _ _ _ _ (Num _) _ _ => apply ev_num; eexists; split; [reflexivity|reflexivity]
  | |- ev _ _ _ _ (Var _) _ _ => eapply ev_var; [reflexivity|reflexivity] end.
Lemma C74_mul s a b z : z ==[101] a * b -> call (field_values 101 (fun _ => 0%Z)) C74_defs s "mul" [Wire a; Wire b] (Some (Wire z)) s.
Proof.
  intros H. eapply call_fun; [reflexivity|reflexivity|]. eapply xb_return, xs_return. eapply ev_bin; [eapply ev_var; reflexivity|eapply ev_var; reflexivity|].
  split; [|reflexivity]. apply value_left. now apply result_mul.
Qed.
Lemma C74_means : program_means 101 (fun _ => 0%Z) C74_defs C74_w (Some (Wire 52)) [(3, 306)]%Z.
Proof.
  eexists _, _. split; [reflexivity|].
  assert (Step : forall s k (s0 : list (Z * Z)) z z', z ==[101] s * 2 -> z' ==[101] z + k ->
    xb (field_values 101 (fun _ => 0%Z)) C74_defs [("x", Wire 51); ("y", Wire 2); ("s", Wire s); ("k", Known k)] s0
      [Assign "s" (Bin "+" (Call "mul" [Var "s"; Var "y"]) (Var "k"))] [("x", Wire 51); ("y", Wire 2); ("s", Wire z'); ("k", Known k)] None s0).
  { intros s k s0 z z' E1 E2. eapply xb_cons; [|apply xb_nil]. change [("x", Wire 51); ("y", Wire 2); ("s", Wire z'); ("k", Known k)] with (put_at "s" (Wire z') [("x", Wire 51); ("y", Wire 2); ("s", Wire s); ("k", Known k)]).
    apply xs_assign; [|discriminate]. eapply ev_bin.
    - eapply ev_call; [eapply evs_cons; [eapply ev_var; reflexivity|eapply evs_cons; [eapply ev_var; reflexivity|apply evs_nil]]|]. apply (C74_mul s0 s 2 z E1).
    - eapply ev_var; reflexivity.
    - split; [|reflexivity]. apply value_left. now apply result_add. }
  eapply mb_cons; [apply xs_decl; field_ev|reflexivity|]. eapply mb_cons; [apply xs_decl; field_ev|reflexivity|].
  change (map (fun x => (x, Wire (C74_w x))) ["x"; "y"] ++ [("s", Wire 51)]) with [("x", Wire 51); ("y", Wire 2); ("s", Wire 51)]. cbn [app].
  eapply mb_cons; [|reflexivity|].
  { eapply xs_for; [eapply test_cmp; [field_ev|field_ev|apply cmp_lt]|apply (Step 51%Z 0%Z [] 1%Z 1%Z); cong| |discriminate|].
    { eapply ev_bin; [field_ev|field_ev|]. split; [apply value_known with (z := 1%Z); [lia|apply result_add; cong]|reflexivity]. }
    eapply xs_for; [eapply test_cmp; [field_ev|field_ev|apply cmp_lt]|apply (Step 1%Z 1%Z [] 2%Z 3%Z); cong| |discriminate|].
    { eapply ev_bin; [field_ev|field_ev|]. split; [apply value_known with (z := 2%Z); [lia|apply result_add; cong]|reflexivity]. }
    apply xs_for_end. eapply test_cmp; [field_ev|field_ev|apply cmp_lt]. }
  eapply mb_cons; [|reflexivity|].
  { eapply xs_if with (r := None); [eapply test_cmp; [field_ev|field_ev|apply cmp_eq]|]. eapply xb_cons; [|apply xb_nil]. eapply xs_equal; [field_ev| |].
    - eapply ev_bin; [field_ev| |]; [eapply ev_bin; [field_ev| |]; [eapply ev_bin; [field_ev|field_ev|]|]|].
      + split; [apply value_left with (z := 3%Z), result_add; cong|reflexivity].
      + split; [apply value_left with (z := 6%Z), result_mul; cong|reflexivity].
      + split; [apply value_left with (z := 306%Z), result_mul; cong|reflexivity].
    - reflexivity. }
  eapply mb_return; [|reflexivity]. apply xs_return. eapply ev_bin; [field_ev|field_ev|]. split; [apply value_left with (z := 52%Z), result_div; [|cong]|reflexivity].
  intros [k Hk]. change (2 - 0 = k * 101)%Z in Hk. lia.
Qed.
Lemma C74_checked : checked (run_all sort_factors toy_hash 101 1000 (tree_of 1000 C74_text)) 6 = true.
Proof. vm_compute. reflexivity. Qed.
Example C74_case : exists p r st, build sort_factors toy_hash 101 1000 (tree_of 1000 C74_text) = Done p /\ run_program sort_factors toy_hash 101 1000 p = Done (r, st) /\
  compile_text sort_factors toy_hash 101 1000 C74_text = Done (r, st) /\
  prog_ok C74_defs /\ enc_prog C74_defs (tree_of 1000 C74_text) /\ no_collision (strace st) /\ Forall distinct_names (sstored st) /\ List.length (gates (scoll st)) = 6 /\
  program_means 101 (fun _ => 0%Z) C74_defs C74_w (Some (Wire 52)) [(3, 306)]%Z /\
  exists w, w "x" = 51%Z /\ w "y" = 2%Z /\ all_hold 101 (fun _ => 0%Z) w (gates (scoll st)) /\ lin w (strip (rvals r)) ==[101] 52.
Proof.
  destruct (checked_ok _ _ C74_checked) as (p & r & st & E & H1 & D & H3). apply run_all_inv in E. destruct E as [Eb Er].
  exists p, r, st. split; [exact Eb|]. split; [exact Er|].
  split; [|split; [exact C74_ok|]; split; [exact C74_encoded|]; split; [exact H1|]; split; [exact D|]; split; [exact H3|]; split; [exact C74_means|]].
  - refine (tree_text _ _ _ _ _ _ _ _ _ Eb Er). intros T. assert (X := C74_encoded). rewrite T in X. inversion X.
  - destruct (C75_complete _ _ _ (fun _ => 0%Z) _ _ _ _ _ _ _ C74_w _ _ sort_factors_perm prime_101 C74_ok C74_encoded Eb Er H1 D C74_means) as (w & W1 & W2 & W3).
    { constructor; [|constructor]. cbn. cong. }
    exists w. split; [rewrite W1; [reflexivity|split; [reflexivity|apply absent; reflexivity]]|]. split; [rewrite W1; [reflexivity|split; [reflexivity|apply absent; reflexivity]]|]. split; [exact W2|exact W3].
Qed.

(** C101: what three example programs of testPrograms/codes.go compute, for all inputs. *)
Require Import ZArith Znumtheory NArith Lia Bool Permutation Ascii String List.
Require Import Verif.Cong Verif.FqModel Verif.FqProofs Verif.Pocklington Verif.AvlModel Verif.PolyModel Verif.PolyProofs Verif.InterpProofs.
Require Import Verif.Ext Verif.TowerSpec Verif.TowerProofs Verif.FieldProofs Verif.FrobProofs Verif.JacProofs Verif.AssocProofs Verif.CurveGroup Verif.CurveProofs Verif.OrderProofs Verif.PointCount Verif.PropsCurve.
Require Import Verif.CurveModel Verif.CurveSpec Verif.PairModel Verif.PairProofs Verif.SnarkModel Verif.SnarkSpec Verif.SnarkProofs2 Verif.SnarkProofs3 Verif.BnGroups Verif.PropsSnark Verif.PropsBn.
Require Import Verif.FactorModel Verif.FactorSpec Verif.FactorProofs.
Require Import Verif.ExprModel Verif.ExprSpec Verif.ExprProofs Verif.ExprProofs2 Verif.AvlModel Verif.PolyModel.
Require Import Verif.FqSpec Verif.R1csModel Verif.R1csSpec Verif.R1csProofs Verif.EndProofs.
Require Import Verif.WitnessModel Verif.WitnessSpec Verif.SolveProofs Verif.WitnessProofs.
Require Import Verif.LexerModel Verif.ParserModel Verif.CircuitModel Verif.LangSpec Verif.LangHeap Verif.LangSym Verif.LangRun Verif.LangBuild Verif.LangField Verif.LangGood.
Require Import Verif.PropsFactor Verif.PropsExpr Verif.PropsR1cs Verif.PropsEnd Verif.PropsSolve Verif.PropsLang Verif.GoodSystem Verif.PropsProgram Verif.SystemShape Verif.PropsChain Verif.LangEval.
Import ListNotations.
Local Open Scope string_scope.
Local Open Scope list_scope.
Local Open Scope Z_scope.

(** ** The value of a program as a function of its inputs *)
Lemma lin_number l w w' : is_single_number l = true -> lin w l = lin w' l.
Proof.
  intros H. apply single_number_inv in H. destruct H as (x & -> & H). unfold is_number in H. cbn [lin]. unfold fac_val. destruct (ttyp (ftok x)); try discriminate H. reflexivity.
Qed.
(** Every satisfying vector carries the value on one of its wires, and the solver finds one for all inputs. *)
Definition computes (q : Z) (gx : Z -> Z) (ins : list string) (r : ret) (s : er1cs (list Z)) (f : list Z -> Z) : Prop :=
  (forall W, List.length W = List.length (index_map s) -> nth 0 W 0 = 1 -> Forall (row_ok q gx W) (rows s) ->
     let v := f (map (read (index_map s) W) ins) in
     lin (read (index_map s) W) (strip (rvals r)) ==[q] v /\ exists i, (i < List.length W)%nat /\ nth i W 0 ==[q] v) /\
  (forall l rnd, List.length l = List.length ins -> exists W,
     calculate_witness q gx (index_map s) (split_map s) (rows s) rnd (List.combine ins l) = Ok W /\
     List.length W = List.length (index_map s) /\ nth 0 W 0 = 1 /\ Forall (row_ok q gx W) (rows s) /\ map (read (index_map s) W) ins = l).
Fixpoint assign (ins : list string) (l : list Z) (x : string) : Z :=
  match ins, l with y :: ins', a :: l' => if String.eqb x y then a else assign ins' l' x | _, _ => 0 end.
Lemma assign_map ins : forall l, NoDup ins -> List.length l = List.length ins -> map (assign ins l) ins = l.
Proof.
  induction ins as [|y ins IH]; intros [|a l] N L; try discriminate; [reflexivity|]. inversion N; subst. cbn [map]. f_equal.
  - cbn [assign]. now rewrite String.eqb_refl.
  - rewrite <- (IH l) at 2; [|assumption|now injection L]. apply map_ext_in. intros x Hx. cbn [assign]. destruct (String.eqb_spec x y) as [->|]; [contradiction|reflexivity].
Qed.
Lemma combine_map (ins : list string) : forall (l : list Z), List.length l = List.length ins -> map fst (List.combine ins l) = ins.
Proof. induction ins as [|y ins IH]; intros [|a l] L; try discriminate; [reflexivity|]. cbn [List.combine map fst]. f_equal. apply IH. now injection L. Qed.
Lemma combine_assign ins : forall l x a, NoDup ins -> In (x, a) (List.combine ins l) -> a = assign ins l x.
Proof.
  induction ins as [|y ins IH]; intros [|b l] x a N H; try contradiction. inversion N; subst. cbn [List.combine In] in H. cbn [assign]. destruct H as [H|H].
  - injection H as <- <-. now rewrite String.eqb_refl.
  - destruct (String.eqb_spec x y) as [->|]; [exfalso; apply in_combine_l in H; contradiction|]. now apply IH.
Qed.
Lemma witness_length q gx m sp rs rnd inp W : calculate_witness q gx m sp rs rnd inp = Ok W -> List.length W = List.length m.
Proof.
  unfold calculate_witness. intros H. apply WitnessProofs.bind_ok in H. destruct H as [[s bm] [E H]]. apply WitnessProofs.lift_ok in E. apply WitnessProofs.bind_ok in H. destruct H as [s' [H Ew]]. injection Ew as <-.
  destruct (WitnessProofs.solve_rows_ext q gx bm rs s s' H) as [-> _]. apply (WitnessProofs.start_len _ _ _ _ _ _ E).
Qed.
Lemma value_gives sort hash q gx fs ins p r st s f : (forall l, Permutation (sort l) l) -> prime q -> gx 0 ==[q] 0 ->
  compiles sort hash q fs ins p r st -> publics fs = [] -> gates_to_r1cs (ppublic p) ins (gates (scoll st)) false = Some s ->
  (forall w, program_means q gx fs w (Some (Wire (f (map w ins)))) []) -> NoDup ins -> ~ In "1" ins ->
  (exists l l', List.length l = List.length ins /\ List.length l' = List.length ins /\ ~ f l ==[q] f l') -> computes q gx ins r s f.
Proof.
  intros Hs Hq G0 HC NP E M N1 N2 (l1 & l2 & L1 & L2 & D).
  destruct (C81_publics _ _ _ _ _ _ _ _ HC) as [P HP]. rewrite NP in P. assert (HP' : publics_ok p) by (apply HP; rewrite NP; split; constructor). clear HP.
  assert (B : forall l rnd, List.length l = List.length ins -> exists W,
     calculate_witness q gx (index_map s) (split_map s) (rows s) rnd (List.combine ins l) = Ok W /\
     List.length W = List.length (index_map s) /\ nth 0 W 0 = 1 /\ Forall (row_ok q gx W) (rows s) /\ map (read (index_map s) W) ins = l).
  { intros l rnd L. destruct (C81_solver sort hash q gx fs ins p r st s Hs Hq G0 HC HP' E (assign ins l) _ _ rnd (List.combine ins l) (M _)) as [A B].
    - rewrite P. split; [rewrite combine_map by exact L; exact N1|]. intros x. rewrite combine_map by exact L. cbn [app In]. split; [intros H; split; [auto|intros ->; contradiction]|].
      intros [[<-|H] H']; [contradiction|exact H].
    - intros x a H. exact (combine_assign ins l x a N1 H).
    - destruct (proj2 A (Forall_nil _)) as [W HW]. exists W. split; [exact HW|]. destruct (B W HW) as (S1 & S2 & S3 & _).
      split; [|split; [exact S2|split; [exact S1|]]].
      + exact (witness_length _ _ _ _ _ _ _ _ HW).
      + etransitivity; [|exact (assign_map ins l N1 L)]. apply map_ext_in. intros x Hx. apply S3; [rewrite P; cbn [app In]; auto|intros ->; contradiction]. }
  assert (V : forall W, List.length W = List.length (index_map s) -> nth 0 W 0 = 1 -> Forall (row_ok q gx W) (rows s) ->
     lin (read (index_map s) W) (strip (rvals r)) ==[q] f (map (read (index_map s) W) ins) /\
     (is_single_number (strip (rvals r)) = true \/ exists i, (i < List.length W)%nat /\ nth i W 0 ==[q] f (map (read (index_map s) W) ins))).
  { intros W L W0 HW. exact (proj2 (C81_sound sort hash q gx fs ins p r st s Hs Hq G0 HC HP' E W L W0 HW _ _ (M _))). }
  split; [|exact B]. intros W L W0 HW v. destruct (V W L W0 HW) as [A [S|S]]; [|split; [exact A|exact S]]. exfalso. apply D.
  destruct (B l1 0 L1) as (W1 & _ & X1 & X2 & X3 & X4). destruct (B l2 0 L2) as (W2 & _ & Y1 & Y2 & Y3 & Y4).
  destruct (V W1 X1 X2 X3) as [A1 _]. destruct (V W2 Y1 Y2 Y3) as [A2 _]. rewrite X4 in A1. rewrite Y4 in A2.
  rewrite (lin_number _ _ (read (index_map s) W2) S) in A1. eapply cong_trans; [apply cong_sym; exact A1|exact A2].
Qed.
Lemma value_of sort hash q gx fs ins p r st s n t f : (forall l, Permutation (sort l) l) -> prime q -> 2 ^ 63 <= q -> gx 0 ==[q] 0 ->
  compiles sort hash q fs ins p r st -> publics fs = [] -> gates_to_r1cs (ppublic p) ins (gates (scoll st)) false = Some s ->
  program_f fs n = Some (Some (SWire t), []) -> (forall w, tden w t = f (map w ins)) -> NoDup ins -> ~ In "1" ins ->
  (exists l l', List.length l = List.length ins /\ List.length l' = List.length ins /\ ~ f l ==[q] f l') -> computes q gx ins r s f.
Proof.
  intros Hs Hq Bq G0 HC NP E Ef Ft. apply (value_gives sort hash q gx fs ins p r st s f Hs Hq G0 HC NP E). intros w. rewrite <- Ft. exact (program_right q gx fs w Bq n _ _ Ef).
Qed.

(** ** The programs
    codes.go:53-74, 290-303 and 312-321. *)
Definition C101_text_0 := "
	func main( x  ,  z ) {
		return do(z) + add(x,x)
	}		

	func do(x){
		var e = x * 5
		var b = e * 6
		var c = b * 7
		var F = c * 1
		var d = c * F
		var ll = d * mul(d,e)
		return ll
	}
	
	func add(x ,k){
		var z = k * x
		return do(x) + mul(x,z)
	}

	func mul(a,b){
		return a * b
	}".
Definition C101_defs_0 : defs := [
  ("main", Fun ["x"; "z"] [Return (Bin "+" (Call "do" [Var "z"]) (Call "add" [Var "x"; Var "x"]))]);
  ("do", Fun ["x"] [Decl "e" (Bin "*" (Var "x") (Num "5")); Decl "b" (Bin "*" (Var "e") (Num "6")); Decl "c" (Bin "*" (Var "b") (Num "7"));
    Decl "F" (Bin "*" (Var "c") (Num "1")); Decl "d" (Bin "*" (Var "c") (Var "F")); Decl "ll" (Bin "*" (Var "d") (Call "mul" [Var "d"; Var "e"])); Return (Var "ll")]);
  ("add", Fun ["x"; "k"] [Decl "z" (Bin "*" (Var "k") (Var "x")); Return (Bin "+" (Call "do" [Var "x"]) (Call "mul" [Var "x"; Var "z"]))]);
  ("mul", Fun ["a"; "b"] [Return (Bin "*" (Var "a") (Var "b"))])].
Definition C101_text_6 := "
func main(x){
	return (x*fubunaci(8,x))
}

func fubunaci(a,v){
	var dyn[] = {v,v}
	var i = 2
	for (i<a;i=i+1){
		var n = dyn[0]+dyn[1]
		dyn[0] = dyn[1]
		dyn[1] = n
	}
    return dyn[1]
}
".
Definition C101_defs_6 : defs := [
  ("main", Fun ["x"] [Return (Bin "*" (Var "x") (Call "fubunaci" [Num "8"; Var "x"]))]);
  ("fubunaci", Fun ["a"; "v"] (array "dyn" [Var "v"; Var "v"] ++ [Decl "i" (Num "2");
    For (Cmp "<" (Var "i") (Var "a")) "i" (Bin "+" (Var "i") (Num "1"))
      [Decl "n" (Bin "+" (Idx "dyn" [Num "0"]) (Idx "dyn" [Num "1"])); Put "dyn" [Num "0"] (Idx "dyn" [Num "1"]); Put "dyn" [Num "1"] (Var "n")];
    Return (Idx "dyn" [Num "1"])]))].
Definition C101_text_7 := "
func main(x,y,z){
	return mul(add(mul(x,y),z)-132,z)
}

func mul(a,b){
    return a*b
}
func add(a,b){
	return a+b
	}

".
Definition C101_defs_7 : defs := [
  ("main", Fun ["x"; "y"; "z"] [Return (Call "mul" [Bin "-" (Call "add" [Call "mul" [Var "x"; Var "y"]; Var "z"]) (Num "132"); Var "z"])]);
  ("mul", Fun ["a"; "b"] [Return (Bin "*" (Var "a") (Var "b"))]);
  ("add", Fun ["a"; "b"] [Return (Bin "+" (Var "a") (Var "b"))])].
Lemma C101_encoded_0 : enc_prog C101_defs_0 (tree_of 1000 C101_text_0).
Proof. apply (prog_right 100). vm_compute. reflexivity. Qed.
Lemma C101_encoded_7 : enc_prog C101_defs_7 (tree_of 1000 C101_text_7).
Proof. apply (prog_right 100). vm_compute. reflexivity. Qed.
Lemma prog_fun n f ps body fs ins r s r' : params_f ps ins = true -> block_f n body r = Some (Con (Tok TNestedEnd s) [] :: r') -> enc_prog fs r' ->
  enc_prog ((f, Fun ps body) :: fs) (Con (Tok TFuncDef f) ins :: r).
Proof.
  intros H1 H2 H3. apply params_right in H1. subst ins. destruct (block_right _ _ _ _ H2) as (c & -> & Ec). apply enc_fun; [exact Ec|split; reflexivity|exact H3].
Qed.
Lemma prog_array n f ps x es acs ts fs ins r s r' : params_f ps ins = true -> es <> [] -> encs_f n es acs = true ->
  block_f n ts r = Some (Con (Tok TNestedEnd s) [] :: r') -> enc_prog fs r' ->
  enc_prog ((f, Fun ps (array x es ++ ts)) :: fs) (Con (Tok TFuncDef f) ins :: Con (Tok TArrDecl x) acs :: r).
Proof.
  intros H1 Ne Ha H2 H3. apply params_right in H1. subst ins. destruct (block_right _ _ _ _ H2) as (c & -> & Ec).
  change (Con (Tok TArrDecl x) acs :: c ++ Con (Tok TNestedEnd s) [] :: r') with ((Con (Tok TArrDecl x) acs :: c) ++ Con (Tok TNestedEnd s) [] :: r').
  apply enc_fun; [|split; reflexivity|exact H3]. apply enc_array; [exact Ne|exact (proj2 (enc_right n) _ _ Ha)|exact Ec].
Qed.
Lemma C101_encoded_6 : enc_prog C101_defs_6 (tree_of 1000 C101_text_6).
Proof.
  remember (tree_of 1000 C101_text_6) as cs eqn:E. vm_compute in E. subst cs.
  eapply (prog_fun 100); [reflexivity|vm_compute; reflexivity|]. eapply (prog_array 100); [reflexivity|discriminate|vm_compute; reflexivity|vm_compute; reflexivity|constructor].
Qed.
Ltac names := lazy beta iota zeta delta [block_ok stmt_ok exp_ok app cond_ok cleft cright new_ok name_ok];
  repeat match goal with |- _ /\ _ => split end; try exact I; try assumption; try discriminate;
  try (lazymatch goal with |- In _ _ => apply present | |- ~ In _ _ => apply absent | |- _ = _ => idtac end; vm_compute; reflexivity);
  try first [apply array_okb_ok; [split; [reflexivity|apply absent; reflexivity]|vm_compute; reflexivity] | constructor; [apply present; reflexivity|constructor]].
Lemma C101_ok_0 : prog_ok C101_defs_0.
Proof.
  split; [repeat (constructor; [apply absent; reflexivity|]); constructor|].
  assert (C1 : callable C101_defs_0 "do" 1) by (split; [discriminate|eexists; split; reflexivity]). assert (C2 : callable C101_defs_0 "add" 2) by (split; [discriminate|eexists; split; reflexivity]).
  assert (C3 : callable C101_defs_0 "mul" 2) by (split; [discriminate|eexists; split; reflexivity]).
  assert (G3 : gives C101_defs_0 "mul") by (eexists; split; [reflexivity|]; eexists; left; reflexivity).
  assert (G2 : gives C101_defs_0 "add") by (eexists; split; [reflexivity|]; eexists; right; left; reflexivity).
  assert (G1 : gives C101_defs_0 "do") by (eexists; split; [reflexivity|]; eexists; do 6 right; left; reflexivity).
  repeat (apply Forall_cons; [unfold fun_ok; cbn [fst snd fparams fbody]; heading; names|]); apply Forall_nil.
Qed.
Lemma C101_ok_7 : prog_ok C101_defs_7.
Proof.
  split; [repeat (constructor; [apply absent; reflexivity|]); constructor|].
  assert (C2 : callable C101_defs_7 "add" 2) by (split; [discriminate|eexists; split; reflexivity]).
  assert (C3 : callable C101_defs_7 "mul" 2) by (split; [discriminate|eexists; split; reflexivity]).
  assert (G3 : gives C101_defs_7 "mul") by (eexists; split; [reflexivity|]; eexists; left; reflexivity).
  assert (G2 : gives C101_defs_7 "add") by (eexists; split; [reflexivity|]; eexists; left; reflexivity).
  repeat (apply Forall_cons; [unfold fun_ok; cbn [fst snd fparams fbody]; heading; names|]); apply Forall_nil.
Qed.
Definition C101_plain : defs := Eval vm_compute in C101_defs_6.
Lemma C101_ok_6 : prog_ok C101_defs_6.
Proof.
  change C101_defs_6 with C101_plain. split; [repeat (constructor; [apply absent; reflexivity|]); constructor|].
  assert (C : callable C101_plain "fubunaci" 2) by (split; [discriminate|eexists; split; reflexivity]).
  assert (G : gives C101_plain "fubunaci") by (eexists; split; [reflexivity|]; eexists; do 5 right; left; reflexivity).
  apply Forall_cons; [unfold fun_ok; cbn [fst snd fparams fbody]; heading; names|].
  apply Forall_cons; [unfold fun_ok; cbn [fst snd fparams fbody]; heading; names|apply Forall_nil].
  all: constructor; [exact I|constructor].
Qed.
Lemma scaled q a : prime q -> a ==[q] 0 -> a + 1 ==[q] 0 -> False.
Proof.
  intros Hq [u U] [v V]. assert (D : (q | 1)) by (exists (v - u); lia). assert (Hq2 := prime_ge_2 q Hq). apply Z.divide_pos_le in D; lia.
Qed.
(** main(x, z) of the first program. *)
Notation fifth := 9724050000.
Theorem C101_first : forall sort hash q gx p r st s, (forall l, Permutation (sort l) l) -> prime q -> 2 ^ 63 <= q -> gx 0 ==[q] 0 ->
  compiles sort hash q C101_defs_0 ["x"; "z"] p r st -> gates_to_r1cs (ppublic p) ["x"; "z"] (gates (scoll st)) false = Some s ->
  computes q gx ["x"; "z"] r s (fun l => let x := nth 0 l 0 in let z := nth 1 l 0 in fifth * z ^ 5 + (fifth * x ^ 5 + x ^ 3)).
Proof.
  intros sort hash q gx p r st s Hs Hq Bq G0 HC E.
  eapply (value_of sort hash q gx C101_defs_0 _ p r st s 100); [exact Hs|exact Hq|exact Bq|exact G0|exact HC|reflexivity|exact E|vm_compute; reflexivity| | | |].
  - intros w. cbn [tden map nth]. cbv zeta. ring.
  - repeat (constructor; [apply absent; reflexivity|]). constructor.
  - apply absent. reflexivity.
  - destruct (Zdivide_dec q fifth) as [D|D].
    + exists [1; 0], [0; 0]. split; [reflexivity|]. split; [reflexivity|]. intros H. cbn [nth] in H. apply (scaled q fifth Hq); [destruct D as [d D]; exists d; lia|]. destruct H as [h H]. exists h. lia.
    + exists [0; 1], [0; 0]. split; [reflexivity|]. split; [reflexivity|]. intros [h H]. apply D. exists h. cbn [nth] in H. lia.
Qed.
Print Assumptions C101_first.
(** main(x) with the loop over an array: 21 is the eighth Fibonacci number. *)
Theorem C101_loop : forall sort hash q gx p r st s, (forall l, Permutation (sort l) l) -> prime q -> 2 ^ 63 <= q -> gx 0 ==[q] 0 ->
  compiles sort hash q C101_defs_6 ["x"] p r st -> gates_to_r1cs (ppublic p) ["x"] (gates (scoll st)) false = Some s ->
  computes q gx ["x"] r s (fun l => 21 * nth 0 l 0 ^ 2).
Proof.
  intros sort hash q gx p r st s Hs Hq Bq G0 HC E.
  eapply (value_of sort hash q gx C101_defs_6 _ p r st s 100); [exact Hs|exact Hq|exact Bq|exact G0|exact HC|reflexivity|exact E|vm_compute; reflexivity| | | |].
  - intros w. cbn [tden map nth]. ring.
  - repeat (constructor; [apply absent; reflexivity|]). constructor.
  - apply absent. reflexivity.
  - exists [1], [0]. split; [reflexivity|]. split; [reflexivity|]. intros H. cbn [nth] in H. destruct H as [h H]. assert (D : (q | 21)) by (exists h; lia). apply Z.divide_pos_le in D; lia.
Qed.
Print Assumptions C101_loop.
(** The same program for any number in place of 8. *)
Fixpoint fib (n : nat) : Z := match n with O => 0 | S n' => match n' with O => 1 | S n'' => fib n' + fib n'' end end.
Lemma fib_step n : fib (S (S n)) = fib (S n) + fib n.
Proof. reflexivity. Qed.
Definition C101_fib (a : string) : defs := [
  ("main", Fun ["x"] [Return (Bin "*" (Var "x") (Call "fubunaci" [Num a; Var "x"]))]);
  ("fubunaci", Fun ["a"; "v"] (array "dyn" [Var "v"; Var "v"] ++ [Decl "i" (Num "2");
    For (Cmp "<" (Var "i") (Var "a")) "i" (Bin "+" (Var "i") (Num "1"))
      [Decl "n" (Bin "+" (Idx "dyn" [Num "0"]) (Idx "dyn" [Num "1"])); Put "dyn" [Num "0"] (Idx "dyn" [Num "1"]); Put "dyn" [Num "1"] (Var "n")];
    Return (Idx "dyn" [Num "1"])]))].
Section Fib.
Variable q : Z.
Variable gx : Z -> Z.
Variable t : string.
Variable N : Z.
Hypothesis B : 2 ^ 63 <= q.
Hypothesis T : set_string10 t = Some N.
Hypothesis H2 : 2 <= N < q.
Notation FV := (field_values q gx).
Notation FS := (C101_fib t).
Lemma big : 4 < q. Proof using B. change (2 ^ 63) with 9223372036854775808 in B. lia. Qed.
Lemma num_known m s x z : set_string10 x = Some z -> 0 <= z < q -> ev FV FS m s (Num x) (Known z) s.
Proof using. intros E R. apply ev_num. exists z. split; [exact E|]. now rewrite Z.mod_small. Qed.
Lemma idx_known m x z : set_string10 x = Some z -> 0 <= z < 4 -> idxs FV FS m [Num x] [z].
Proof using B.
  intros E R. assert (G := big). eapply idxs_cons; [apply (num_known _ _ x z E); lia| |apply idxs_nil]. split; [reflexivity|]. split; [|exact B]. change (2 ^ 63) with 9223372036854775808. lia.
Qed.
Definition at_loop (x u v i : Z) : list (string * value) := [("a", Known N); ("v", Wire x); ("dyn[0]", Wire u); ("dyn[1]", Wire v); ("i", Known i)].
Notation LOOP := (For (Cmp "<" (Var "i") (Var "a")) "i" (Bin "+" (Var "i") (Num "1"))
      [Decl "n" (Bin "+" (Idx "dyn" [Num "0"]) (Idx "dyn" [Num "1"])); Put "dyn" [Num "0"] (Idx "dyn" [Num "1"]); Put "dyn" [Num "1"] (Var "n")]).
Lemma elem0 x u v i m s : ev FV FS (at_loop x u v i ++ m) s (Idx "dyn" [Num "0"]) (Wire u) s.
Proof using B. eapply ev_idx; [apply (idx_known _ "0" 0); [reflexivity|lia]|reflexivity|reflexivity]. Qed.
Lemma elem1 x u v i m s : ev FV FS (at_loop x u v i ++ m) s (Idx "dyn" [Num "1"]) (Wire v) s.
Proof using B. eapply ev_idx; [apply (idx_known _ "1" 1); [reflexivity|lia]|reflexivity|reflexivity]. Qed.
Lemma loop_runs k : forall x j s, (1 <= j)%nat -> N = Z.of_nat (S j + k) ->
  xs FV FS (at_loop x (fib j * x) (fib (S j) * x) (Z.of_nat (S j))) s LOOP (at_loop x (fib (j + k) * x) (fib (S j + k) * x) N) None false s.
Proof using B H2.
  assert (G := big). induction k as [|k IH]; intros x j s Hj E.
  - rewrite !Nat.add_0_r in *. rewrite <- E. apply xs_for_end. eapply test_cmp; [eapply ev_var; reflexivity|eapply ev_var; reflexivity|]. assert (X := cmp_lt N N). rewrite Z.ltb_irrefl in X. exact X.
  - eapply xs_for with (m1 := at_loop x (fib (S j) * x) (fib (S (S j)) * x) (Z.of_nat (S j)) ++ [("n", Wire (fib (S (S j)) * x))]).
    + eapply test_cmp; [eapply ev_var; reflexivity|eapply ev_var; reflexivity|]. assert (X := cmp_lt (Z.of_nat (S j)) N). rewrite (proj2 (Z.ltb_lt _ _)) in X by lia. exact X.
    + eapply xb_cons.
      { apply xs_decl with (v := Wire (fib (S (S j)) * x)). eapply ev_bin; [apply (elem0 _ _ _ _ [])|apply (elem1 _ _ _ _ [])|]. split; [|reflexivity]. apply value_left. apply result_add. cbn [num_of]. apply cong_eq. rewrite fib_step. ring. }
      eapply xb_cons.
      { eapply xs_set; [apply (idx_known _ "0" 0); [reflexivity|lia]|apply elem1|discriminate]. }
      eapply xb_cons; [|apply xb_nil].
      set (m2 := put_at _ _ _).
      assert (X : xs FV FS m2 s (Put "dyn" [Num "1"] (Var "n")) (put_at (element "dyn" [1]) (Wire (fib (S (S j)) * x)) m2) (Some (Wire (fib (S (S j)) * x))) false s).
      { eapply xs_set; [apply (idx_known _ "1" 1); [reflexivity|lia]|eapply ev_var; reflexivity|discriminate]. }
      exact X.
    + cbn [at_loop app List.length firstn]. eapply ev_bin; [eapply ev_var; reflexivity|apply (num_known _ _ "1" 1); [reflexivity|lia]|]. split; [|reflexivity].
      apply (value_known _ _ _ _ (Z.of_nat (S (S j)))); [lia|]. apply result_add. apply cong_eq. lia.
    + discriminate.
    + replace (j + S k)%nat with (S j + k)%nat by lia. replace (S j + S k)%nat with (S (S j) + k)%nat by lia. apply (IH x (S j) s); lia.
Qed.
Lemma fib_means w : program_means q gx FS w (Some (Wire (w "x" * (fib (Z.to_nat N) * w "x")))) [].
Proof using B T H2.
  assert (G := big). exists ["x"]. eexists. split; [reflexivity|]. eapply mb_return; [|reflexivity]. apply xs_return. eapply ev_bin; [eapply ev_var; reflexivity| |].
  - eapply ev_call; [eapply evs_cons; [apply (num_known _ _ t N T); lia|eapply evs_cons; [eapply ev_var; reflexivity|apply evs_nil]]|].
    eapply call_fun; [reflexivity|reflexivity|]. cbn [List.combine array elements app].
    eapply xb_cons; [apply xs_array|]. eapply xb_cons; [apply xs_decl; eapply ev_var; reflexivity|]. eapply xb_cons; [apply xs_decl; eapply ev_var; reflexivity|].
    eapply xb_cons; [apply xs_decl; apply (num_known _ _ "2" 2); [reflexivity|lia]|].
    eapply xb_cons.
    + assert (L := loop_runs (Z.to_nat N - 2) (w "x") 1 [] ltac:(lia) ltac:(lia)). replace (fib 1 * w "x") with (w "x") in L by (cbn [fib]; ring). replace (fib 2 * w "x") with (w "x") in L by (cbn [fib]; ring). exact L.
    + replace (2 + (Z.to_nat N - 2))%nat with (Z.to_nat N) by lia. eapply xb_return. apply xs_return. apply (elem1 _ _ _ _ []).
  - split; [|reflexivity]. apply value_left, result_mul. cbn [num_of]. apply cong_refl.
Qed.
End Fib.
Theorem C101_fibonacci : forall t N sort hash q gx p r st s, set_string10 t = Some N -> 2 <= N < q -> (forall l, Permutation (sort l) l) -> prime q -> 2 ^ 63 <= q -> gx 0 ==[q] 0 ->
  compiles sort hash q (C101_fib t) ["x"] p r st -> gates_to_r1cs (ppublic p) ["x"] (gates (scoll st)) false = Some s ->
  (forall W, List.length W = List.length (index_map s) -> nth 0 W 0 = 1 -> Forall (row_ok q gx W) (rows s) ->
     lin (read (index_map s) W) (strip (rvals r)) ==[q] fib (Z.to_nat N) * read (index_map s) W "x" ^ 2) /\
  (~ fib (Z.to_nat N) ==[q] 0 -> computes q gx ["x"] r s (fun l => fib (Z.to_nat N) * nth 0 l 0 ^ 2)).
Proof.
  intros t N sort hash q gx p r st s HT HN Hs Hq Bq G0 HC E.
  assert (M : forall w, program_means q gx (C101_fib t) w (Some (Wire (fib (Z.to_nat N) * nth 0 (map w ["x"]) 0 ^ 2))) []).
  { intros w. replace (fib (Z.to_nat N) * nth 0 (map w ["x"]) 0 ^ 2) with (w "x" * (fib (Z.to_nat N) * w "x")) by (cbn [map nth]; ring). exact (fib_means q gx t N Bq HT HN w). }
  assert (NP : publics (C101_fib t) = []) by reflexivity. destruct (C81_publics _ _ _ _ _ _ _ _ HC) as [P HP]. split.
  - intros W L W0 HW. assert (HP' : publics_ok p) by (apply HP; rewrite NP; split; constructor).
    exact (proj1 (proj2 (C81_sound sort hash q gx _ _ p r st s Hs Hq G0 HC HP' E W L W0 HW _ _ (M _)))).
  - intros NZ. apply (value_gives sort hash q gx (C101_fib t) ["x"] p r st s _ Hs Hq G0 HC NP E M).
    + repeat (constructor; [apply absent; reflexivity|]). constructor.
    + apply absent. reflexivity.
    + exists [1], [0]. split; [reflexivity|]. split; [reflexivity|]. cbn [nth]. intros [h H]. apply NZ. exists h. lia.
Qed.
Print Assumptions C101_fibonacci.
Example C101_fib_case : C101_fib "8" = C101_defs_6 /\ set_string10 "8" = Some 8 /\ fib 8 = 21 /\ ~ fib 8 ==[Order] 0.
Proof. split; [reflexivity|]. split; [reflexivity|]. split; [reflexivity|]. intros H. apply cong_mod_iff in H; [|discriminate]. vm_compute in H. discriminate. Qed.
(** main(x, y, z) with nested calls. *)
Theorem C101_nested : forall sort hash q gx p r st s, (forall l, Permutation (sort l) l) -> prime q -> 2 ^ 63 <= q -> gx 0 ==[q] 0 ->
  compiles sort hash q C101_defs_7 ["x"; "y"; "z"] p r st -> gates_to_r1cs (ppublic p) ["x"; "y"; "z"] (gates (scoll st)) false = Some s ->
  computes q gx ["x"; "y"; "z"] r s (fun l => let x := nth 0 l 0 in let y := nth 1 l 0 in let z := nth 2 l 0 in (x * y + z - 132) * z).
Proof.
  intros sort hash q gx p r st s Hs Hq Bq G0 HC E.
  eapply (value_of sort hash q gx C101_defs_7 _ p r st s 100); [exact Hs|exact Hq|exact Bq|exact G0|exact HC|reflexivity|exact E|vm_compute; reflexivity| | | |].
  - intros w. cbn [tden map nth]. cbv zeta. ring.
  - repeat (constructor; [apply absent; reflexivity|]). constructor.
  - apply absent. reflexivity.
  - exists [0; 0; 1], [0; 0; 0]. split; [reflexivity|]. split; [reflexivity|]. intros [h H]. cbn [nth] in H. assert (D : (q | 131)) by (exists (- h); lia). apply Z.divide_pos_le in D; lia.
Qed.
Print Assumptions C101_nested.

(** The repository's inputs, over the field of the code. *)
Definition C101_run (fs : defs) (ins : list string) (text : string) (k : nat) (l W : list Z) (v : Z) : Prop :=
  enc_prog fs (tree_of 1000 text) /\ exists p r st s, compiles sort_factors toy_hash Order fs ins p r st /\ List.length (gates (scoll st)) = k /\ gates_to_r1cs (ppublic p) ins (gates (scoll st)) false = Some s /\
    calculate_witness Order (fun _ => 0) (index_map s) (split_map s) (rows s) 0 (List.combine ins l) = Ok W /\ In v W.
Lemma run_case fs ins body text k l W v : prog_ok fs -> find_at "main" fs = Some (Fun ins body) -> enc_prog fs (tree_of 1000 text) ->
  checked (run_all sort_factors toy_hash Order 1000 (tree_of 1000 text)) k = true ->
  match run_all sort_factors toy_hash Order 1000 (tree_of 1000 text) with
  | Some (p, r, st) => match gates_to_r1cs (ppublic p) ins (gates (scoll st)) false with
      | Some s => calculate_witness Order (fun _ => 0) (index_map s) (split_map s) (rows s) 0 (List.combine ins l) | None => Err end
  | None => Err
  end = Ok W -> In v W -> C101_run fs ins text k l W v.
Proof.
  intros H1 H2 H3 H4 H5 H6. split; [exact H3|]. destruct (checked_ok _ _ H4) as (p & r & st & E & K1 & D & K3). rewrite E in H5.
  destruct (gates_to_r1cs (ppublic p) ins (gates (scoll st)) false) as [s|] eqn:Es; [|discriminate].
  apply run_all_inv in E. destruct E as [Eb Er]. exists p, r, st, s. split; [|split; [exact K3|split; [exact Es|split; [exact H5|exact H6]]]].
  split; [exact H1|]. split; [eexists; exact H2|]. split; [|split; [exact K1|exact D]]. exists (tree_of 1000 text), 1000%nat, 1000%nat. split; [exact H3|]. split; [exact Eb|exact Er].
Qed.
Example C101_case_first : C101_run C101_defs_0 ["x"; "z"] C101_text_0 7 [7; 11] [1; 7; 11; 121; 1331; 161051; 49; 343; 16807; 1729500084900343] (fifth * 11 ^ 5 + (fifth * 7 ^ 5 + 7 ^ 3)).
Proof. eapply run_case; [exact C101_ok_0|reflexivity|exact C101_encoded_0|vm_compute; reflexivity|vm_compute; reflexivity|]. do 9 right. left. vm_compute. reflexivity. Qed.
Example C101_case_loop : C101_run C101_defs_6 ["x"] C101_text_6 2 [3] [1; 3; 9; 189] (21 * 3 ^ 2).
Proof. eapply run_case; [exact C101_ok_6|reflexivity|exact C101_encoded_6|vm_compute; reflexivity|vm_compute; reflexivity|]. do 3 right. left. vm_compute. reflexivity. Qed.
Example C101_case_nested : C101_run C101_defs_7 ["x"; "y"; "z"] C101_text_7 2 [3; 5; 7] [1; 3; 5; 7; 15; Order - 770] (Order + (3 * 5 + 7 - 132) * 7).
Proof. eapply run_case; [exact C101_ok_7|reflexivity|exact C101_encoded_7|vm_compute; reflexivity|vm_compute; reflexivity|]. do 5 right. left. vm_compute. reflexivity. Qed.

(** C98: the sudoku program of testPrograms/codes.go:172-228. *)
Require Import ZArith Lia Bool Ascii String List Permutation Znumtheory.
Require Import Verif.CurveModel Verif.Pocklington.
Require Import Verif.Cong Verif.FqModel Verif.FactorModel Verif.FactorSpec Verif.FactorProofs Verif.ExprModel Verif.ExprSpec Verif.ExprProofs Verif.PropsFactor Verif.PropsExpr
  Verif.R1csModel Verif.R1csSpec Verif.WitnessModel Verif.LexerModel Verif.ParserModel Verif.CircuitModel Verif.LangSpec Verif.PropsLang Verif.PropsArray Verif.SourceSpec Verif.PropsSource Verif.WitnessSpec Verif.EndProofs Verif.SolveProofs Verif.PropsEnd Verif.PropsSolve Verif.PropsProgram Verif.LangEval.
Import ListNotations.
Local Open Scope string_scope.
Local Open Scope list_scope.
Local Open Scope Z_scope.

(** ** The grid and what the program is meant to check
    A sudoku: every row, column and 3x3 box holds 1..9 once. *)
Definition grid := nat -> nat -> Z.
Definition nine : list nat := seq 0 9.
Definition units {A} (g : nat -> nat -> A) : list (list A) :=
  map (fun i => map (g i) nine) nine ++ map (fun j => map (fun i => g i j) nine) nine ++
  flat_map (fun a => map (fun b => flat_map (fun k => map (fun l => g (3 * a + k)%nat (3 * b + l)%nat) (seq 0 3)) (seq 0 3)) (seq 0 3)) (seq 0 3).
Definition sudoku (g : grid) : Prop := Forall (fun u => Permutation u [1; 2; 3; 4; 5; 6; 7; 8; 9]) (units g).
(** What it does check: the cells are 1..9 and every product over a row, column or box is 9!. *)
Definition product (l : list Z) : Z := fold_right Z.mul 1 l.
Definition passes (g : grid) : Prop :=
  (forall i j, (i < 9)%nat -> (j < 9)%nat -> 1 <= g i j <= 9) /\ Forall (fun u => product u = 362880) (units g).
(** Main's parameter x[9][9] is 81 inputs. *)
Definition cell (i j : nat) : string := element "x" [Z.of_nat i; Z.of_nat j].
Definition cells : list string := flat_map (fun i => map (cell i) nine) nine.

(** ** The program
    The text of the repository, with return 1 for the last return (which means the same, C97_return, but is
    not a statement of LangSpec.v). *)
Definition C98_text := "

func main(x[9][9]){		
	# we check if all inputs are in the range 1 to 9
	var i = 0
	for (i<9;i=i+1){
		var j = 0
			for (j<9;j=j+1){
				equal(constraint(x[i][j]),0)
		}
	}
	#we check if all columns  
	i = 0
	for (i<9;i=i+1){
		var colProduct = 1		
		var j = 0
		for (j<9;j=j+1){
			colProduct = colProduct * x[i][j]			
		}
		equal(colProduct,2*3*4*5*6*7*8*9)
	}
	#we check if all rows  
	i = 0
	for (i<9;i=i+1){
		var colProduct = 1		
		var j = 0
		for (j<9;j=j+1){
			colProduct = colProduct * x[j][i]			
		}
		equal(colProduct,2*3*4*5*6*7*8*9)
	}
	#we check if each 3x3 box is satisfied
	i = 0
	for (i<9;i=i+3){			
		var j = 0
		for (j<9;j=j+3){
			var colProduct = 1	
			var k = 0
			for (k<3;k=k+1){
				var l = 0
					for (l<3;l=l+1){
						colProduct = colProduct * x[i+k][j+l]	
				}
			}
			equal(colProduct,2*3*4*5*6*7*8*9)		
		}
		
	}
	
	return 1
}
func constraint(x){
	return (x-1)*(x-2)*(x-3)*(x-4)*(x-5)*(x-6)*(x-7)*(x-8)*(x-9)
}

".
Definition grows (x : string) (body : list stmt) (to by_ : string) : stmt := For (Cmp "<" (Var x) (Num to)) x (Bin "+" (Var x) (Num by_)) body.
Fixpoint chain (e : exp) (l : list exp) : exp := match l with [] => e | a :: l' => Bin "*" e (chain a l') end.
Definition nine_factorial : exp := chain (Num "2") (map Num ["3"; "4"; "5"; "6"; "7"; "8"; "9"]).
Definition times (a b : exp) : stmt := Assign "colProduct" (Bin "*" (Var "colProduct") (Idx "x" [a; b])).
Definition C98_defs : defs :=
  [("main", Fun cells
     [Decl "i" (Num "0");
      grows "i" [Decl "j" (Num "0"); grows "j" [Equal (Call "constraint" [Idx "x" [Var "i"; Var "j"]]) (Num "0")] "9" "1"] "9" "1";
      Assign "i" (Num "0");
      grows "i" [Decl "colProduct" (Num "1"); Decl "j" (Num "0"); grows "j" [times (Var "i") (Var "j")] "9" "1"; Equal (Var "colProduct") nine_factorial] "9" "1";
      Assign "i" (Num "0");
      grows "i" [Decl "colProduct" (Num "1"); Decl "j" (Num "0"); grows "j" [times (Var "j") (Var "i")] "9" "1"; Equal (Var "colProduct") nine_factorial] "9" "1";
      Assign "i" (Num "0");
      grows "i" [Decl "j" (Num "0");
        grows "j" [Decl "colProduct" (Num "1"); Decl "k" (Num "0");
          grows "k" [Decl "l" (Num "0"); grows "l" [times (Bin "+" (Var "i") (Var "k")) (Bin "+" (Var "j") (Var "l"))] "3" "1"] "3" "1";
          Equal (Var "colProduct") nine_factorial] "9" "3"] "9" "3";
      Return (Num "1")]);
   ("constraint", Fun ["x"]
     [Return (chain (Bin "-" (Var "x") (Num "1")) (map (fun k => Bin "-" (Var "x") (Num k)) ["2"; "3"; "4"; "5"; "6"; "7"; "8"; "9"]))])].
Definition C98_tree : list ctree := Eval vm_compute in tree_of 1000 C98_text.
Lemma C98_encoded : enc_prog C98_defs C98_tree.
Proof. apply (prog_right 100). vm_compute. reflexivity. Qed.

(** ** The equalities it asks for *)
Fixpoint tchain (t : term) (l : list term) : term := match l with [] => t | a :: l' => TMul t (tchain a l') end.
Definition in_range (x : string) : term := tchain (TSub (TVar x) (TNum 1)) (map (fun k => TSub (TVar x) (TNum k)) [2; 3; 4; 5; 6; 7; 8; 9]).
Definition tproduct (u : list string) : term := fold_left (fun t x => TMul t (TVar x)) u (TNum 1).
Definition C98_asked : list (term * term) := map (fun x => (in_range x, TNum 0)) cells ++ map (fun u => (tproduct u, TNum 362880)) (units cell).
Lemma C98_evaluated : program_f C98_defs 100 = Some (Some (SKnown 1), C98_asked).
Proof. vm_compute. reflexivity. Qed.

Lemma units_map {A B} (f : A -> B) (g : nat -> nat -> A) : units (fun i j => f (g i j)) = map (map f) (units g).
Proof. reflexivity. Qed.
Lemma in_nine i : In i nine <-> (i < 9)%nat.
Proof. unfold nine. rewrite in_seq. lia. Qed.
Lemma in_units {A} (g : nat -> nat -> A) u x : In u (units g) -> In x u -> exists i j, (i < 9)%nat /\ (j < 9)%nat /\ x = g i j.
Proof.
  unfold units. rewrite !in_app_iff, !in_map_iff, in_flat_map. intros [(i & <- & I)|[(j & <- & J)|(a & Ia & K)]].
  - rewrite in_map_iff. intros (j & <- & J). exists i, j. rewrite !in_nine in *. auto.
  - rewrite in_map_iff. intros (i & <- & I). exists i, j. rewrite !in_nine in *. auto.
  - apply in_map_iff in K. destruct K as (b & <- & Ib). rewrite in_flat_map. intros (k & Ik & L). apply in_map_iff in L. destruct L as (l & <- & Il).
    rewrite in_seq in *. exists (3 * a + k)%nat, (3 * b + l)%nat. repeat split; lia.
Qed.
Lemma units_length {A} (g : nat -> nat -> A) u : In u (units g) -> List.length u = 9%nat.
Proof. intros I. assert (F : Forall (fun u => List.length u = 9%nat) (units g)) by (cbn; repeat constructor). rewrite Forall_forall in F. exact (F u I). Qed.
Lemma in_cells x : In x cells <-> exists i j, (i < 9)%nat /\ (j < 9)%nat /\ x = cell i j.
Proof.
  unfold cells. rewrite in_flat_map. split.
  - intros (i & I & J). apply in_map_iff in J. destruct J as (j & <- & J). exists i, j. rewrite !in_nine in *. auto.
  - intros (i & j & I & J & ->). exists i. rewrite in_map_iff, in_nine. split; [exact I|]. exists j. rewrite in_nine. auto.
Qed.
Lemma tproduct_den w u : forall t, tden w (fold_left (fun t x => TMul t (TVar x)) u t) = tden w t * product (map w u).
Proof. induction u as [|x u IH]; intros t; cbn [fold_left map product fold_right]; [lia|]. rewrite IH. cbn [tden]. unfold product. cbn [fold_right]. lia. Qed.
Lemma range_den w x : tden w (in_range x) =
  (w x - 1) * ((w x - 2) * ((w x - 3) * ((w x - 4) * ((w x - 5) * ((w x - 6) * ((w x - 7) * ((w x - 8) * (w x - 9)))))))).
Proof. reflexivity. Qed.
Lemma range_iff q z : prime q -> 9 < q ->
  ((z - 1) * ((z - 2) * ((z - 3) * ((z - 4) * ((z - 5) * ((z - 6) * ((z - 7) * ((z - 8) * (z - 9)))))))) ==[q] 0 <-> 1 <= z mod q <= 9).
Proof.
  intros Hq Q. split.
  - unfold cong. rewrite Z.sub_0_r. intros H.
    assert (Z1 : forall d, 1 <= d <= 9 -> (q | z - d) -> 1 <= z mod q <= 9).
    { intros d Hd D. assert (E : z ==[q] d) by exact D. apply cong_mod_iff in E; [|lia]. rewrite E, Z.mod_small; lia. }
    repeat (apply prime_mult in H; [|exact Hq]; destruct H as [H|H]; [eapply Z1; [|exact H]; lia|]). eapply Z1; [|exact H]; lia.
  - intros H. set (d := z mod q) in *. assert (D : z ==[q] d) by (apply cong_sym, cong_mod; lia).
    assert (C : d = 1 \/ d = 2 \/ d = 3 \/ d = 4 \/ d = 5 \/ d = 6 \/ d = 7 \/ d = 8 \/ d = 9) by lia.
    assert (M : forall a b, (q | a) -> (q | a * b)) by (intros; now apply Z.divide_mul_l).
    assert (N : forall a b, (q | b) -> (q | a * b)) by (intros; now apply Z.divide_mul_r).
    unfold cong in *. rewrite Z.sub_0_r.
    destruct C as [C|[C|[C|[C|[C|[C|[C|[C|C]]]]]]]]; rewrite C in D; [|do 1 apply N|do 2 apply N|do 3 apply N|do 4 apply N|do 5 apply N|do 6 apply N|do 7 apply N|do 8 apply N]; first [apply M; exact D|exact D].
Qed.
Lemma product_cong q (w : nat -> nat -> Z) g l : (forall i j, (i < 9)%nat -> (j < 9)%nat -> w i j ==[q] g i j) ->
  (forall p, In p l -> (fst p < 9)%nat /\ (snd p < 9)%nat) -> product (map (fun p => w (fst p) (snd p)) l) ==[q] product (map (fun p => g (fst p) (snd p)) l).
Proof.
  intros C I. induction l as [|[i j] l IH]; [apply cong_refl|]. cbn [map]. unfold product. cbn [fold_right fst snd]. apply cong_mul; [apply C; apply (I (i, j)); now left|].
  apply IH. intros p Hp. apply I. now right.
Qed.
Lemma product_bound u : Forall (fun z => 1 <= z <= 9) u -> 1 <= product u <= 9 ^ Z.of_nat (List.length u).
Proof.
  induction 1 as [|z u Hz _ IH]; [cbn; lia|]. cbn [List.length]. rewrite Nat2Z.inj_succ, Z.pow_succ_r by lia. unfold product in *. cbn [fold_right]. nia.
Qed.
Lemma units_pairs {A} (g : nat -> nat -> A) : units g = map (map (fun p => g (fst p) (snd p))) (units (fun i j => (i, j))).
Proof. exact (units_map (fun p => g (fst p) (snd p)) (fun i j => (i, j))). Qed.
Lemma Forall_map' {A B} (P : B -> Prop) (f : A -> B) l : Forall P (map f l) <-> Forall (fun x => P (f x)) l.
Proof. rewrite !Forall_forall. split; intros H x Hx; [apply H; now apply in_map|]. apply in_map_iff in Hx. destruct Hx as (y & <- & Hy). now apply H. Qed.

(** The equalities hold exactly if the inputs, as numbers below q, pass. *)
Lemma asked_iff q w : prime q -> 2 ^ 63 <= q ->
  (Forall (fun e => fst e ==[q] snd e) (aden w C98_asked) <-> passes (fun i j => w (cell i j) mod q)).
Proof.
  intros Hq Q. unfold aden, C98_asked, passes. rewrite map_app, Forall_app, !Forall_map'.
  assert (P0 : 0 < q) by lia.
  assert (R : forall x, tden w (in_range x) ==[q] 0 <-> 1 <= w x mod q <= 9) by (intros x; rewrite range_den; apply range_iff; [exact Hq|lia]).
  cbn [fst snd tden]. assert (A : Forall (fun x => tden w (in_range x) ==[q] 0) cells <->
    forall i j, (i < 9)%nat -> (j < 9)%nat -> 1 <= w (cell i j) mod q <= 9).
  { rewrite Forall_forall. split.
    - intros H i j Hi Hj. apply R, H, in_cells. eauto.
    - intros H x Hx. apply in_cells in Hx. destruct Hx as (i & j & Hi & Hj & ->). apply R. auto. }
  split; intros [H1 H2].
  - assert (H1' := proj1 A H1). clear H1. rename H1' into H1. split; [exact H1|]. rewrite units_pairs, Forall_map'. rewrite units_pairs, Forall_map' in H2. rewrite Forall_forall in *. intros u Hu. specialize (H2 u Hu).
    cbn [fst snd tden] in H2. unfold tproduct in H2. rewrite tproduct_den in H2. cbn [tden] in H2. rewrite Z.mul_1_l, map_map in H2.
    assert (Iu : forall p, In p u -> (fst p < 9)%nat /\ (snd p < 9)%nat) by (intros p Hp; destruct (in_units _ _ _ Hu Hp) as (i & j & Hi & Hj & ->); auto).
    assert (C := product_cong q (fun i j => w (cell i j)) (fun i j => w (cell i j) mod q) u (fun i j _ _ => cong_sym _ _ _ (cong_mod q _)) Iu).
    assert (B : 1 <= product (map (fun p => w (cell (fst p) (snd p)) mod q) u) <= 9 ^ 9).
    { assert (X := product_bound (map (fun p => w (cell (fst p) (snd p)) mod q) u)). rewrite map_length, (units_length _ _ Hu) in X. apply X.
      rewrite Forall_map', Forall_forall. intros p Hp. destruct (Iu p Hp). auto. }
    apply (cong_canon_unique q); [lia|lia|]. eapply cong_trans; [apply cong_sym; exact C|exact H2].
  - split; [exact (proj2 A H1)|]. rewrite units_pairs, Forall_map'. rewrite units_pairs, Forall_map' in H2. rewrite Forall_forall in *. intros u Hu. specialize (H2 u Hu).
    cbn [fst snd tden]. unfold tproduct. rewrite tproduct_den. cbn [tden]. rewrite Z.mul_1_l, map_map.
    assert (Iu : forall p, In p u -> (fst p < 9)%nat /\ (snd p < 9)%nat) by (intros p Hp; destruct (in_units _ _ _ Hu Hp) as (i & j & Hi & Hj & ->); auto).
    assert (C := product_cong q (fun i j => w (cell i j)) (fun i j => w (cell i j) mod q) u (fun i j _ _ => cong_sym _ _ _ (cong_mod q _)) Iu).
    cbn beta in C. rewrite H2 in C. exact C.
Qed.

(** ** C98 *)
Lemma cell_inj i j i' j' : (i < 9)%nat -> (j < 9)%nat -> (i' < 9)%nat -> (j' < 9)%nat -> cell i j = cell i' j' -> i = i' /\ j = j'.
Proof.
  intros Hi Hj Hi' Hj' E. assert (Wx : SourceSpec.word "x") by (apply PropsSource.word_test; [reflexivity|discriminate]).
  destruct (C87_names "x" "x" _ _ Wx Wx E) as [_ X]. injection X as A B. lia.
Qed.
Lemma C98_publics sort hash q p r st : compiles sort hash q C98_defs cells p r st -> ppublic p = ["1"] /\ publics_ok p.
Proof.
  intros HC. destruct (C81_publics _ _ _ _ _ _ _ _ HC) as [E P]. split; [exact E|]. apply P. split; constructor.
Qed.
(** Every vector satisfying the generated system holds a grid that passes. *)
Theorem C98_system : forall sort hash q gx p r st s, (forall l, Permutation (sort l) l) -> prime q -> 2 ^ 63 <= q -> gx 0 ==[q] 0 ->
  compiles sort hash q C98_defs cells p r st -> gates_to_r1cs (ppublic p) cells (gates (scoll st)) false = Some s ->
  forall W, List.length W = List.length (index_map s) -> nth 0 W 0 = 1 -> Forall (row_ok q gx W) (rows s) ->
  passes (fun i j => read (index_map s) W (cell i j) mod q).
Proof.
  intros sort hash q gx p r st s Hs Hq Q G0 HC E W L W0 HW. destruct (C98_publics _ _ _ _ _ _ HC) as [_ HP].
  apply asked_iff; [exact Hq|exact Q|].
  exact (proj1 (C81_sound sort hash q gx C98_defs cells p r st s Hs Hq G0 HC HP E W L W0 HW _ _ (program_right q gx C98_defs _ Q 100 _ _ C98_evaluated))).
Qed.
Print Assumptions C98_system.
(** The solver accepts 81 inputs exactly if they pass. *)
Theorem C98_solver : forall sort hash q gx p r st s, (forall l, Permutation (sort l) l) -> prime q -> 2 ^ 63 <= q -> gx 0 ==[q] 0 ->
  compiles sort hash q C98_defs cells p r st -> gates_to_r1cs (ppublic p) cells (gates (scoll st)) false = Some s ->
  forall g rnd inp, NoDup (map fst inp) -> (forall x, In x (map fst inp) <-> In x cells) ->
  (forall i j z, (i < 9)%nat -> (j < 9)%nat -> In (cell i j, z) inp -> z = g i j) ->
  ((exists W, calculate_witness q gx (index_map s) (split_map s) (rows s) rnd inp = Ok W) <-> passes (fun i j => g i j mod q)) /\
  forall W, calculate_witness q gx (index_map s) (split_map s) (rows s) rnd inp = Ok W -> Forall (row_ok q gx W) (rows s).
Proof.
  intros sort hash q gx p r st s Hs Hq Q G0 HC E g rnd inp N I V. destruct (C98_publics _ _ _ _ _ _ HC) as [P HP].
  set (w := fun x => match find_at x inp with Some z => z | None => 0 end).
  assert (F : forall x z, In (x, z) inp -> find_at x inp = Some z).
  { clear -N. induction inp as [|[y a] inp IH]; intros x z H; [destruct H|]. cbn [map fst] in N. inversion N; subst. cbn [find_at]. destruct H as [H|H].
    - injection H as -> ->. now rewrite String.eqb_refl.
    - destruct (String.eqb_spec x y) as [->|_]; [|auto]. exfalso. match goal with K : ~ In _ _ |- _ => apply K end. change y with (fst (y, z)). now apply in_map. }
  assert (W : forall i j, (i < 9)%nat -> (j < 9)%nat -> w (cell i j) = g i j).
  { intros i j Hi Hj. assert (Ic : In (cell i j) (map fst inp)) by (apply I, in_cells; eauto). apply in_map_iff in Ic. destruct Ic as ([x z] & Ex & Iz). cbn [fst] in Ex. subst x.
    unfold w. rewrite (F _ _ Iz). now apply (V i j). }
  assert (SI : supplied (ppublic p) cells inp).
  { split; [exact N|]. intros x. rewrite I, P. cbn [app In]. split; [|intros [[<-|H] Nx]; [contradiction|exact H]]. intros H. split; [now right|].
    apply in_cells in H. destruct H as (i & j & _ & _ & ->). discriminate. }
  destruct (C81_solver sort hash q gx C98_defs cells p r st s Hs Hq G0 HC HP E w _ _ rnd inp (program_right q gx C98_defs w Q 100 _ _ C98_evaluated) SI
    (fun x a H => eq_sym (eq_trans (f_equal (fun o => match o with Some z => z | None => 0 end) (F x a H)) eq_refl))) as [S1 S2].
  split; [|intros W' HW; exact (proj1 (S2 W' HW))]. rewrite S1. rewrite asked_iff by assumption. unfold passes. rewrite !(units_pairs (fun i j => _ mod q)), !Forall_map'.
  assert (X : forall u, In u (units (fun i j => (i, j))) -> map (fun p => w (cell (fst p) (snd p)) mod q) u = map (fun p => g (fst p) (snd p) mod q) u).
  { intros u Hu. apply map_ext_in. intros c Hc. destruct (in_units _ _ _ Hu Hc) as (i & j & Hi & Hj & ->). cbn [fst snd]. now rewrite W. }
  rewrite !Forall_forall. split; intros [H1 H2]; (split; [intros i j Hi Hj; specialize (H1 i j Hi Hj); rewrite W in *; assumption|]); intros u Hu; specialize (H2 u Hu); rewrite X in *; assumption.
Qed.
Print Assumptions C98_solver.
(** The inputs of the program for a grid, and a grid that passes is accepted. *)
Definition inputs_of (g : grid) : list (string * Z) := flat_map (fun i => map (fun j => (cell i j, g i j)) nine) nine.
Theorem C98_accepts : forall g, passes g -> forall sort hash q gx p r st s, (forall l, Permutation (sort l) l) -> prime q -> 2 ^ 63 <= q -> gx 0 ==[q] 0 ->
  compiles sort hash q C98_defs cells p r st -> gates_to_r1cs (ppublic p) cells (gates (scoll st)) false = Some s ->
  forall rnd, exists W, calculate_witness q gx (index_map s) (split_map s) (rows s) rnd (inputs_of g) = Ok W /\ Forall (row_ok q gx W) (rows s).
Proof.
  intros g HG sort hash q gx p r st s Hs Hq Q G0 HC E rnd.
  set (inp := inputs_of g).
  assert (In' : map fst inp = cells) by (vm_compute; reflexivity).
  assert (Nd : NoDup cells) by (vm_compute; repeat (constructor; [apply absent; reflexivity|]); constructor).
  destruct (C98_solver sort hash q gx p r st s Hs Hq Q G0 HC E g rnd inp) as [[_ A] B].
  - rewrite In'. exact Nd.
  - intros x. rewrite In'. reflexivity.
  - intros i j z Hi Hj H. unfold inp, inputs_of in H. apply in_flat_map in H. destruct H as (i' & Hi' & H). apply in_map_iff in H. destruct H as (j' & H & Hj'). assert (Ec := f_equal fst H). assert (Ez := f_equal snd H). cbn [fst snd] in Ec, Ez. subst z. clear H.
    apply in_nine in Hi', Hj'. destruct (cell_inj _ _ _ _ Hi' Hj' Hi Hj Ec) as [-> ->]. reflexivity.
  - destruct A as (W & HW).
    + destruct HG as [P1 P2].
      assert (X : forall i j, (i < 9)%nat -> (j < 9)%nat -> g i j mod q = g i j) by (intros i j Hi Hj; specialize (P1 i j Hi Hj); apply Z.mod_small; lia).
      split; [intros i j Hi Hj; rewrite X by assumption; auto|]. rewrite units_pairs, Forall_map'. rewrite units_pairs, Forall_map' in P2. rewrite Forall_forall in *. intros u Hu. specialize (P2 u Hu).
      rewrite <- P2. f_equal. apply map_ext_in. intros c Hc. destruct (in_units _ _ _ Hu Hc) as (i & j & Hi & Hj & ->). cbn [fst snd]. now apply X.
    + exists W. split; [exact HW|]. now apply B.
Qed.
Print Assumptions C98_accepts.
(** A sudoku passes. *)
Theorem C98_sudoku : forall g, sudoku g -> passes g.
Proof.
  intros g H. unfold sudoku in H. rewrite Forall_forall in H. split.
  - intros i j Hi Hj. assert (Iu : In (map (g i) nine) (units g)) by (apply in_app_iff; left; apply (in_map (fun i => map (g i) nine)), in_nine, Hi).
    assert (Ix : In (g i j) [1; 2; 3; 4; 5; 6; 7; 8; 9]) by (apply (Permutation_in _ (H _ Iu)), in_map, in_nine, Hj). cbn in Ix. lia.
  - rewrite Forall_forall. intros u Hu. assert (M : forall a b, Permutation a b -> product a = product b) by (induction 1; unfold product in *; cbn [fold_right]; lia).
    rewrite (M _ _ (H u Hu)). reflexivity.
Qed.
Print Assumptions C98_sudoku.
(** The grid of testPrograms/codes.go:19-33 with 9, 4, 4 written for 3, 6, 8: no row, column or box holds 3, yet it
    passes, as 9 * 4 * 4 = 3 * 6 * 8. *)
Definition of_rows (l : list (list Z)) : grid := fun i j => nth j (nth i l []) 0.
Definition C98_valid : grid := of_rows
  [[9; 5; 7; 6; 1; 3; 2; 8; 4]; [4; 8; 3; 2; 5; 7; 1; 9; 6]; [6; 1; 2; 8; 4; 9; 5; 3; 7];
   [1; 7; 8; 3; 6; 4; 9; 5; 2]; [5; 2; 4; 9; 7; 1; 3; 6; 8]; [3; 6; 9; 5; 2; 8; 7; 4; 1];
   [8; 4; 5; 7; 9; 2; 6; 1; 3]; [2; 9; 1; 4; 3; 6; 8; 7; 5]; [7; 3; 6; 1; 8; 5; 4; 2; 9]].
Definition C98_false : grid := fun i j => match C98_valid i j with 3 => 9 | 6 => 4 | 8 => 4 | z => z end.
Lemma C98_false_passes : passes C98_false.
Proof.
  split; [|vm_compute; repeat (constructor; [reflexivity|]); constructor].
  assert (F : forallb (fun i => forallb (fun j => (1 <=? C98_false i j) && (C98_false i j <=? 9)) nine) nine = true) by (vm_compute; reflexivity).
  intros i j Hi Hj. rewrite forallb_forall in F. assert (A := F i (proj2 (in_nine i) Hi)). rewrite forallb_forall in A. assert (B := A j (proj2 (in_nine j) Hj)).
  apply andb_prop in B. destruct B as [B1 B2]. apply Z.leb_le in B1, B2. lia.
Qed.
Lemma C98_false_no : ~ sudoku C98_false.
Proof.
  unfold sudoku. rewrite Forall_forall. intros H. assert (X := H (map (C98_false 0%nat) nine) (in_eq _ _)). vm_compute in X.
  apply Permutation_sym in X. assert (Y := Permutation_in 3 X). cbn in Y. destruct Y as [Y|[Y|[Y|[Y|[Y|[Y|[Y|[Y|[Y|[]]]]]]]]]]; try discriminate Y. do 2 right. now left.
Qed.
(** The solver returns a witness for a grid that is no sudoku. *)
Theorem C98_refuted : exists g, ~ sudoku g /\ forall sort hash q gx p r st s, (forall l, Permutation (sort l) l) -> prime q -> 2 ^ 63 <= q -> gx 0 ==[q] 0 ->
  compiles sort hash q C98_defs cells p r st -> gates_to_r1cs (ppublic p) cells (gates (scoll st)) false = Some s ->
  forall rnd, exists W, calculate_witness q gx (index_map s) (split_map s) (rows s) rnd (inputs_of g) = Ok W /\ Forall (row_ok q gx W) (rows s).
Proof. exists C98_false. split; [exact C98_false_no|exact (C98_accepts _ C98_false_passes)]. Qed.
Print Assumptions C98_refuted.

(** ** The program does compile, to 966 gates *)
Definition C98_plain : defs := Eval vm_compute in C98_defs.
Lemma C98_same : C98_defs = C98_plain.
Proof. vm_compute. reflexivity. Qed.
Lemma C98_ok : prog_ok C98_defs.
Proof.
  rewrite C98_same. split; [repeat (constructor; [apply absent; reflexivity|]); constructor|].
  assert (C : callable C98_plain "constraint" 1) by (split; [discriminate|eexists; split; reflexivity]).
  assert (G : gives C98_plain "constraint") by (eexists; split; [reflexivity|]; eexists; left; reflexivity).
  constructor; [|constructor; [|constructor]]; unfold fun_ok; cbn [fst snd fparams fbody]; heading.
  all: lazy beta iota zeta delta [block_ok stmt_ok exp_ok app cond_ok cleft cright new_ok name_ok].
  all: repeat match goal with |- _ /\ _ => split end; try exact I; try assumption; try discriminate.
  all: try (lazymatch goal with |- In _ _ => apply present | |- ~ In _ _ => apply absent | |- _ = _ => idtac end; vm_compute; reflexivity).
  all: first [apply array_okb_ok; [split; [reflexivity|apply absent; reflexivity]|vm_compute; reflexivity] | constructor; [apply present; reflexivity|constructor]].
Qed.
Fixpoint C98_fold (s : string) (a : Z) : Z :=
  match s with EmptyString => a | String c s' => C98_fold s' (Z.land (a * 37 + Z.of_N (N_of_ascii c)) (2 ^ 32 - 1)) end.
Definition C98_hash (s : string) : Z := 10 ^ 16 + C98_fold s 0 * 1000003.
(** Whoever compiles the text has compiled [C98_defs]. *)
Theorem C98_text_compiles : forall sort hash q n r st, compile_text sort hash q n C98_text = Done (r, st) ->
  no_collision (strace st) -> Forall distinct_names (sstored st) -> exists p, compiles sort hash q C98_defs cells p r st.
Proof.
  intros sort hash q n r st E NC Dn.
  assert (C : constraints C98_text C98_tree).
  { exists 1000%nat, (tokens_in C98_text). split; [|vm_compute; reflexivity]. intros k. apply (lex_more 1000); [vm_compute; reflexivity|lia]. }
  destruct (compiled_constraints _ _ _ _ _ _ _ _ C E) as (p & Eb & Er). exists p.
  split; [exact C98_ok|]. split; [eexists; reflexivity|]. split; [|split; [exact NC|exact Dn]]. exists C98_tree, n, n. split; [exact C98_encoded|]. split; [exact Eb|exact Er].
Qed.
Print Assumptions C98_text_compiles.
Lemma C98_checked : checked (run_all sort_factors C98_hash Order 1000 C98_tree) 966 = true.
Proof. vm_compute. reflexivity. Qed.
Lemma nine_perm u : (Nat.eqb (List.length u) 9 && forallb (fun d => existsb (Z.eqb d) u) [1; 2; 3; 4; 5; 6; 7; 8; 9])%bool = true -> Permutation u [1; 2; 3; 4; 5; 6; 7; 8; 9].
Proof.
  intros H. apply andb_prop in H. destruct H as [L H]. apply Nat.eqb_eq in L. apply Permutation_sym, NoDup_Permutation_bis.
  - repeat (constructor; [cbn; lia|]). constructor.
  - rewrite L. cbn. lia.
  - intros d Hd. rewrite forallb_forall in H. specialize (H d Hd). apply existsb_exists in H. destruct H as (x & Hx & E). apply Z.eqb_eq in E. now subst.
Qed.
Lemma C98_valid_sudoku : sudoku C98_valid.
Proof.
  assert (H : forallb (fun u => Nat.eqb (List.length u) 9 && forallb (fun d => existsb (Z.eqb d) u) [1; 2; 3; 4; 5; 6; 7; 8; 9])%bool (units C98_valid) = true) by (vm_compute; reflexivity).
  unfold sudoku. rewrite Forall_forall. rewrite forallb_forall in H. intros u Hu. apply nine_perm, H, Hu.
Qed.
Example C98_case : exists p r st s, compile_text sort_factors C98_hash Order 1000 C98_text = Done (r, st) /\ no_collision (strace st) /\ Forall distinct_names (sstored st) /\ compiles sort_factors C98_hash Order C98_defs cells p r st /\ List.length (gates (scoll st)) = 966%nat /\
  gates_to_r1cs (ppublic p) cells (gates (scoll st)) false = Some s /\ prime Order /\ 2 ^ 63 <= Order /\ sudoku C98_valid /\
  (forall rnd, exists W, calculate_witness Order (fun _ => 0) (index_map s) (split_map s) (rows s) rnd (inputs_of C98_valid) = Ok W /\ Forall (row_ok Order (fun _ => 0) W) (rows s)).
Proof.
  destruct (checked_ok _ _ C98_checked) as (p & r & st & E & H1 & D & H3). apply run_all_inv in E. destruct E as [Eb Er].
  assert (HC : compiles sort_factors C98_hash Order C98_defs cells p r st).
  { split; [exact C98_ok|]. split; [eexists; reflexivity|]. split; [|split; [exact H1|exact D]]. exists C98_tree, 1000%nat, 1000%nat. split; [exact C98_encoded|]. split; [exact Eb|exact Er]. }
  assert (Q : 2 ^ 63 <= Order) by (intros X; discriminate X).
  destruct (proj1 (C81_generated _ _ _ _ _ _ _ _ sort_factors_perm prime_Order HC (proj2 (C98_publics _ _ _ _ _ _ HC)))) as (s & Es & _).
  exists p, r, st, s. split; [|split; [exact H1|split; [exact D|]]].
  { assert (T : tree_of 1000 C98_text = C98_tree) by (vm_compute; reflexivity). apply (tree_text _ _ _ _ _ p); [rewrite T; discriminate|rewrite T; exact Eb|exact Er]. }
  split; [exact HC|]. split; [exact H3|]. split; [exact Es|]. split; [exact prime_Order|]. split; [exact Q|]. split; [exact C98_valid_sudoku|].
  exact (C98_accepts _ (C98_sudoku _ C98_valid_sudoku) _ _ _ (fun _ => 0) _ _ _ _ sort_factors_perm prime_Order Q (cong_refl _ _) HC Es).
Qed.

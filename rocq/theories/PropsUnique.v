(** C99: the inputs determine the witness, except where 0 is divided by 0. *)
Require Import ZArith Znumtheory NArith Lia Bool Permutation Ascii String List.
Require Import Verif.Cong Verif.FqModel Verif.FqProofs Verif.Pocklington Verif.AvlModel Verif.PolyModel Verif.PolyProofs Verif.InterpProofs.
Require Import Verif.CurveModel Verif.CurveSpec Verif.PairModel Verif.PairProofs Verif.SnarkModel Verif.SnarkSpec Verif.SnarkProofs2 Verif.SnarkProofs3 Verif.BnGroups Verif.PropsSnark Verif.PropsBn.
Require Import Verif.FactorModel Verif.FactorSpec Verif.FactorProofs.
Require Import Verif.ExprModel Verif.ExprSpec Verif.ExprProofs Verif.ExprProofs2 Verif.AvlModel Verif.PolyModel.
Require Import Verif.FqSpec Verif.R1csModel Verif.R1csSpec Verif.R1csProofs Verif.EndProofs.
Require Import Verif.WitnessModel Verif.WitnessSpec Verif.SolveProofs.
Require Import Verif.LexerModel Verif.ParserModel Verif.CircuitModel Verif.LangSpec Verif.LangHeap Verif.LangSym Verif.LangRun Verif.LangBuild Verif.LangField Verif.LangGood.
Require Import Verif.PropsFactor Verif.PropsExpr Verif.PropsR1cs Verif.PropsEnd Verif.PropsSolve Verif.PropsLang Verif.GoodSystem Verif.PropsProgram Verif.SystemShape Verif.PropsChain Verif.PropsSparseChain Verif.LangEval.
Import ListNotations.
Local Open Scope string_scope.
Local Open Scope list_scope.
Local Open Scope Z_scope.

Lemma dot_pointwise q a : forall W W', (forall i, nth i W 0 ==[q] nth i W' 0) -> dot a W ==[q] dot a W'.
Proof.
  intros W W' H. rewrite !dot_nth. induction (seq 0 (List.length a)) as [|i l IH]; [apply cong_refl|]. cbn [map zsum].
  apply cong_add; [apply cong_mul; [apply cong_refl|apply H]|exact IH].
Qed.
Lemma row_pointwise q gx W W' r : 0 < q -> (forall i, nth i W 0 ==[q] nth i W' 0) -> row_ok q gx W r -> row_ok q gx W' r.
Proof.
  intros Q H. unfold row_ok. intros K.
  assert (Ee : dot (re r) W mod q = dot (re r) W' mod q) by (apply cong_mod_iff; [lia|now apply dot_pointwise]). rewrite <- Ee.
  eapply cong_trans; [|eapply cong_trans; [exact K|now apply dot_pointwise]].
  apply cong_add; [|apply cong_refl]. apply cong_sym. apply cong_mul; now apply dot_pointwise.
Qed.

(** Two vectors that satisfy the system of a program and hold the same inputs modulo q are the same modulo q, if the
    program has a meaning for the inputs. *)
Theorem C99_unique : forall sort hash q gx fs ins p r st s, (forall l, Permutation (sort l) l) -> prime q -> gx 0 ==[q] 0 ->
  compiles sort hash q fs ins p r st -> publics_ok p -> gates_to_r1cs (ppublic p) ins (gates (scoll st)) false = Some s ->
  forall W W', List.length W = List.length (index_map s) -> nth 0 W 0 = 1 -> Forall (row_ok q gx W) (rows s) ->
  List.length W' = List.length (index_map s) -> nth 0 W' 0 = 1 -> Forall (row_ok q gx W') (rows s) ->
  (forall x, In x (ppublic p ++ ins) -> read (index_map s) W x ==[q] read (index_map s) W' x) ->
  (exists v asked, program_means q gx fs (read (index_map s) W) v asked) ->
  forall i, nth i W 0 ==[q] nth i W' 0.
Proof.
  intros sort hash q gx fs ins p r st s Hs Hq G0 HC HP E W W' L W0 HW L' W0' HW' Same (v & asked & M).
  assert (Q : 0 < q) by (destruct Hq; lia).
  destruct (prog_nice sort Hs hash q Hq (fun _ => 0) fs ins p r st HC HP) as (HG & HO & _).
  assert (D2 := prog_one _ _ _ _ _ _ _ _ HC). assert (D3 := prog_declared _ _ _ _ _ _ _ _ HC). assert (D4 := prog_apart _ _ _ _ _ _ _ _ HC HP).
  assert (Hr := prog_rand sort Hs hash q Hq (fun _ => 0) fs ins p r st HC HP).
  destruct (prog_run _ _ _ _ _ _ _ _ HC) as (body & Em & Np & _). rewrite Forall_forall in Np.
  set (names := wire_names (ppublic p) ins (gates (scoll st)) false) in *.
  assert (Num := sys_num q (scoll st) (ppublic p) ins (proj1 HP) D2 s E). fold names in Num. destruct Num as (N1 & N2 & N3).
  assert (RW := sys_read q (scoll st) (ppublic p) ins (proj1 HP) D2 s E W' L'). fold names in RW.
  set (inputs := ppublic p ++ ins) in *.
  set (mix := fun x => if in_dec string_dec x inputs then read (index_map s) W x else read (index_map s) W' x).
  assert (Cm : forall x, mix x ==[q] read (index_map s) W' x) by (intros x; unfold mix; destruct (in_dec string_dec x inputs) as [I|I]; [now apply Same|apply cong_refl]).
  set (V := map mix names).
  assert (LV : List.length V = List.length (index_map s)) by (unfold V; now rewrite map_length, N2).
  assert (CV : forall i, nth i V 0 ==[q] nth i W' 0).
  { intros i. unfold V. rewrite <- RW. clear -Cm. revert i. induction names as [|x l IH]; intros [|i]; cbn [map nth]; auto using cong_refl. }
  assert (RV : forall x, In x names -> read (index_map s) V x = mix x).
  { intros x Hx. apply In_nth_error in Hx. destruct Hx as [i Hi]. unfold read. rewrite (proj2 (N3 x i) Hi). unfold V.
    rewrite (nth_indep _ 0 (mix x)) by (rewrite map_length; apply nth_error_Some; congruence). rewrite map_nth. now rewrite (nth_error_nth _ _ _ Hi). }
  assert (II : forall x, In x inputs -> In x names) by (intros x Hx; apply (sys_in (scoll st)); exact Hx).
  assert (RI : forall x, In x inputs -> read (index_map s) V x = read (index_map s) W x).
  { intros x Hx. rewrite RV by auto. unfold mix. destruct (in_dec string_dec x inputs); [reflexivity|contradiction]. }
  assert (V0 : nth 0 V 0 = 1).
  { rewrite <- (sys_first q (fun x => In x ins) (scoll st) (ppublic p) ins (proj1 HP) D2 D3 D4 s E V). rewrite RI by (apply in_app_iff; left; eapply nth_error_In; exact D2).
    now rewrite (sys_first q (fun x => In x ins) (scoll st) (ppublic p) ins (proj1 HP) D2 D3 D4 s E W). }
  assert (HV : Forall (row_ok q gx V) (rows s)).
  { eapply Forall_impl; [|exact HW']. intros x. apply row_pointwise; [exact Q|]. intros i. apply cong_sym, CV. }
  assert (MV : program_means q gx fs (read (index_map s) V) v asked).
  { apply (program_means_ext q gx fs ins body (read (index_map s) W)); auto. intros x Hx. symmetry. apply RI. apply in_app_iff. now right. }
  set (inp := map (fun x => (x, read (index_map s) W x)) (nodup string_dec (filter (fun x => negb (String.eqb x "1")) inputs))).
  assert (Mi : map fst inp = nodup string_dec (filter (fun x => negb (String.eqb x "1")) inputs)) by (unfold inp; rewrite map_map; apply map_id).
  assert (SI : supplied (ppublic p) ins inp).
  { split; rewrite Mi; [apply NoDup_nodup|]. intros x. rewrite nodup_In, filter_In. fold inputs. destruct (String.eqb_spec x "1"); cbn [negb]; intuition congruence. }
  assert (IV : forall x a, In (x, a) inp -> In x inputs /\ a = read (index_map s) W x).
  { intros x a H. unfold inp in H. apply in_map_iff in H. destruct H as (y & H & Hy). injection H as -> <-. apply nodup_In, filter_In in Hy. now split. }
  assert (F : forall U, List.length U = List.length (index_map s) -> nth 0 U 0 = 1 -> Forall (row_ok q gx U) (rows s) -> program_means q gx fs (read (index_map s) U) v asked ->
    (forall x, In x inputs -> read (index_map s) U x = read (index_map s) W x) ->
    exists X, calculate_witness q gx (index_map s) (split_map s) (rows s) 0 inp = Ok X /\ forall i, nth i X 0 ==[q] nth i U 0).
  { intros U LU U0 HU MU RU. assert (HA := proj1 (sys_holds q Hq gx G0 _ _ _ (ppublic p) ins HG (proj1 HP) D2 D3 D4 s E U LU U0) HU).
    destruct (prog_values sort Hs hash q Hq gx fs ins p r st HC _ _ _ HA MU) as (_ & _ & DV).
    destruct (sys_finds q Hq gx G0 (fun x => In x ins) (scoll st) (strace st) (ppublic p) ins HG (proj1 HP) D2 D3 D4 s E HO Hr U LU U0 HU DV 0 inp SI) as (X & HX & _ & CX).
    - intros x a H. destruct (IV x a H) as [Ix ->]. rewrite RU by auto. apply cong_refl.
    - exists X. split; auto. }
  destruct (F W L W0 HW M (fun _ _ => eq_refl)) as (X & HX & CX). destruct (F V LV V0 HV MV RI) as (Y & HY & CY).
  rewrite HX in HY. injection HY as <-. intros i. eapply cong_trans; [apply cong_sym, CX|]. eapply cong_trans; [apply CY|apply CV].
Qed.
Print Assumptions C99_unique.

(** The same for the sparse system. *)
Theorem C99_sparse : forall sort hash q gx fs ins p r st s, (forall l, Permutation (sort l) l) -> prime q -> gx 0 ==[q] 0 ->
  compiles sort hash q fs ins p r st -> publics_ok p -> numbers_plain p ins st -> gates_to_sparse_r1cs q (ppublic p) ins (gates (scoll st)) false = Some s ->
  forall W W', List.length W = List.length (index_map s) -> nth 0 W 0 = 1 -> Forall (srow_ok q gx W) (rows s) ->
  List.length W' = List.length (index_map s) -> nth 0 W' 0 = 1 -> Forall (srow_ok q gx W') (rows s) ->
  (forall x, In x (ppublic p ++ ins) -> read (index_map s) W x ==[q] read (index_map s) W' x) ->
  (exists v asked, program_means q gx fs (read (index_map s) W) v asked) ->
  forall i, nth i W 0 ==[q] nth i W' 0.
Proof.
  intros sort hash q gx fs ins p r st s Hs Hq G0 HC HP NP E W W' L W0 HW L' W0' HW' Same M.
  destruct (C93_system sort hash q gx fs ins p r st Hs Hq G0 HC HP NP) as (d & s' & ED & ES & _ & _ & EI & _ & EQ). rewrite E in ES. injection ES as <-.
  assert (A := proj1 (EQ W L W0) HW). assert (B := proj1 (EQ W' L' W0') HW'). rewrite EI in *.
  exact (C99_unique sort hash q gx fs ins p r st d Hs Hq G0 HC HP ED W W' L W0 A L' W0' B Same M).
Qed.
Print Assumptions C99_sparse.

(** ** Division of 0 by 0 *)
Definition C99_text := "
func main(x,y,u){
	return (x/y)*u
}
".
Definition C99_defs : defs := [("main", Fun ["x"; "y"; "u"] [Return (Bin "*" (Bin "/" (Var "x") (Var "y")) (Var "u"))])].
Lemma C99_encoded : enc_prog C99_defs (tree_of 1000 C99_text).
Proof. apply (prog_right 100). vm_compute. reflexivity. Qed.
Lemma C99_ok : prog_ok C99_defs.
Proof.
  split; [repeat (constructor; [apply absent; reflexivity|]); constructor|].
  constructor; [|constructor]; unfold fun_ok; cbn [fst snd fparams fbody]; heading; cbn [block_ok stmt_ok exp_ok app]; unfold new_ok, name_ok, cond_ok; cbn [cleft cright exp_ok]; scope.
Qed.
Lemma C99_checked : checked (run_all sort_factors toy_hash Order 1000 (tree_of 1000 C99_text)) 2 = true.
Proof. vm_compute. reflexivity. Qed.
Definition C99_rows (s : er1cs (list Z)) : Prop :=
  rows s = [Row [0; 0; 0; 0; 1; 0] [0; 0; 1; 0; 0; 0] [0; 0; 0; 0; 0; 0] [0; 1; 0; 0; 0; 0];
            Row [0; 0; 0; 0; 1; 0] [0; 0; 0; 1; 0; 0] [0; 0; 0; 0; 0; 0] [0; 0; 0; 0; 0; 1]] /\
  (forall x, In x ["x"; "y"; "u"] -> im_get (index_map s) x = Some (if String.eqb x "x" then 1 else if String.eqb x "y" then 2 else 3)%nat) /\ List.length (index_map s) = 6%nat /\ split_map s = [].
Lemma C99_system : match run_all sort_factors toy_hash Order 1000 (tree_of 1000 C99_text) with
  | Some (p, r, st) => ppublic p = ["1"] /\ plainb p ["x"; "y"; "u"] st = true /\ exists s, gates_to_r1cs (ppublic p) ["x"; "y"; "u"] (gates (scoll st)) false = Some s /\ C99_rows s /\
      calculate_witness Order (fun _ => 0) (index_map s) (split_map s) (rows s) 0 [("x", 0); ("y", 0); ("u", 1)] = Err /\
      (exists k, strip (rvals r) = [Fac (Tok TArgument k) 1] /\ im_get (index_map s) k = Some 5%nat)
  | None => False
  end.
Proof.
  remember (run_all sort_factors toy_hash Order 1000 (tree_of 1000 C99_text)) as o eqn:E. vm_compute in E. rewrite E. clear E. split; [reflexivity|]. split; [vm_compute; reflexivity|].
  eexists. split; [vm_compute; reflexivity|]. split.
  - split; [reflexivity|]. split; [|split; reflexivity]. intros x [<-|[<-|[<-|[]]]]; reflexivity.
  - split; [vm_compute; reflexivity|]. eexists. split; reflexivity.
Qed.
Lemma C99_compiled : exists p r st s k, compiles sort_factors toy_hash Order C99_defs ["x"; "y"; "u"] p r st /\ publics_ok p /\ ppublic p = ["1"] /\ numbers_plain p ["x"; "y"; "u"] st /\
  gates_to_r1cs (ppublic p) ["x"; "y"; "u"] (gates (scoll st)) false = Some s /\ C99_rows s /\
  calculate_witness Order (fun _ => 0) (index_map s) (split_map s) (rows s) 0 [("x", 0); ("y", 0); ("u", 1)] = Err /\ strip (rvals r) = [Fac (Tok TArgument k) 1] /\ im_get (index_map s) k = Some 5%nat.
Proof.
  destruct (checked_ok _ _ C99_checked) as (p & r & st & E & H1 & D & H3). assert (Sy := C99_system). rewrite E in Sy. destruct Sy as (P & Pl & s & Es & R & B & k & Rv & Ik).
  apply run_all_inv in E. destruct E as [Eb Er]. exists p, r, st, s, k. split.
  { split; [exact C99_ok|]. split; [eexists; reflexivity|]. split; [|split; [exact H1|exact D]]. exists (tree_of 1000 C99_text), 1000%nat, 1000%nat. split; [exact C99_encoded|]. split; [exact Eb|exact Er]. }
  split.
  { unfold publics_ok. rewrite P. split; [constructor; [intros []|constructor]|constructor; [left; reflexivity|constructor]]. }
  split; [exact P|]. split; [apply plainb_ok; exact Pl|]. split; [exact Es|]. split; [exact R|]. split; [exact B|]. split; [exact Rv|exact Ik].
Qed.
(** What the two rows say. *)
Lemma C99_iff gx a b c d t W : gx 0 ==[Order] 0 -> W = [1; a; b; c; d; t] ->
  (Forall (row_ok Order gx W) [Row [0; 0; 0; 0; 1; 0] [0; 0; 1; 0; 0; 0] [0; 0; 0; 0; 0; 0] [0; 1; 0; 0; 0; 0];
            Row [0; 0; 0; 0; 1; 0] [0; 0; 0; 1; 0; 0] [0; 0; 0; 0; 0; 0] [0; 0; 0; 0; 0; 1]] <-> d * b ==[Order] a /\ d * c ==[Order] t).
Proof.
  intros G0 ->. assert (Z0 : dot [0; 0; 0; 0; 0; 0] [1; a; b; c; d; t] mod Order = 0) by (cbn [dot]; replace (0 * 1 + (0 * a + (0 * b + (0 * c + (0 * d + (0 * t + 0)))))) with 0 by ring; reflexivity).
  assert (R : forall l r o, row_ok Order gx [1; a; b; c; d; t] (Row l r [0; 0; 0; 0; 0; 0] o) <-> dot l [1; a; b; c; d; t] * dot r [1; a; b; c; d; t] ==[Order] dot o [1; a; b; c; d; t]).
  { intros l r o. unfold row_ok. cbn [rl rr re ro]. rewrite Z0. assert (K := cong_add Order _ _ (cong_refl Order (dot l [1; a; b; c; d; t] * dot r [1; a; b; c; d; t])) _ _ G0). rewrite Z.add_0_r in K.
    split; intros H; [eapply cong_trans; [apply cong_sym; exact K|exact H]|eapply cong_trans; [exact K|exact H]]. }
  split.
  - intros H. inversion H as [|? ? H1 H2]; subst. inversion H2 as [|? ? H3 _]; subst. apply R in H1. apply R in H3. cbn [dot] in H1, H3. split.
    + replace (d * b) with ((0 * 1 + (0 * a + (0 * b + (0 * c + (1 * d + (0 * t + 0)))))) * (0 * 1 + (0 * a + (1 * b + (0 * c + (0 * d + (0 * t + 0))))))) by ring. eapply cong_trans; [exact H1|]. apply cong_eq. ring.
    + replace (d * c) with ((0 * 1 + (0 * a + (0 * b + (0 * c + (1 * d + (0 * t + 0)))))) * (0 * 1 + (0 * a + (0 * b + (1 * c + (0 * d + (0 * t + 0))))))) by ring. eapply cong_trans; [exact H3|]. apply cong_eq. ring.
  - intros [H1 H2]. constructor; [|constructor; [|constructor]]; apply R; cbn [dot].
    + eapply cong_trans; [|eapply cong_trans; [exact H1|]]; apply cong_eq; ring.
    + eapply cong_trans; [|eapply cong_trans; [exact H2|]]; apply cong_eq; ring.
Qed.
(** With x = y = 0 and u = 1 the result can be any number; the solver itself stops with an error there. *)
Theorem C99_quotient_refuted : exists p r st s, compiles sort_factors toy_hash Order C99_defs ["x"; "y"; "u"] p r st /\ publics_ok p /\
  gates_to_r1cs (ppublic p) ["x"; "y"; "u"] (gates (scoll st)) false = Some s /\
  calculate_witness Order (fun _ => 0) (index_map s) (split_map s) (rows s) 0 [("x", 0); ("y", 0); ("u", 1)] = Err /\
  forall gx z, gx 0 ==[Order] 0 -> exists W, List.length W = List.length (index_map s) /\ nth 0 W 0 = 1 /\ Forall (row_ok Order gx W) (rows s) /\
    read (index_map s) W "x" = 0 /\ read (index_map s) W "y" = 0 /\ read (index_map s) W "u" = 1 /\ lin (read (index_map s) W) (strip (rvals r)) = z.
Proof.
  destruct C99_compiled as (p & r & st & s & k & HC & HP & P & Pl & Es & (R & I & L & Sp) & B & Rv & Ik). exists p, r, st, s. split; [exact HC|]. split; [exact HP|]. split; [exact Es|].
  split; [exact B|].
  intros gx z G0. exists [1; 0; 0; 1; z; z]. split; [rewrite L; reflexivity|]. split; [reflexivity|]. split.
  - rewrite R. apply (C99_iff gx 0 0 1 z z); [exact G0|reflexivity|]. split; apply cong_eq; ring.
  - unfold read. rewrite !I by (cbn; tauto). split; [reflexivity|]. split; [reflexivity|]. split; [reflexivity|].
    rewrite Rv. cbn [lin]. unfold fac_val. cbn [ftok mult ttyp ident]. rewrite Ik. cbn [nth]. ring.
Qed.
Print Assumptions C99_quotient_refuted.

(** For x = 6, y = 3, u = 5: the vector of the solver, and the same one with q added to two wires. *)
Example C99_case : exists p r st s, compiles sort_factors toy_hash Order C99_defs ["x"; "y"; "u"] p r st /\ publics_ok p /\ numbers_plain p ["x"; "y"; "u"] st /\
  gates_to_r1cs (ppublic p) ["x"; "y"; "u"] (gates (scoll st)) false = Some s /\
  let W := [1; 6; 3; 5; 2; 10] in let W' := [1; 6; 3 + Order; 5; 2 + Order; 10] in
  List.length W = List.length (index_map s) /\ nth 0 W 0 = 1 /\ Forall (row_ok Order (fun _ => 0) W) (rows s) /\
  List.length W' = List.length (index_map s) /\ nth 0 W' 0 = 1 /\ Forall (row_ok Order (fun _ => 0) W') (rows s) /\
  (forall x, In x (ppublic p ++ ["x"; "y"; "u"]) -> read (index_map s) W x ==[Order] read (index_map s) W' x) /\
  exists v asked, program_means Order (fun _ => 0) C99_defs (read (index_map s) W) v asked.
Proof.
  destruct C99_compiled as (p & r & st & s & k & HC & HP & P & Pl & Es & (R & I & L & Sp) & B & Rv & Ik). exists p, r, st, s. split; [exact HC|]. split; [exact HP|]. split; [exact Pl|]. split; [exact Es|]. cbv zeta.
  split; [rewrite L; reflexivity|]. split; [reflexivity|]. split.
  { rewrite R. apply (C99_iff (fun _ => 0) 6 3 5 2 10); [apply cong_refl|reflexivity|]. split; apply cong_eq; reflexivity. }
  split; [rewrite L; reflexivity|]. split; [reflexivity|]. split.
  { rewrite R. apply (C99_iff (fun _ => 0) 6 (3 + Order) 5 (2 + Order) 10); [apply cong_refl|reflexivity|]. split; [exists (5 + Order)|exists 5]; ring. }
  split.
  - assert (F := sys_first Order (fun x => In x ["x"; "y"; "u"]) (scoll st) (ppublic p) ["x"; "y"; "u"] (proj1 HP) (prog_one _ _ _ _ _ _ _ _ HC) (prog_declared _ _ _ _ _ _ _ _ HC) (prog_apart _ _ _ _ _ _ _ _ HC HP) s Es).
    rewrite P. intros x [<-|Hx]; [rewrite !F; apply cong_refl|]. unfold read. rewrite I by exact Hx. destruct Hx as [<-|[<-|[<-|[]]]]; cbn [String.eqb Ascii.eqb Bool.eqb nth]; [apply cong_refl| |apply cong_refl].
    exists (-1). ring.
  - exists (Some (Wire 10)), []. exists ["x"; "y"; "u"], [Return (Bin "*" (Bin "/" (Var "x") (Var "y")) (Var "u"))]. split; [reflexivity|].
    unfold read. cbn [map]. rewrite !I by (cbn [In]; tauto). cbn [String.eqb Ascii.eqb Bool.eqb nth].
    eapply mb_return; [|reflexivity]. apply xs_return. apply ev_bin with (s1 := []) (va := Wire 2) (s2 := []) (vb := Wire 5).
    + apply ev_bin with (s1 := []) (va := Wire 6) (s2 := []) (vb := Wire 3); [eapply ev_var; reflexivity|eapply ev_var; reflexivity|].
      split; [|reflexivity]. apply value_left. apply result_div; [|apply cong_eq; reflexivity].
      intros H. apply cong_mod_iff in H; [|discriminate]. vm_compute in H. discriminate.
    + eapply ev_var; reflexivity.
    + split; [|reflexivity]. apply value_left. apply result_mul. apply cong_eq. reflexivity.
Qed.
Print Assumptions C99_case.

(** ** A claimed quotient
    The public inputs x, y, u and z, and the claim that (x/y)*u is z.  For x = y = 0 and u = 1 every z >= 0 is proved
    and accepted with the groups of the code, under the hypotheses of C70_accepted. *)
Definition C99_claim := "
func main(x,y,u,z){
	public{x,y,u,z}
	equal((x/y)*u,z)
}
".
Definition C99_claim_defs : defs := [("main", Fun ["x"; "y"; "u"; "z"] [Public "x"; Public "y"; Public "u"; Public "z"; Equal (Bin "*" (Bin "/" (Var "x") (Var "y")) (Var "u")) (Var "z")])].
Lemma claim_encoded : enc_prog C99_claim_defs (tree_of 1000 C99_claim).
Proof. apply (prog_right 100). vm_compute. reflexivity. Qed.
Lemma claim_ok : prog_ok C99_claim_defs.
Proof.
  split; [repeat (constructor; [apply absent; reflexivity|]); constructor|].
  constructor; [|constructor]; unfold fun_ok; cbn [fst snd fparams fbody]; heading; cbn [block_ok stmt_ok exp_ok app]; unfold new_ok, name_ok, cond_ok; cbn [cleft cright exp_ok]; scope.
Qed.
Lemma claim_checked : checked (run_all sort_factors toy_hash Order 1000 (tree_of 1000 C99_claim)) 3 = true.
Proof. vm_compute. reflexivity. Qed.
Lemma claim_system : match run_all sort_factors toy_hash Order 1000 (tree_of 1000 C99_claim) with
  | Some (p, r, st) => ppublic p = ["1"; "x"; "y"; "u"; "z"] /\ exists s, gates_to_r1cs (ppublic p) ["x"; "y"; "u"; "z"] (gates (scoll st)) false = Some s /\ List.length (index_map s) = 7%nat /\
      rows s = [Row [0; 0; 0; 0; 0; 1; 0] [0; 0; 1; 0; 0; 0; 0] [0; 0; 0; 0; 0; 0; 0] [0; 1; 0; 0; 0; 0; 0];
                Row [0; 0; 0; 0; 0; 1; 0] [0; 0; 0; 1; 0; 0; 0] [0; 0; 0; 0; 0; 0; 0] [0; 0; 0; 0; 0; 0; 1];
                Row [0; 0; 0; 0; 0; 0; 1] [1; 0; 0; 0; 0; 0; 0] [0; 0; 0; 0; 0; 0; 0] [0; 0; 0; 0; 1; 0; 0]]
  | None => False
  end.
Proof.
  remember (run_all sort_factors toy_hash Order 1000 (tree_of 1000 C99_claim)) as o eqn:E. vm_compute in E. rewrite E. clear E. split; [reflexivity|].
  eexists. split; [vm_compute; reflexivity|]. split; reflexivity.
Qed.
Theorem C99_claim_refuted : exists p r st s T, compiles sort_factors toy_hash Order C99_claim_defs ["x"; "y"; "u"; "z"] p r st /\ publics_ok p /\
  ppublic p = ["1"; "x"; "y"; "u"; "z"] /\ gates_to_r1cs (ppublic p) ["x"; "y"; "u"; "z"] (gates (scoll st)) false = Some s /\ transpose_er1cs s = Some T /\
  forall sc c c2 z x al be ga de, cache_ok Order c -> cache_ok Order c2 -> 0 <= z ->
  0 <= x -> 0 <= al -> 0 <= be -> 0 <= ga -> 0 <= de -> ~ ga ==[Order] 0 -> ~ de ==[Order] 0 ->
  t_ready (g2_base be) -> t_ready (g2_base ga) -> t_ready (g2_base de) ->
  let G := bn256 sc in
  exists W k c1 Px c3, generate_setup Order G c 5 T x al be ga de = Some (k, c1) /\ combine_polynomials Order G c2 W T = Some (Px, c3) /\
    (prover_sums Order G apart1 apart2 5 k W Px -> verifier_sums G apart1 k [1; 0; 0; 1; z] ->
     exists pr, generate_proofs Order G 5 k W Px = Some pr /\
     (t_ready (piB G pr) -> t_ready (add2 G (piB G pr) (beta2 G k)) -> verify_proof G k pr [1; 0; 0; 1; z] = Some true)).
Proof.
  destruct (checked_ok _ _ claim_checked) as (p & r & st & E & H1 & D & H3). assert (Sy := claim_system). rewrite E in Sy. destruct Sy as (P & s & Es & L & R).
  apply run_all_inv in E. destruct E as [Eb Er].
  assert (HC : compiles sort_factors toy_hash Order C99_claim_defs ["x"; "y"; "u"; "z"] p r st).
  { split; [exact claim_ok|]. split; [eexists; reflexivity|]. split; [|split; [exact H1|exact D]]. exists (tree_of 1000 C99_claim), 1000%nat, 1000%nat. split; [exact claim_encoded|]. split; [exact Eb|exact Er]. }
  assert (HP : publics_ok p).
  { unfold publics_ok. rewrite P. split; [repeat (constructor; [apply absent; reflexivity|]); constructor|].
    constructor; [left; reflexivity|]. do 4 (constructor; [right; split; [reflexivity|apply absent; reflexivity]|]). constructor. }
  assert (WS := system_sized _ _ _ _ _ Es). destruct (transpose_er1cs_spec s WS ltac:(rewrite R; cbn; lia)) as (T & ET & _).
  exists p, r, st, s, T. split; [exact HC|]. split; [exact HP|]. split; [exact P|]. split; [exact Es|]. split; [exact ET|].
  intros sc c c2 z x al be ga de Hc Hc2 Hz Hx Hal Hbe Hga Hde Nga Nde R1 R2 R3 G. exists [1; 0; 0; 1; z; z; z].
  apply (C70_accepted sc s T c c2 5 [1; 0; 0; 1; z; z; z] x al be ga de).
  1: rewrite R; cbn [List.length]; lia.
  1: rewrite R; discriminate.
  1: exact WS.
  1: exact (chain_free sort_factors toy_hash Order C99_claim_defs ["x"; "y"; "u"; "z"] p r st HC s Es eq_refl).
  1: exact ET.
  1: exact Hc.
  1: exact Hc2.
  1,2: rewrite ?L; lia.
  1: rewrite L; reflexivity.
  1: repeat (constructor; [lia|]); constructor.
  1: { rewrite R. repeat constructor; cbn [rl rr ro dot]; apply cong_eq; ring. }
  all: assumption.
Qed.
Print Assumptions C99_claim_refuted.
(** In the group of 101 elements, where the sums are safe: proofs of 0/0 = 7 and of 0/0 = 8 are accepted, and the
    verifier is given 1, x, y, u, z. *)
Definition claim_accepted (W : list Z) : bool :=
  match run_all sort_factors toy_hash 101 1000 (tree_of 1000 C99_claim) with
  | Some (p, _, st) =>
      match gates_to_r1cs (ppublic p) ["x"; "y"; "u"; "z"] (gates (scoll st)) false with
      | Some s => match outcome_of 101 G101 s 5 W 5 11 12 13 14 with Some (k, Px, _, b) => b && all_safe 101 (fun a => a * a) 5 k W Px | None => false end
      | None => false
      end
  | None => false
  end.
Example C99_claim_case : claim_accepted [1; 0; 0; 1; 7; 7; 7] = true /\ claim_accepted [1; 0; 0; 1; 8; 8; 8] = true.
Proof. split; vm_compute; reflexivity. Qed.

(** C82: from a program to an accepted proof. *)
Require Import ZArith Znumtheory NArith Lia Bool Permutation Ascii String List.
Require Import Verif.Cong Verif.FqModel Verif.FqProofs Verif.Pocklington Verif.AvlModel Verif.PolyModel Verif.PolyProofs Verif.InterpProofs.
Require Import Verif.CurveModel Verif.CurveSpec Verif.PairModel Verif.PairProofs Verif.SnarkModel Verif.SnarkSpec Verif.SnarkProofs2 Verif.SnarkProofs3 Verif.BnGroups Verif.PropsSnark Verif.PropsBn.
Require Import Verif.FactorModel Verif.FactorSpec Verif.FactorProofs Verif.ExprModel Verif.ExprSpec Verif.ExprProofs Verif.ExprProofs2.
Require Import Verif.R1csModel Verif.R1csSpec Verif.R1csProofs Verif.EndProofs.
Require Import Verif.WitnessModel Verif.WitnessSpec Verif.SolveProofs Verif.SolveRange.
Require Import Verif.ParserModel Verif.CircuitModel Verif.LangSpec Verif.LangHeap Verif.LangSym Verif.LangRun Verif.LangBuild Verif.LangField Verif.LangGood.
Require Import Verif.PropsFactor Verif.PropsExpr Verif.PropsR1cs Verif.PropsEnd Verif.PropsSolve Verif.PropsLang Verif.GoodSystem Verif.PropsProgram Verif.SystemShape.
Import ListNotations.
Local Open Scope string_scope.
Local Open Scope list_scope.
Local Open Scope Z_scope.

(** What the verifier is given: the constant and the values of the public names. *)
Definition signals_of (p : program) (w : string -> Z) : list Z := 1 :: map w (tl (ppublic p)).

Section P.
Variable sort : factors -> factors.
Hypothesis sort_perm : forall l, Permutation (sort l) l.
Variable hash : string -> Z.
Variable q : Z.
Hypothesis Hq : prime q.
Variables (fs : defs) (ins : list string) (p : program) (r : ret) (st : state).
Hypothesis HC : compiles sort hash q fs ins p r st.
Hypothesis HP : publics_ok p.
Variable s : er1cs (list Z).
Hypothesis ES : gates_to_r1cs (ppublic p) ins (gates (scoll st)) false = Some s.

Lemma chain_free : prog_free fs = true -> exponent_free s.
Proof.
  intros HF. destruct (prog_run _ _ _ _ _ _ _ _ HC) as (body & Em & _ & M & _).
  eapply system_free; [|exact ES]. assert (X := main_plain sort hash q fs HF _ _ _ _ _ M (free_fun fs HF "main" ins body Em)). apply X. constructor.
Qed.
Lemma chain_rows : List.length (rows s) = List.length (gates (scoll st)).
Proof.
  destruct (C81_generated sort hash q fs ins p r st sort_perm Hq HC HP) as [(s' & E & L) _]. rewrite ES in E. now injection E as <-.
Qed.
Lemma chain_signals w W : List.length W = List.length (index_map s) -> nth 0 W 0 = 1 ->
  (forall x, In x (ppublic p ++ ins) -> x <> "1" -> read (index_map s) W x = w x) -> firstn (List.length (ppublic p)) W = signals_of p w.
Proof.
  intros L W0 HW. assert (D2 := prog_one _ _ _ _ _ _ _ _ HC). assert (ND := proj1 HP).
  assert (RD := sys_read q (scoll st) (ppublic p) ins ND D2 s ES W L).
  assert (R1 := sys_first q (fun x => In x ins) (scoll st) (ppublic p) ins ND D2 (prog_declared _ _ _ _ _ _ _ _ HC) (prog_apart _ _ _ _ _ _ _ _ HC HP) s ES W).
  rewrite <- RD at 1. unfold wire_names. rewrite map_app, firstn_app, map_length, Nat.sub_diag, firstn_O, app_nil_r.
  replace (List.length (ppublic p)) with (List.length (map (read (index_map s) W) (ppublic p))) by apply map_length. rewrite firstn_all.
  unfold signals_of. destruct (ppublic p) as [|x l] eqn:E; [discriminate|]. injection D2 as ->. cbn [map tl]. f_equal.
  - now rewrite R1.
  - apply map_ext_in. intros x Hx. apply HW; [cbn; rewrite in_app_iff; auto|]. inversion ND; subst. intros ->. contradiction.
Qed.

Variable gx : Z -> Z.
Hypothesis G0 : gx 0 ==[q] 0.
Lemma chain_witness w v asked rnd inp : program_means q gx fs w v asked -> Forall (fun e => fst e ==[q] snd e) asked ->
  supplied (ppublic p) ins inp -> (forall x a, In (x, a) inp -> a = w x) -> 0 <= rnd -> Forall (fun e => 0 <= snd e) inp ->
  (1 <= List.length (rows s))%nat ->
  exists W T, calculate_witness q gx (index_map s) (split_map s) (rows s) rnd inp = Ok W /\ transpose_er1cs s = Some T /\
    List.length W = List.length (index_map s) /\ Forall (Z.le 0) W /\ Forall (row_ok q gx W) (rows s) /\
    firstn (List.length (ppublic p)) W = signals_of p w.
Proof.
  intros M A SI IV Hr HI N1. assert (WS := system_sized _ _ _ _ _ ES).
  destruct (C81_solver sort hash q gx fs ins p r st s sort_perm Hq G0 HC HP ES w v asked rnd inp M SI IV) as [HE HO].
  destruct (proj2 HE A) as [W HW]. destruct (HO W HW) as (B1 & B2 & B3 & _).
  assert (LW : List.length W = List.length (index_map s)).
  { destruct (prog_nice sort sort_perm hash q Hq (fun _ => 0) fs ins p r st HC HP) as (HG & _).
    apply (sys_solved q Hq gx (fun x => In x ins) (scoll st) (strace st) (ppublic p) ins HG (proj1 HP) (prog_one _ _ _ _ _ _ _ _ HC)
      (prog_declared _ _ _ _ _ _ _ _ HC) (prog_apart _ _ _ _ _ _ _ _ HC HP) s ES rnd inp W SI HW). }
  destruct (transpose_er1cs_spec s WS N1) as (T & ET & _). exists W, T. split; [exact HW|]. split; [exact ET|]. split; [exact LW|].
  split; [|split; [exact B1|now apply chain_signals]].
  apply (witness_all q gx (Z.le 0) _ _ _ _ _ _ ltac:(destruct Hq; lia) (fun v H => proj1 H) Hr HI HW).
Qed.
End P.

(** The keys made for a program accept the proof the prover makes from inputs for which the program's equalities
    hold; the verifier sees the constant and the public values. *)
Theorem C82_accepted : forall sort hash q G fs ins p r st s, (forall l, Permutation (sort l) l) -> prime q -> lawful q G ->
  compiles sort hash q fs ins p r st -> publics_ok p -> prog_free fs = true ->
  gates_to_r1cs (ppublic p) ins (gates (scoll st)) false = Some s ->
  (2 <= List.length (gates (scoll st)))%nat -> Z.of_nat (List.length (gates (scoll st))) <= q -> (List.length (ppublic p) < List.length (index_map s))%nat ->
  forall w v asked rnd inp c c2 x al be ga de, program_means q (gxc G) fs w v asked -> Forall (fun e => fst e ==[q] snd e) asked ->
  supplied (ppublic p) ins inp -> (forall y a, In (y, a) inp -> a = w y) -> 0 <= rnd -> Forall (fun e => 0 <= snd e) inp ->
  cache_ok q c -> cache_ok q c2 -> 0 <= x -> 0 <= al -> 0 <= be -> 0 <= ga -> 0 <= de -> ~ ga ==[q] 0 -> ~ de ==[q] 0 ->
  let pub := List.length (ppublic p) in
  exists W T k c1 Px c3, calculate_witness q (gxc G) (index_map s) (split_map s) (rows s) rnd inp = Ok W /\
    transpose_er1cs s = Some T /\ generate_setup q G c pub T x al be ga de = Some (k, c1) /\ combine_polynomials q G c2 W T = Some (Px, c3) /\
    (prover_safe q G pub k W Px -> verifier_safe G k (signals_of p w) ->
     exists pr, generate_proofs q G pub k W Px = Some pr /\ verify_proof G k pr (signals_of p w) = Some true).
Proof.
  intros sort hash q G fs ins p r st s Hs Hq LG HC HP HF ES N2 Nq Npub w v asked rnd inp c c2 x al be ga de M A SI IV Hr HI Hc Hc2 Hx Hal Hbe Hga Hde Nga Nde pub.
  assert (G0 : gxc G 0 ==[q] 0) by (apply cong_eq; exact (law_x0 q G LG)).
  assert (LR := chain_rows sort Hs hash q Hq fs ins p r st HC HP s ES). rewrite <- LR in N2, Nq.
  destruct (chain_witness sort Hs hash q Hq fs ins p r st HC HP s ES (gxc G) G0 w v asked rnd inp M A SI IV Hr HI ltac:(lia)) as (W & T & HW & ET & LW & PW & SAT & SG).
  assert (P1 : (1 <= pub)%nat). { assert (D2 := prog_one _ _ _ _ _ _ _ _ HC). unfold pub. destruct (ppublic p); [discriminate|cbn; lia]. }
  destruct (C45_accepted q G s T c c2 pub W x al be ga de Hq LG N2 Nq (system_sized _ _ _ _ _ ES) (chain_free sort hash q fs ins p r st HC s ES HF) ET Hc Hc2 P1 Npub LW PW SAT
    Hx Hal Hbe Hga Hde Nga Nde) as (k & c1 & Px & c3 & E1 & E2 & H).
  exists W, T, k, c1, Px, c3. split; [exact HW|]. split; [exact ET|]. split; [exact E1|]. split; [exact E2|].
  unfold pub in *. rewrite SG in H. exact H.
Qed.
Print Assumptions C82_accepted.

(** What the prover proves is a run of the program: from a vector that is none, no proof is made. *)
Theorem C82_run : forall sort hash q G fs ins p r st s, (forall l, Permutation (sort l) l) -> prime q -> gxc G 0 ==[q] 0 ->
  compiles sort hash q fs ins p r st -> publics_ok p ->
  gates_to_r1cs (ppublic p) ins (gates (scoll st)) false = Some s ->
  (1 <= List.length (gates (scoll st)))%nat -> Z.of_nat (List.length (gates (scoll st))) <= q ->
  forall pub T c0 c1 c c' x al be ga de k W Px pr, cache_ok q c -> List.length W = List.length (index_map s) -> nth 0 W 0 = 1 ->
  transpose_er1cs s = Some T -> generate_setup q G c0 pub T x al be ga de = Some (k, c1) -> combine_polynomials q G c W T = Some (Px, c') ->
  generate_proofs q G pub k W Px = Some pr ->
  forall v asked, program_means q (gxc G) fs (read (index_map s) W) v asked ->
  Forall (fun e => fst e ==[q] snd e) asked /\
  match v with
  | Some u => lin (read (index_map s) W) (strip (rvals r)) ==[q] num_of u /\
              (is_single_number (strip (rvals r)) = true \/ exists i, (i < List.length W)%nat /\ nth i W 0 ==[q] num_of u)
  | None => strip (rvals r) = []
  end.
Proof.
  intros sort hash q G fs ins p r st s Hs Hq G0 HC HP ES N1 Nq pub T c0 c1 c c' x al be ga de k W Px pr Hc L W0 ET EK EP EG v asked M.
  assert (LR := chain_rows sort Hs hash q Hq fs ins p r st HC HP s ES). rewrite <- LR in N1, Nq.
  assert (Ne : W <> []) by (intros ->; discriminate W0).
  apply (C81_sound sort hash q (gxc G) fs ins p r st s Hs Hq G0 HC HP ES W L W0); [|exact M].
  destruct (C43_divisible q G s T c c' W Px Hq N1 Nq (system_sized _ _ _ _ _ ES) Hc L Ne ET EP) as (Qx & rem & ED & HD). apply HD.
  destruct (is_zero_array rem) eqn:Z0; auto. exfalso.
  assert (NS : ~ Forall (row_ok q (gxc G) W) (rows s)) by (intros X; apply HD in X; discriminate).
  rewrite (C44_no_proof q G s T c0 c1 pub x al be ga de k c c' W Px Hq N1 Nq (system_sized _ _ _ _ _ ES) Hc L Ne ET EK EP NS) in EG. discriminate.
Qed.
Print Assumptions C82_run.

(** The same with the groups of bn256 and the field of [Order] elements. *)
Theorem C82_bn256 : forall sort hash sc fs ins p r st s, (forall l, Permutation (sort l) l) ->
  compiles sort hash Order fs ins p r st -> publics_ok p -> prog_free fs = true ->
  gates_to_r1cs (ppublic p) ins (gates (scoll st)) false = Some s ->
  (2 <= List.length (gates (scoll st)))%nat -> Z.of_nat (List.length (gates (scoll st))) <= Order -> (List.length (ppublic p) < List.length (index_map s))%nat ->
  forall w v asked rnd inp c c2 x al be ga de, program_means Order (fun k => g1_x (g1_base k)) fs w v asked -> Forall (fun e => fst e ==[Order] snd e) asked ->
  supplied (ppublic p) ins inp -> (forall y a, In (y, a) inp -> a = w y) -> 0 <= rnd -> Forall (fun e => 0 <= snd e) inp ->
  cache_ok Order c -> cache_ok Order c2 -> 0 <= x -> 0 <= al -> 0 <= be -> 0 <= ga -> 0 <= de -> ~ ga ==[Order] 0 -> ~ de ==[Order] 0 ->
  t_ready (g2_base be) -> t_ready (g2_base ga) -> t_ready (g2_base de) ->
  let G := bn256 sc in let pub := List.length (ppublic p) in
  exists W T k c1 Px c3, calculate_witness Order (fun k => g1_x (g1_base k)) (index_map s) (split_map s) (rows s) rnd inp = Ok W /\
    transpose_er1cs s = Some T /\ generate_setup Order G c pub T x al be ga de = Some (k, c1) /\ combine_polynomials Order G c2 W T = Some (Px, c3) /\
    (prover_sums Order G apart1 apart2 pub k W Px -> verifier_sums G apart1 k (signals_of p w) ->
     exists pr, generate_proofs Order G pub k W Px = Some pr /\
     (t_ready (piB G pr) -> t_ready (add2 G (piB G pr) (beta2 G k)) -> verify_proof G k pr (signals_of p w) = Some true)).
Proof.
  intros sort hash sc fs ins p r st s Hs HC HP HF ES N2 Nq Npub w v asked rnd inp c c2 x al be ga de M A SI IV Hr HI Hc Hc2 Hx Hal Hbe Hga Hde Nga Nde R1 R2 R3 G pub.
  assert (G0 : (fun k => g1_x (g1_base k)) 0 ==[Order] 0) by (apply cong_eq; exact gen_x_0).
  assert (LR := chain_rows sort Hs hash Order prime_Order fs ins p r st HC HP s ES). rewrite <- LR in N2, Nq.
  destruct (chain_witness sort Hs hash Order prime_Order fs ins p r st HC HP s ES (fun k => g1_x (g1_base k)) G0 w v asked rnd inp M A SI IV Hr HI ltac:(lia)) as (W & T & HW & ET & LW & PW & SAT & SG).
  assert (P1 : (1 <= pub)%nat). { assert (D2 := prog_one _ _ _ _ _ _ _ _ HC). unfold pub. destruct (ppublic p); [discriminate|cbn; lia]. }
  assert (Fr := chain_free sort hash Order fs ins p r st HC s ES HF).
  assert (SAT' : Forall (fun r => dot (rl r) W * dot (rr r) W ==[Order] dot (ro r) W) (rows s)).
  { rewrite Forall_forall in *. intros y Hy. specialize (SAT y Hy). unfold row_ok in SAT. unfold exponent_free in Fr. rewrite Forall_forall in Fr.
    rewrite (dot_zero (re y) (Fr y Hy) W) in SAT. rewrite <- SAT. change (g1_x (g1_base (0 mod Order))) with (gen_x 0). rewrite gen_x_0. apply cong_eq. ring. }
  destruct (C70_accepted sc s T c c2 pub W x al be ga de N2 Nq (system_sized _ _ _ _ _ ES) Fr ET Hc Hc2 P1 Npub LW PW SAT'
    Hx Hal Hbe Hga Hde Nga Nde R1 R2 R3) as (k & c1 & Px & c3 & E1 & E2 & H).
  exists W, T, k, c1, Px, c3. split; [exact HW|]. split; [exact ET|]. split; [exact E1|]. split; [exact E2|].
  unfold pub in *. rewrite SG in H. exact H.
Qed.
Print Assumptions C82_bn256.

(** The program of C81_case with x = 10 and y = 5, proved and accepted; the verifier is given 1 and y. *)
Lemma C82_solved : answers (gxc G101) (run_all sort_factors toy_hash 101 1000 (tree_of 1000 C81_text)) ["x"; "y"] [("x", 10); ("y", 5)] = Some (["1"; "y"], Ok [1; 5; 10; 100; 16; 4; 85]).
Proof. vm_compute. reflexivity. Qed.
Definition accepts (o : option (program * ret * state)) (ins : list string) (W : list Z) : bool :=
  match o with
  | Some (p, _, st) => match gates_to_r1cs (ppublic p) ins (gates (scoll st)) false with Some s => accepted_safely s W true | None => false end
  | None => false
  end.
Lemma C82_checked : accepts (run_all sort_factors toy_hash 101 1000 (tree_of 1000 C81_text)) ["x"; "y"] [1; 5; 10; 100; 16; 4; 85] = true.
Proof. vm_compute. reflexivity. Qed.
Lemma accepts_inv p r st ins W s : accepts (Some (p, r, st)) ins W = true -> gates_to_r1cs (ppublic p) ins (gates (scoll st)) false = Some s -> accepted_safely s W true = true.
Proof. unfold accepts. intros H E. rewrite E in H. exact H. Qed.
Lemma answers_pub gx p r st ins inp pub W s : answers gx (Some (p, r, st)) ins inp = Some (pub, Ok W) -> gates_to_r1cs (ppublic p) ins (gates (scoll st)) false = Some s ->
  calculate_witness 101 gx (index_map s) (split_map s) (rows s) 0 inp = Ok W.
Proof. unfold answers. intros H E. rewrite E in H. now injection H. Qed.
Example C82_case : exists p r st s k Px pr, compiles sort_factors toy_hash 101 C81_defs ["x"; "y"] p r st /\ publics_ok p /\ prog_free C81_defs = true /\
  program_means 101 (gxc G101) C81_defs C81_w (Some (Wire 85)) [(4, 4)]%Z /\ signals_of p C81_w = [1; 5] /\
  gates_to_r1cs (ppublic p) ["x"; "y"] (gates (scoll st)) false = Some s /\ List.length (gates (scoll st)) = 5%nat /\
  calculate_witness 101 (gxc G101) (index_map s) (split_map s) (rows s) 0 [("x", 10); ("y", 5)] = Ok [1; 5; 10; 100; 16; 4; 85] /\
  outcome_of 101 G101 s 2 [1; 5; 10; 100; 16; 4; 85] 5 11 12 13 14 = Some (k, Px, pr, true) /\
  prover_safe 101 G101 2 k [1; 5; 10; 100; 16; 4; 85] Px /\ verifier_safe G101 k [1; 5].
Proof.
  destruct (checked_ok _ _ C81_checked) as (p & r & st & E & H1 & D & H3). assert (A := C82_solved). assert (B := C81_accepted). assert (C := C82_checked). rewrite E in A, B, C.
  apply answers_inv in B. destruct B as (P & s & Es & _). apply (answers_pub _ _ _ _ _ _ _ _ s) in A; [|exact Es]. apply (accepts_inv _ _ _ _ _ s) in C; [|exact Es].
  apply accepted_safely_ok in C. destruct C as (k & Px & pr & O & S1 & S2). apply run_all_inv in E. destruct E as [Eb Er].
  exists p, r, st, s, k, Px, pr. split; [|split; [|split; [reflexivity|]; split; [exact (C81_means _)|]; split; [|split; [exact Es|]; split; [exact H3|]; split; [exact A|]; split; [exact O|]; split; [exact S1|exact S2]]]].
  - split; [exact C81_ok|]. split; [eexists; reflexivity|]. split; [|split; [exact H1|exact D]]. exists (tree_of 1000 C81_text), 1000%nat, 1000%nat. split; [exact C81_encoded|]. split; [exact Eb|exact Er].
  - unfold publics_ok. rewrite P. split; [repeat (constructor; [apply absent; reflexivity|]); constructor|]. constructor; [now left|]. constructor; [right; split; [reflexivity|apply absent; reflexivity]|constructor].
  - unfold signals_of. rewrite P. reflexivity.
Qed.

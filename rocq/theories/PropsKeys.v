(** C100: what the key pair example of testPrograms/codes.go checks. *)
Require Import ZArith Znumtheory NArith Lia Bool Permutation Ascii String List.
Require Import Verif.Cong Verif.FqModel Verif.FqProofs Verif.Pocklington Verif.AvlModel Verif.PolyModel Verif.PolyProofs Verif.InterpProofs.
Require Import Verif.Ext Verif.TowerSpec Verif.TowerProofs Verif.FieldProofs Verif.FrobProofs Verif.JacProofs Verif.AssocProofs Verif.CurveGroup Verif.CurveProofs Verif.OrderProofs Verif.PointCount Verif.PropsCurve.
Require Import Verif.CurveModel Verif.CurveSpec Verif.PairModel Verif.PairProofs Verif.SnarkModel Verif.SnarkSpec Verif.SnarkProofs2 Verif.SnarkProofs3 Verif.BnGroups Verif.PropsSnark Verif.PropsBn.
Require Import Verif.FactorModel Verif.FactorSpec Verif.FactorProofs.
Require Import Verif.ExprModel Verif.ExprSpec Verif.ExprProofs Verif.ExprProofs2 Verif.AvlModel Verif.PolyModel.
Require Import Verif.FqSpec Verif.R1csModel Verif.R1csSpec Verif.R1csProofs Verif.EndProofs.
Require Import Verif.WitnessModel Verif.WitnessSpec Verif.SolveProofs.
Require Import Verif.LexerModel Verif.ParserModel Verif.CircuitModel Verif.LangSpec Verif.LangHeap Verif.LangSym Verif.LangRun Verif.LangBuild Verif.LangField Verif.LangGood.
Require Import Verif.PropsFactor Verif.PropsExpr Verif.PropsR1cs Verif.PropsEnd Verif.PropsSolve Verif.PropsLang Verif.GoodSystem Verif.PropsProgram Verif.SystemShape Verif.PropsChain Verif.LangEval.
Import ListNotations.
Local Open Scope string_scope.
Local Open Scope list_scope.
Local Open Scope Z_scope.

(** ** X coordinates *)
(** No point has x = 0: its triple would be infinity. *)
Lemma x_zero (x y : FP) : E1 (Some (x, y)) -> x mod P <> 0.
Proof.
  intros O E. assert (X : (P | x)) by (apply Z.mod_divide; [discriminate|exact E]). destruct X as [a X].
  assert (Y : (P | y * y - 3)). { destruct O as [c H]. exists (c + a * x * x). cbn in H. rewrite X in *. lia. }
  assert (N : ~ (P | 2 * y)).
  { intros D. apply prime_mult in D; [|exact prime_P]. destruct D as [D|D].
    - apply Z.divide_pos_le in D; [|reflexivity]. apply D. reflexivity.
    - assert (D3 : (P | 3)) by (destruct Y as [u Y], D as [v D]; exists (v * y - u); rewrite D in Y at 1; lia). apply Z.divide_pos_le in D3; [|reflexivity]. apply D3. reflexivity. }
  assert (S2 : ct_sum (R := FP) (Some (x, y)) (Some (x, y)) (opposite (Some (x, y)))).
  { right. exists 0, x, (- y). split; [|split; [reflexivity|split]].
    - right. split; [reflexivity|]. split; [reflexivity|]. split; [intros [c H]; apply N; exists c; cbn in H; lia|]. exists (- 3 * a * x). cbn -[P Z.mul Z.add Z.sub Z.opp]. rewrite X. ring.
    - exists (3 * a). cbn -[P Z.mul Z.add Z.sub Z.opp]. rewrite X. ring.
    - apply cong_eq. cbn -[P Z.mul Z.add Z.sub Z.opp]. ring. }
  destruct (all_in_G _ O) as [n M].
  assert (M2 := mult_add FP FP_field FP_two FP_three 3 FP_b OrderProofs.G1 _ _ _ _ _ G1_on M M S2).
  assert (M3 := mult_add FP FP_field FP_two FP_three 3 FP_b OrderProofs.G1 _ _ _ _ None G1_on M M2 (sum_opp FP _)).
  assert (E3 := proj1 (inf_cong1 _ None M3) eq_refl). destruct E3 as [c E3].
  assert (D : (Order | 3 * Z.of_nat n)) by (exists c; lia). apply prime_mult in D; [|exact prime_Order]. destruct D as [D|[d D]].
  - apply Z.divide_pos_le in D; [|reflexivity]. apply D. reflexivity.
  - assert (C := proj2 (inf_cong1 _ _ M)). discriminate C. exists d. lia.
Qed.
(** The x coordinate determines the exponent up to its sign. *)
Theorem C100_keys : forall j k, 0 <= j -> 0 <= k ->
  (g1_x (g1_base j) = g1_x (g1_base k) <-> j ==[Order] k \/ j ==[Order] - k).
Proof.
  intros j k Hj Hk. assert (A := base1_at j Hj). assert (B := base1_at k Hk).
  assert (NB := neg1_at _ _ B).
  assert (A1 := A). destruct A as (Rj & p & A & M). assert (B1 := B). destruct B as (Rk & r & B & M').
  assert (NC := c_negative_ok _ _ B).
  assert (X1 := C53_x _ _ A). assert (X2 := C53_x _ _ B). rewrite X1, X2.
  assert (E1 := eq1_at _ _ _ _ _ _ A1 B1 A B). assert (E2 := eq1_at _ _ _ _ _ _ A1 NB A NC).
  assert (K1 : j ==[Order] k <-> apoint_eq p r) by (rewrite E1; apply cong_mod_iff; discriminate).
  assert (K2 : j ==[Order] - k <-> apoint_eq p (opposite r)).
  { rewrite E2. rewrite <- (cong_mod_iff Order j (- (k mod Order))) by discriminate. split; intros H; (eapply cong_trans; [exact H|]); apply cong_opp; [apply cong_sym|]; apply cong_mod. }
  rewrite K1, K2. assert (Op := c_is_on _ _ A). assert (Or := c_is_on _ _ B). clear -Op Or. split.
  - intros E. destruct p as [[x y]|], r as [[x' y']|].
    + assert (Ex : x ==[P] x') by (apply cong_mod_iff; [discriminate|exact E]). cbn in Op, Or.
      assert (Y : (P | (y - y') * (y + y'))).
      { assert (H : y * y ==[P] y' * y').
        { eapply cong_trans; [exact Op|]. eapply cong_trans; [|apply cong_sym; exact Or]. apply cong_add; [|apply cong_refl]. apply cong_mul; [apply cong_mul; exact Ex|exact Ex]. }
        destruct H as [c H]. exists c. rewrite <- H. ring. }
      apply prime_mult in Y; [|exact prime_P]. destruct Y as [Y|Y]; [left|right]; (split; [exact Ex|]); [exact Y|]. cbn. destruct Y as [c Y]. exists c. cbn. lia.
    + exfalso. exact (x_zero x y Op E).
    + exfalso. symmetry in E. exact (x_zero x' y' Or E).
    + left. exact I.
  - intros [H|H]; [apply x_fun; exact H|]. rewrite (x_fun _ _ H). destruct r as [[x y]|]; reflexivity.
Qed.
Print Assumptions C100_keys.

(** ** The program
    codes.go:416-422; the bare return at its end is written return 1 (C97_return). *)
Definition C100_text := "
	func main(publicKey, privateKey){
		var pub = scalarBaseMultiply(privateKey)
		equal(pub,publicKey)
		equal(publicKey,pub)
	return 1
}
".
Definition C100_defs : defs := [("main", Fun ["publicKey"; "privateKey"]
  [Decl "pub" (Base (Var "privateKey")); Equal (Var "pub") (Var "publicKey"); Equal (Var "publicKey") (Var "pub"); Return (Num "1")])].
Notation keys := ["publicKey"; "privateKey"].
Lemma C100_encoded : enc_prog C100_defs (tree_of 1000 C100_text).
Proof. apply (prog_right 100). vm_compute. reflexivity. Qed.
Lemma C100_ok : prog_ok C100_defs.
Proof.
  split; [repeat (constructor; [apply absent; reflexivity|]); constructor|].
  constructor; [|constructor]; unfold fun_ok; cbn [fst snd fparams fbody]; heading; cbn [block_ok stmt_ok exp_ok app]; unfold new_ok, name_ok, cond_ok; cbn [cleft cright exp_ok]; scope.
Qed.
Lemma C100_means q gx w : program_means q gx C100_defs w (Some (Known (1 mod q)))
  [(gx (w "privateKey" mod q), w "publicKey"); (w "publicKey", gx (w "privateKey" mod q))].
Proof.
  exists keys. eexists. split; [reflexivity|]. cbn [map].
  eapply mb_cons with (s1 := []) (s2 := []); [|reflexivity|].
  { apply xs_decl with (v := Wire (gx (w "privateKey" mod q))). eapply ev_base; [eapply ev_var; reflexivity|]. split; [|reflexivity]. eexists. split; [|reflexivity]. apply cong_refl. }
  eapply mb_cons with (s2 := [(gx (w "privateKey" mod q), w "publicKey")]); [|reflexivity|].
  { eapply xs_equal; [eapply ev_var; reflexivity|eapply ev_var; reflexivity|reflexivity]. }
  eapply mb_cons with (s2 := [(gx (w "privateKey" mod q), w "publicKey"); (w "publicKey", gx (w "privateKey" mod q))]); [|reflexivity|].
  { eapply xs_equal; [eapply ev_var; reflexivity|eapply ev_var; reflexivity|reflexivity]. }
  eapply mb_return; [|reflexivity]. apply xs_return. apply ev_num. exists 1. split; reflexivity.
Qed.
Lemma C100_publics sort hash q p r st : compiles sort hash q C100_defs keys p r st -> ppublic p = ["1"] /\ publics_ok p.
Proof. intros HC. destruct (C81_publics _ _ _ _ _ _ _ _ HC) as [E P]. split; [exact E|]. apply P. split; constructor. Qed.
(** A vector satisfies the system for some values of the remaining wires exactly if the public key is the x coordinate
    of the private key, modulo q. *)
Theorem C100_system : forall sort hash q gx p r st s, (forall l, Permutation (sort l) l) -> prime q -> gx 0 ==[q] 0 ->
  compiles sort hash q C100_defs keys p r st -> gates_to_r1cs (ppublic p) keys (gates (scoll st)) false = Some s ->
  forall a k, (exists W, List.length W = List.length (index_map s) /\ nth 0 W 0 = 1 /\ Forall (row_ok q gx W) (rows s) /\
      read (index_map s) W "publicKey" = a /\ read (index_map s) W "privateKey" = k) <-> a ==[q] gx (k mod q).
Proof.
  intros sort hash q gx p r st s Hs Hq G0 HC E a k. destruct (C100_publics _ _ _ _ _ _ HC) as [P HP]. split.
  - intros (W & L & W0 & HW & <- & <-).
    assert (F := proj1 (C81_sound sort hash q gx C100_defs keys p r st s Hs Hq G0 HC HP E W L W0 HW _ _ (C100_means q gx _))). inversion F as [|? ? H _]; subst. apply cong_sym. exact H.
  - intros H. set (w := fun x => if String.eqb x "publicKey" then a else if String.eqb x "privateKey" then k else 1).
    destruct (C81_complete sort hash q gx C100_defs keys p r st s Hs Hq G0 HC HP E w _ _ eq_refl (C100_means q gx w)) as (W & L & W0 & R & HW).
    { constructor; [apply cong_sym; exact H|]. constructor; [exact H|constructor]. }
    exists W. split; [exact L|]. split; [exact W0|]. split; [exact HW|].
    rewrite !R by (rewrite P; cbn [app In]; auto). split; reflexivity.
Qed.
Print Assumptions C100_system.
(** The solver accepts the two inputs under the same condition. *)
Theorem C100_solver : forall sort hash q gx p r st s, (forall l, Permutation (sort l) l) -> prime q -> gx 0 ==[q] 0 ->
  compiles sort hash q C100_defs keys p r st -> gates_to_r1cs (ppublic p) keys (gates (scoll st)) false = Some s ->
  forall a k rnd, ((exists W, calculate_witness q gx (index_map s) (split_map s) (rows s) rnd [("publicKey", a); ("privateKey", k)] = Ok W) <-> a ==[q] gx (k mod q)) /\
  forall W, calculate_witness q gx (index_map s) (split_map s) (rows s) rnd [("publicKey", a); ("privateKey", k)] = Ok W -> Forall (row_ok q gx W) (rows s).
Proof.
  intros sort hash q gx p r st s Hs Hq G0 HC E a k rnd. destruct (C100_publics _ _ _ _ _ _ HC) as [P HP].
  set (w := fun x => if String.eqb x "publicKey" then a else if String.eqb x "privateKey" then k else 1).
  destruct (C81_solver sort hash q gx C100_defs keys p r st s Hs Hq G0 HC HP E w _ _ rnd [("publicKey", a); ("privateKey", k)] (C100_means q gx w)) as [A B].
  - rewrite P. split; [repeat (constructor; [apply absent; reflexivity|]); constructor|]. intros x. cbn [map fst app In]. split; [intros [<-|[<-|[]]]; split; auto; discriminate|]. intros [[<-|H] N]; [contradiction|exact H].
  - intros x z [H|[H|[]]]; injection H as <- <-; reflexivity.
  - split; [|intros W HW; apply (B W HW)]. rewrite A. split; intros H.
    + inversion H as [|? ? H1 _]; subst. apply cong_sym. exact H1.
    + constructor; [apply cong_sym; exact H|]. constructor; [exact H|constructor].
Qed.
Print Assumptions C100_solver.
(** With the code's curve the private key is not determined: k and Order - k have the same public key. *)
Theorem C100_two_keys : forall sort hash p r st s, (forall l, Permutation (sort l) l) ->
  compiles sort hash Order C100_defs keys p r st -> gates_to_r1cs (ppublic p) keys (gates (scoll st)) false = Some s ->
  forall k rnd, 0 < k < Order -> k <> Order - k /\
    let a := g1_x (g1_base k) in
    (exists W, calculate_witness Order (fun n => g1_x (g1_base n)) (index_map s) (split_map s) (rows s) rnd [("publicKey", a); ("privateKey", k)] = Ok W) /\
    (exists W, calculate_witness Order (fun n => g1_x (g1_base n)) (index_map s) (split_map s) (rows s) rnd [("publicKey", a); ("privateKey", Order - k)] = Ok W).
Proof.
  intros sort hash p r st s Hs HC E k rnd Hk. split.
  { intros H. assert (X : Order = 2 * (Order / 2) + 1) by (vm_compute; reflexivity). set (h := Order / 2) in *. clearbody h. lia. }
  assert (G0 : (fun n => g1_x (g1_base n)) 0 ==[Order] 0) by (apply cong_eq; exact gen_x_0). cbv zeta.
  split; apply (C100_solver sort hash Order (fun n => g1_x (g1_base n)) p r st s Hs prime_Order G0 HC E); apply cong_eq.
  - rewrite Z.mod_small by lia. reflexivity.
  - rewrite Z.mod_small by lia. apply C100_keys; [lia|lia|]. right. exists 1. lia.
Qed.
Print Assumptions C100_two_keys.
(** Apart from the sign it is, as long as the x coordinates are below Order (the field of the coordinates is larger). *)
Theorem C100_sign : forall a j k, 0 <= j -> 0 <= k -> g1_x (g1_base j) < Order -> g1_x (g1_base k) < Order ->
  a ==[Order] g1_x (g1_base j) -> a ==[Order] g1_x (g1_base k) -> j ==[Order] k \/ j ==[Order] - k.
Proof.
  intros a j k Hj Hk Bj Bk Ej Ek. apply (C100_keys j k Hj Hk). apply (cong_canon_unique Order); [split; [apply (x_nonneg _ _ (base1_at j Hj))|exact Bj]|split; [apply (x_nonneg _ _ (base1_at k Hk))|exact Bk]|].
  eapply cong_trans; [apply cong_sym; exact Ej|exact Ek].
Qed.
Print Assumptions C100_sign.

(** ** Proofs *)
Lemma C100_checked : checked (run_all sort_factors toy_hash Order 1000 (tree_of 1000 C100_text)) 2 = true.
Proof. vm_compute. reflexivity. Qed.
Lemma C100_rows : match run_all sort_factors toy_hash Order 1000 (tree_of 1000 C100_text) with
  | Some (p, r, st) => ppublic p = ["1"] /\ exists s, gates_to_r1cs (ppublic p) keys (gates (scoll st)) false = Some s /\
      List.length (index_map s) = 4%nat /\ im_get (index_map s) "publicKey" = Some 1%nat /\ im_get (index_map s) "privateKey" = Some 2%nat /\
      rows s = [Row [0; 0; 0; 0] [0; 0; 0; 0] [0; 0; 1; 0] [0; 0; 0; 1]; Row [0; 0; 0; 1] [1; 0; 0; 0] [0; 0; 0; 0] [0; 1; 0; 0]]
  | None => False
  end.
Proof.
  remember (run_all sort_factors toy_hash Order 1000 (tree_of 1000 C100_text)) as o eqn:E. vm_compute in E. rewrite E. clear E. split; [reflexivity|].
  eexists. split; [vm_compute; reflexivity|]. split; [reflexivity|]. split; [reflexivity|]. split; reflexivity.
Qed.
Lemma C100_compiled : exists p r st s, compiles sort_factors toy_hash Order C100_defs keys p r st /\ ppublic p = ["1"] /\
  gates_to_r1cs (ppublic p) keys (gates (scoll st)) false = Some s /\
  List.length (index_map s) = 4%nat /\ im_get (index_map s) "publicKey" = Some 1%nat /\ im_get (index_map s) "privateKey" = Some 2%nat /\
  rows s = [Row [0; 0; 0; 0] [0; 0; 0; 0] [0; 0; 1; 0] [0; 0; 0; 1]; Row [0; 0; 0; 1] [1; 0; 0; 0] [0; 0; 0; 0] [0; 1; 0; 0]].
Proof.
  destruct (checked_ok _ _ C100_checked) as (p & r & st & E & H1 & D & H3). assert (Sy := C100_rows). rewrite E in Sy. destruct Sy as (P & s & Es & R).
  apply run_all_inv in E. destruct E as [Eb Er]. exists p, r, st, s. split; [|split; [exact P|split; [exact Es|exact R]]].
  split; [exact C100_ok|]. split; [eexists; reflexivity|]. split; [|split; [exact H1|exact D]]. exists (tree_of 1000 C100_text), 1000%nat, 1000%nat. split; [exact C100_encoded|]. split; [exact Eb|exact Er].
Qed.
Lemma poly_line a b x : poly_at [a; b] x = a + b * x.
Proof.
  unfold poly_at. cbn [map seq List.length nth]. change (Z.of_nat 0) with 0. change (Z.of_nat 1) with 1. rewrite Z.pow_0_r, Z.pow_1_r. cbn [zsum fold_right]. ring.
Qed.
(** Compiled over the field of the code and proved with its groups, from any vector that satisfies the system: with the
    setup's secret x and private key k the proof is accepted exactly if (1-x) k has (1-x) times the x coordinate of k.
    The conditions on sums are those of C70. *)
Theorem C100_honest : exists p r st s T, compiles sort_factors toy_hash Order C100_defs keys p r st /\
  gates_to_r1cs (ppublic p) keys (gates (scoll st)) false = Some s /\ transpose_er1cs s = Some T /\
  forall sc c c2 W x al be ga de, cache_ok Order c -> cache_ok Order c2 ->
  List.length W = List.length (index_map s) -> nth 0 W 0 = 1 -> Forall (Z.le 0) W -> Forall (row_ok Order (fun n => g1_x (g1_base n)) W) (rows s) ->
  0 <= x -> 0 <= al -> 0 <= be -> 0 <= ga -> 0 <= de -> ~ ga ==[Order] 0 -> ~ de ==[Order] 0 ->
  t_ready (g2_base be) -> t_ready (g2_base ga) -> t_ready (g2_base de) ->
  let G := bn256 sc in let k := read (index_map s) W "privateKey" in
  exists key c1 Px c3, generate_setup Order G c 1 T x al be ga de = Some (key, c1) /\ combine_polynomials Order G c2 W T = Some (Px, c3) /\
    (prover_sums Order G apart1 apart2 1 key W Px -> verifier_sums G apart1 key [1] ->
     exists pr, generate_proofs Order G 1 key W Px = Some pr /\
     (t_ready (piB G pr) -> t_ready (add2 G (piB G pr) (beta2 G key)) ->
      exists b, verify_proof G key pr [1] = Some b /\
        (b = true <-> g1_x (g1_base (((1 - x) * k) mod Order)) ==[Order] (1 - x) * g1_x (g1_base (k mod Order))) /\
        (x ==[Order] 2 -> ~ read (index_map s) W "publicKey" ==[Order] 0 -> b = false))).
Proof.
  destruct C100_compiled as (p & r & st & s & HC & P & Es & L & I1 & I2 & R).
  assert (WS := system_sized _ _ _ _ _ Es). destruct (transpose_er1cs_spec s WS ltac:(rewrite R; cbn; lia)) as (T & ET & _).
  exists p, r, st, s, T. split; [exact HC|]. split; [exact Es|]. split; [exact ET|].
  intros sc c c2 W x al be ga de Hc Hc2 LW W0 PW SAT Hx Hal Hbe Hga Hde Nga Nde R1 R2 R3 G k.
  destruct (C70_honest sc s T c c2 1 W x al be ga de ltac:(rewrite R; cbn; lia) ltac:(rewrite R; discriminate) WS ET Hc Hc2 ltac:(lia) ltac:(rewrite L; lia) LW PW SAT
    Hx Hal Hbe Hga Hde Nga Nde R1 R2 R3) as (key & c1 & Px & c3 & E1 & E2 & H).
  exists key, c1, Px, c3. split; [exact E1|]. split; [exact E2|].
  assert (F1 : firstn 1 W = [1]) by (destruct W as [|w0 W]; [rewrite L in LW; discriminate|]; cbn [nth] in W0; subst w0; reflexivity). rewrite F1 in H.
  intros S1 S2. destruct (H S1 S2) as (pr & E3 & H'). exists pr. split; [exact E3|]. intros T1 T2. destruct (H' T1 T2) as (b & E4 & HB). exists b. split; [exact E4|].
  assert (G0 : (fun n => g1_x (g1_base n)) 0 ==[Order] 0) by (apply cong_eq; exact gen_x_0).
  assert (Sy : read (index_map s) W "publicKey" ==[Order] g1_x (g1_base (k mod Order))).
  { apply (C100_system sort_factors toy_hash Order (fun n => g1_x (g1_base n)) p r st s sort_factors_perm prime_Order G0 HC Es _ k). exists W. auto. }
  set (g := g1_x (g1_base (k mod Order))) in *.
  assert (K : b = true <-> g1_x (g1_base (((1 - x) * k) mod Order)) ==[Order] (1 - x) * g).
  { assert (Dk : forall l, nth 2 [0; 0; 1; 0] 0 = 1 -> l = W -> dot [0; 0; 1; 0] l = k).
    { intros l _ ->. unfold k, read. rewrite I2. rewrite L in LW. destruct W as [|w0 [|w1 [|w2 [|w3 [|]]]]]; try discriminate. cbn [dot nth]. ring. }
    assert (D0 : dot [0; 0; 0; 0] W = 0).
    { rewrite L in LW. destruct W as [|w0 [|w1 [|w2 [|w3 [|]]]]]; try discriminate. cbn [dot]. ring. }
    specialize (HB [k; - k] [g; - g]). rewrite R in HB. cbn [map re] in HB. rewrite (Dk W eq_refl eq_refl), D0, Z.mod_0_l in HB by discriminate. fold g in HB.
    assert (X1 : poly_at [k; - k] x = (1 - x) * k) by (rewrite poly_line; ring). assert (X2 : poly_at [g; - g] x = (1 - x) * g) by (rewrite poly_line; ring). rewrite X1, X2 in HB. apply HB.
    - split; [reflexivity|]. intros [|[|i]] Hi; cbn [nth]; rewrite ?poly_line; [| |cbn in Hi; lia].
      + eapply cong_trans; [|apply cong_sym, cong_mod]. apply cong_eq. ring.
      + apply cong_eq. ring.
    - split; [reflexivity|]. intros [|[|i]] Hi; cbn [nth]; rewrite ?poly_line; [| |cbn in Hi; lia].
      + apply cong_eq. cbn. ring.
      + eapply cong_trans; [|apply cong_sym; exact G0]. apply cong_eq. cbn. ring. }
  split; [exact K|]. intros Ex Nz. destruct b; [|reflexivity]. exfalso. apply Nz.
  assert (V := proj1 K eq_refl). eapply cong_trans; [exact Sy|].
  assert (M1 : (1 - x) ==[Order] -1) by (destruct Ex as [e Ex]; exists (- e); lia).
  assert (EK : g1_x (g1_base (((1 - x) * k) mod Order)) = g).
  { apply C100_keys; [apply mod_Order|apply mod_Order|]. right. eapply cong_trans; [apply cong_mod|]. eapply cong_trans; [apply cong_mul; [exact M1|apply cong_sym, (cong_mod Order k)]|]. apply cong_eq. ring. }
  rewrite EK in V. assert (V2 : g ==[Order] (-1) * g) by (eapply cong_trans; [exact V|]; apply cong_mul; [exact M1|apply cong_refl]).
  destruct V2 as [v V2]. assert (D : (Order | 2 * g)) by (exists v; lia). apply prime_mult in D; [|exact prime_Order]. destruct D as [D|D].
  - apply Z.divide_pos_le in D; [|reflexivity]. exfalso. apply D. reflexivity.
  - destruct D as [d D]. exists d. lia.
Qed.
Print Assumptions C100_honest.
Lemma gen_x_0' : g1_x (g1_base 0) = 0. Proof. exact gen_x_0. Qed.
(** The repository's test input: private key 42, with a vector as C100_honest asks for. *)
Notation key_42 := 4312786488925573964619847916436127219510912864504589785209181363209026354996.
Example C100_case : g1_x (g1_base 42) = key_42 /\ ~ key_42 ==[Order] 0 /\
  exists p r st s, compiles sort_factors toy_hash Order C100_defs keys p r st /\ gates_to_r1cs (ppublic p) keys (gates (scoll st)) false = Some s /\
    let W := [1; key_42; 42; key_42] in List.length W = List.length (index_map s) /\ nth 0 W 0 = 1 /\ Forall (Z.le 0) W /\
    Forall (row_ok Order (fun n => g1_x (g1_base n)) W) (rows s) /\ read (index_map s) W "privateKey" = 42 /\ read (index_map s) W "publicKey" = key_42.
Proof.
  assert (V : g1_x (g1_base 42) = key_42) by (vm_compute; reflexivity). split; [exact V|]. split.
  { intros H. apply cong_mod_iff in H; [|discriminate]. vm_compute in H. discriminate. }
  destruct C100_compiled as (p & r & st & s & HC & P & Es & L & I1 & I2 & R). exists p, r, st, s. split; [exact HC|]. split; [exact Es|]. cbv zeta.
  split; [rewrite L; reflexivity|]. split; [reflexivity|]. split; [repeat (constructor; [discriminate|]); constructor|]. split.
  - rewrite R. constructor; [|constructor; [|constructor]]; unfold row_ok; cbn [rl rr re ro].
    + replace (dot [0; 0; 1; 0] [1; key_42; 42; key_42] mod Order) with 42 by reflexivity. rewrite V. apply cong_eq. reflexivity.
    + replace (dot [0; 0; 0; 0] [1; key_42; 42; key_42] mod Order) with 0 by reflexivity. rewrite gen_x_0'. apply cong_eq. reflexivity.
  - unfold read. rewrite I1, I2. split; reflexivity.
Qed.

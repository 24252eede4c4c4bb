(** C43-C49: the polynomial of an assignment, setup, proofs and their verification. *)
Require Import ZArith Znumtheory NArith Bool Ascii String Lia List.
Require Import Verif.Cong Verif.FqModel Verif.FqSpec Verif.FqProofs Verif.PolyModel Verif.PolyProofs Verif.InterpProofs Verif.Pocklington.
Require Import Verif.AvlModel Verif.AvlSpec Verif.AvlProofs Verif.SparseModel Verif.SparseSpec Verif.SparseProofs Verif.FactorModel Verif.ExprModel Verif.R1csModel Verif.R1csSpec Verif.SnarkModel Verif.SnarkSpec.
Require Import Verif.SnarkProofs Verif.SnarkProofs2 Verif.SnarkProofs3 Verif.PropsFactor Verif.PropsExpr Verif.PropsSparse.
Import ListNotations.
Open Scope Z_scope.

(** Exponents satisfy the assumptions on groups. *)
Lemma exponents_lawful q X : 1 < q -> (forall a, 0 <= X a) -> X 0 = 0 -> lawful q (exponents q X).
Proof.
  intros Hq HX X0. assert (M : forall a b, a ==[q] b -> a mod q = b mod q) by (intros a b; apply cong_mod_iff; lia).
  assert (Hr : forall a, 0 <= a mod q) by (intros; apply Z.mod_pos_bound; lia).
  constructor; unfold gT; cbn; intros; auto; try (apply M; rewrite ?cong_mod; first [assumption|reflexivity|apply cong_eq; ring]).
  - rewrite (Z.mod_small 1 q), !Z.mul_1_r, !Z.mod_mod by lia. apply M. rewrite !cong_mod. reflexivity.
  - injection H1 as H1. apply cong_mod_iff in H1; [|lia]. rewrite !cong_mod, !Z.mul_1_r in H1. exact H1.
Qed.

(** C43.  Value at gate i, and divisibility by the domain polynomial. *)
Theorem C43_combined : forall q G s c w, prime q -> (1 <= List.length (rows s))%nat -> Z.of_nat (List.length (rows s)) <= q ->
  well_sized s -> cache_ok q c -> List.length w = List.length (index_map s) -> w <> [] ->
  exists T Px c', transpose_er1cs s = Some T /\ combine_polynomials q G c w T = Some (Px, c') /\
    List.length Px = (2 * List.length (rows s) - 1)%nat /\ reduced q Px /\
    forall i r, nth_error (rows s) i = Some r ->
      poly_at Px (Z.of_nat i) ==[q] dot (rl r) w * dot (rr r) w + gxc G (dot (re r) w mod q) - dot (ro r) w.
Proof.
  intros q G s c w Pq N Nq W Hc Lw Nw. destruct (transpose_er1cs_spec s W N) as [T [ET _]].
  destruct (combine_spec q Pq G s T c w N Nq W ET Hc Lw Nw) as (Px & c' & E & _ & L & R & _ & H).
  exists T, Px, c'. auto.
Qed.
Print Assumptions C43_combined.
Theorem C43_divisible : forall q G s T c c' w Px, prime q -> (1 <= List.length (rows s))%nat -> Z.of_nat (List.length (rows s)) <= q ->
  well_sized s -> cache_ok q c -> List.length w = List.length (index_map s) -> w <> [] ->
  transpose_er1cs s = Some T -> combine_polynomials q G c w T = Some (Px, c') ->
  exists Qx rem, pdiv q Px (domain_poly q (List.length (rows s))) = Some (Qx, rem) /\
    (is_zero_array rem = true <-> Forall (row_ok q (gxc G) w) (rows s)).
Proof.
  intros q G s T c c' w Px Pq N Nq W Hc Lw Nw ET E.
  destruct (combine_spec q Pq G s T c w N Nq W ET Hc Lw Nw) as (Px' & c2 & E' & _ & L & R & _ & H).
  rewrite E in E'. injection E' as <- <-.
  destruct (divisible_iff q Pq G s Px w N Nq R ltac:(lia) H) as (Qx & rem & ED & _ & _ & _ & Iff). eauto.
Qed.
Print Assumptions C43_divisible.

(** The key of a setup contains the domain polynomial of the gates. *)
Lemma setup_domain q G c pub T x al be ga de k c1 : generate_setup q G c pub T x al be ga de = Some (k, c1) -> domain G k = domain_poly q (ngates T).
Proof.
  unfold generate_setup. destruct (er1cs_to_eap q c T) as [[[[[l r] e] o] c2]|]; [|discriminate].
  unfold setup_keys. destruct (_ && _)%bool; [|discriminate]. destruct (Nat.leb _ _); [discriminate|].
  destruct (feval_poly q (domain_poly q (ngates T)) x); [|discriminate]. destruct (finv q de); [|discriminate]. destruct (finv q ga); [|discriminate].
  destruct (wire_keys _ _ _ _ _ _ _ _ _ _ _); [|discriminate]. intros [= <- <-]. reflexivity.
Qed.

(** C44. *)
Theorem C44_no_proof : forall q G s T c0 c1 pub x al be ga de k c c' w Px, prime q -> (1 <= List.length (rows s))%nat -> Z.of_nat (List.length (rows s)) <= q ->
  well_sized s -> cache_ok q c -> List.length w = List.length (index_map s) -> w <> [] ->
  transpose_er1cs s = Some T -> generate_setup q G c0 pub T x al be ga de = Some (k, c1) ->
  combine_polynomials q G c w T = Some (Px, c') ->
  ~ Forall (row_ok q (gxc G) w) (rows s) -> generate_proofs q G pub k w Px = None.
Proof.
  intros q G s T c0 c1 pub x al be ga de k c c' w Px Pq N Nq W Hc Lw Nw ET ES EC NR.
  destruct (C43_divisible q G s T c c' w Px Pq N Nq W Hc Lw Nw ET EC) as (Qx & rem & ED & Iff).
  unfold generate_proofs. rewrite (setup_domain _ _ _ _ _ _ _ _ _ _ _ _ ES).
  destruct (transpose_er1cs_spec s W N) as (T' & ET' & TN & _). rewrite ET in ET'. injection ET' as <-. rewrite TN, ED.
  destruct (is_zero_array rem); auto. exfalso. apply NR, Iff, eq_refl.
Qed.
Print Assumptions C44_no_proof.

(** C45.  Honest proofs: the verifier accepts exactly if X of the exponent polynomial at the
    secret point is the value of the polynomial through the X of the exponents. *)
Theorem C45_honest : forall q G s T c c2 pub w x al be ga de, prime q -> lawful q G -> (2 <= List.length (rows s))%nat ->
  Z.of_nat (List.length (rows s)) <= q -> well_sized s -> transpose_er1cs s = Some T ->
  cache_ok q c -> cache_ok q c2 -> (1 <= pub)%nat -> (pub < List.length (index_map s))%nat ->
  List.length w = List.length (index_map s) -> Forall (Z.le 0) w -> Forall (row_ok q (gxc G) w) (rows s) ->
  0 <= x -> 0 <= al -> 0 <= be -> 0 <= ga -> 0 <= de -> ~ ga ==[q] 0 -> ~ de ==[q] 0 ->
  exists k c1 Px c3, generate_setup q G c pub T x al be ga de = Some (k, c1) /\
    combine_polynomials q G c2 w T = Some (Px, c3) /\
    (prover_safe q G pub k w Px -> verifier_safe G k (firstn pub w) ->
     exists p b, generate_proofs q G pub k w Px = Some p /\ verify_proof G k p (firstn pub w) = Some b /\
     forall Ep Gp, interpolates q (map (fun r => dot (re r) w mod q) (rows s)) Ep ->
       interpolates q (map (fun r => gxc G (dot (re r) w mod q)) (rows s)) Gp ->
       (b = true <-> gxc G (poly_at Ep x mod q) ==[q] poly_at Gp x)).
Proof.
  intros q G s T c c2 pub w x al be ga de Pq LG N2 Nq W ET Hc Hc2 P1 P2 Lw Hw SAT Hx Hal Hbe Hga Hde Nga Nde.
  exact (honest q Pq G LG s T W ET N2 Nq c c2 pub w x al be ga de Hc Hc2 P1 P2 Lw Hw SAT Hx Hal Hbe Hga Hde Nga Nde).
Qed.
Print Assumptions C45_honest.
(** Without base multiplications. *)
Theorem C45_accepted : forall q G s T c c2 pub w x al be ga de, prime q -> lawful q G -> (2 <= List.length (rows s))%nat ->
  Z.of_nat (List.length (rows s)) <= q -> well_sized s -> exponent_free s -> transpose_er1cs s = Some T ->
  cache_ok q c -> cache_ok q c2 -> (1 <= pub)%nat -> (pub < List.length (index_map s))%nat ->
  List.length w = List.length (index_map s) -> Forall (Z.le 0) w -> Forall (row_ok q (gxc G) w) (rows s) ->
  0 <= x -> 0 <= al -> 0 <= be -> 0 <= ga -> 0 <= de -> ~ ga ==[q] 0 -> ~ de ==[q] 0 ->
  exists k c1 Px c3, generate_setup q G c pub T x al be ga de = Some (k, c1) /\
    combine_polynomials q G c2 w T = Some (Px, c3) /\
    (prover_safe q G pub k w Px -> verifier_safe G k (firstn pub w) ->
     exists p, generate_proofs q G pub k w Px = Some p /\ verify_proof G k p (firstn pub w) = Some true).
Proof.
  intros q G s T c c2 pub w x al be ga de Pq LG N2 Nq W Free ET Hc Hc2 P1 P2 Lw Hw SAT Hx Hal Hbe Hga Hde Nga Nde.
  destruct (honest q Pq G LG s T W ET N2 Nq c c2 pub w x al be ga de Hc Hc2 P1 P2 Lw Hw SAT Hx Hal Hbe Hga Hde Nga Nde)
    as (k & c1 & Px & c3 & E1 & E2 & H).
  exists k, c1, Px, c3. split; auto. split; auto. intros S1 S2. destruct (H S1 S2) as (p & b & E3 & E4 & HB).
  exists p. split; auto. rewrite E4. f_equal.
  destruct (free_data q Pq G LG s w Free) as [D1 D2]. rewrite D1, D2 in HB.
  assert (I0 : interpolates q (repeat 0 (List.length (rows s))) [0]).
  { apply interpolates_const; rewrite repeat_length; [lia|]. intros i Hi. rewrite nth_repeat. reflexivity. }
  apply (HB [0] [0] I0 I0). replace (poly_at [0] x) with 0 by (unfold poly_at; cbn; ring).
  rewrite Z.mod_0_l by (destruct Pq; lia). unfold gxc. rewrite (law_x0 q G LG). reflexivity.
Qed.
Print Assumptions C45_accepted.

(** The program equal(y*y, z) with z public, compiled. *)
Definition square_prog : prog := Prog [(EBin "*" (EVar "y") (EVar "y"), EVar "z")] (EVar "z").
Definition square_rows : list (row (list Z)) :=
  [ {| rl := [0; 0; 1; 0]; rr := [0; 0; 1; 0]; re := [0; 0; 0; 0]; ro := [0; 0; 0; 1] |};
    {| rl := [0; 0; 0; 1]; rr := [1; 0; 0; 0]; re := [0; 0; 0; 0]; ro := [0; 1; 0; 0] |} ].
Example square_compiled : exists c f tr s, execute sort_factors toy_hash Order square_prog = Some (c, f, tr) /\
  gates_to_r1cs ["1"; "z"]%string ["z"; "y"]%string (gates c) false = Some s /\
  rows s = square_rows /\ map fst (index_map s) = ["1"; "z"; "y"; "3000879414630060"]%string.
Proof. do 4 eexists. split; [vm_compute; reflexivity|]. split; [vm_compute; reflexivity|]. split; reflexivity. Qed.
Definition square_system : er1cs (list Z) :=
  ER1CS [("1", 0%nat); ("z", 1%nat); ("y", 2%nat); ("u", 3%nat)]%string [] square_rows.
Lemma square_facts : well_sized square_system /\ exponent_free square_system.
Proof. split; repeat constructor. Qed.

(** C46.  The statement is false: no assignment with z = 7 satisfies the system. *)
Definition X101 (a : Z) : Z := a * a.
Lemma nonsquare q z : prime q -> 2 < q -> zpowmod q z ((q - 1) / 2) = q - 1 -> ~ z ==[q] 0 -> forall y, ~ y * y ==[q] z.
Proof.
  intros Pq Hq E Nz y H. assert (Od : q - 1 = 2 * ((q - 1) / 2)).
  { assert (M : q mod 2 = 1).
    { assert (Q2 : q mod 2 = 0 \/ q mod 2 = 1) by (assert (A := Z.mod_pos_bound q 2 ltac:(lia)); lia). destruct Q2 as [Q2|Q2]; auto.
      apply Z.mod_divide in Q2; [|lia]. destruct (prime_divisors q Pq 2 Q2) as [?|[?|[?|?]]]; lia. }
    rewrite (Z.div_mod q 2) at 1 by lia. rewrite M. replace (2 * (q / 2) + 1 - 1) with (2 * (q / 2)) by ring. f_equal.
    rewrite (Z.div_mod q 2) at 2 by lia. rewrite M. replace (2 * (q / 2) + 1 - 1) with (q / 2 * 2) by ring. now rewrite Z.div_mul. }
  assert (Ny : ~ y ==[q] 0). { intros C. apply Nz. rewrite <- H, C. reflexivity. }
  assert (F := fermat q y Pq Ny). assert (H2 : 0 <= (q - 1) / 2) by (apply Z.div_pos; lia).
  assert (ZP := zpowmod_cong q z ((q - 1) / 2) H2). rewrite E in ZP.
  assert (C : z ^ ((q - 1) / 2) ==[q] 1).
  { rewrite <- (cong_pow q _ _ ((q - 1) / 2) H). rewrite Od in F. rewrite Z.pow_mul_r in F by lia. rewrite Z.pow_2_r in F. exact F. }
  rewrite <- ZP in C. destruct C as [j C]. assert (j * q = q - 2) by lia. assert (0 < j < 1) by nia. lia.
Qed.
Lemma seven_nonsquare : forall y, ~ y * y ==[Order] 7.
Proof.
  apply nonsquare; [exact prime_Order|reflexivity|vm_compute; reflexivity|].
  intros H. apply cong_mod_iff in H; [vm_compute in H; discriminate|discriminate].
Qed.
Theorem C46_false_statement : forall gx w, gx 0 = 0 -> List.length w = 4%nat -> nth 0 w 0 = 1 -> nth 1 w 0 = 7 ->
  ~ Forall (row_ok Order gx w) square_rows.
Proof.
  intros gx w G0 L W0 W1 F. destruct w as [|a [|b [|y [|u [|]]]]]; try discriminate L. cbn in W0, W1. subst a b.
  inversion F as [|? ? R1 F1]; subst. inversion F1 as [|? ? R2 _]; subst. unfold row_ok in R1, R2. cbn [rl rr re ro dot] in R1, R2.
  rewrite !Z.mul_0_l in R1, R2. cbn [Z.add] in R1, R2. rewrite Z.mod_0_l, G0 in R1, R2 by discriminate.
  apply (seven_nonsquare y). ring_simplify in R1. ring_simplify in R2.
  transitivity u; [|rewrite <- (Z.mul_1_l 7); replace (1 * 7) with 7 by ring; ring_simplify; exact R2].
  rewrite <- R1. apply cong_eq; ring.
Qed.
Print Assumptions C46_false_statement.
(** The forger needs no secret: assignment and quotient do not depend on the setup. *)
Theorem C46_forged : forall G T, lawful Order G -> xcoord G (base1 G 1) = 1 -> transpose_er1cs square_system = Some T ->
  exists Qx, Forall (Z.le 0) Qx /\ forall c k c1 x al be ga de, cache_ok Order c ->
    0 <= x -> 0 <= al -> 0 <= be -> 0 <= ga -> 0 <= de -> ~ ga ==[Order] 0 -> ~ de ==[Order] 0 ->
    generate_setup Order G c 2 T x al be ga de = Some (k, c1) -> verifier_safe G k [1; 7] ->
    exists p, forge G 2 k [1; 7; 3; 7] Qx 1 = Some p /\ verify_proof G k p [1; 7] = Some true.
Proof.
  intros G T LG X1 ET. destruct square_facts as [W Free].
  apply (forged Order prime_Order G LG square_system T W ET ltac:(cbn; lia) ltac:(cbn; unfold Order; lia) 2 [1; 7; 3; 7] 1 Free); cbn [index_map square_system List.length]; auto; try lia.
  - repeat constructor; lia.
  - assert (X : gxc G 1 = 1) by exact X1. repeat constructor; rewrite X; apply cong_eq; reflexivity.
Qed.
Print Assumptions C46_forged.
(** For every setup the key exists (C45), and the assumptions on the group can be met. *)
Definition GO : groups := exponents Order Z.abs.
Definition square_T : columns (list Z) := Columns 2 4
  [[0; 0]; [0; 0]; [1; 0]; [0; 1]] [[0; 1]; [0; 0]; [1; 0]; [0; 0]] [[0; 0]; [0; 0]; [0; 0]; [0; 0]] [[0; 0]; [0; 1]; [0; 0]; [1; 0]].
Definition square_key : option (pk GO) := option_map fst (generate_setup Order GO [] 2 square_T 5 11 12 13 14).
Example C46_case : transpose_er1cs square_system = Some square_T /\ lawful Order GO /\ xcoord GO (base1 GO 1) = 1 /\
  exists k Qx p, square_key = Some k /\ verifier_safe GO k [1; 7] /\
  forge GO 2 k [1; 7; 3; 7] Qx 1 = Some p /\ verify_proof GO k p [1; 7] = Some true.
Proof.
  split; [reflexivity|]. assert (LG : lawful Order GO) by (apply exponents_lawful; [reflexivity|apply Z.abs_nonneg|reflexivity]).
  split; auto. split; [vm_compute; reflexivity|].
  assert (F : match square_key with Some k => match rleo_gamma GO k with [a; b] => negb (Z.eqb (smul1 GO a 1) (smul1 GO b 7)) | _ => false end | None => false end = true) by (vm_compute; reflexivity).
  destruct square_key as [k|] eqn:EK; [|discriminate F].
  destruct (rleo_gamma GO k) as [|a [|b [|? ?]]] eqn:ER; try discriminate F.
  assert (VS : verifier_safe GO k [1; 7]).
  { unfold verifier_safe, verifier_sums. rewrite ER. intros ts E. cbn [smuls] in E. injection E as <-. cbn [safe1]. unfold safe1, sum_all, sum_if. split; auto.
    intros C. exfalso. apply Bool.negb_true_iff, Z.eqb_neq in F. apply F, C. }
  destruct (C46_forged GO square_T LG ltac:(vm_compute; reflexivity) ltac:(reflexivity)) as [Qx [_ H]].
  unfold square_key in EK. destruct (generate_setup Order GO [] 2 square_T 5 11 12 13 14) as [[k' c1]|] eqn:EG; [|discriminate EK].
  cbn [option_map fst] in EK. injection EK as ->.
  destruct (H [] k c1 5 11 12 13 14 (cache_ok_nil Order) ltac:(lia) ltac:(lia) ltac:(lia) ltac:(lia) ltac:(lia)) as [p [E1 E2]]; auto;
    try (intros C; apply cong_mod_iff in C; [vm_compute in C; discriminate|discriminate]).
  exists k, Qx, p. auto.
Qed.

(** C43-C45 on a small field: equal(y*y, z) for z = 9, y = 3. *)
Definition G101 : groups := exponents 101 (fun a => a * a).
Lemma G101_lawful : lawful 101 G101.
Proof. apply exponents_lawful; [lia|intros; nia|reflexivity]. Qed.
Definition outcome_of (q : Z) (G : groups) (s : er1cs (list Z)) (pub : nat) (w : list Z) (x al be ga de : Z) :
  option (pk G * list Z * proof G * bool) :=
  match transpose_er1cs s with
  | None => None
  | Some T =>
      match generate_setup q G [] pub T x al be ga de, combine_polynomials q G [] w T with
      | Some (k, _), Some (Px, _) =>
          match generate_proofs q G pub k w Px with
          | Some p => match verify_proof G k p (firstn pub w) with Some b => Some (k, Px, p, b) | None => None end
          | None => None
          end
      | _, _ => None
      end
  end.
Example C43_case : exists T Px c, transpose_er1cs square_system = Some T /\ combine_polynomials 101 G101 [] [1; 9; 3; 9] T = Some (Px, c) /\
  Px = [0; 12; 89] /\ pdiv 101 Px (domain_poly 101 2) = Some ([89], [0; 0]).
Proof. do 3 eexists. split; [vm_compute; reflexivity|]. split; [vm_compute; reflexivity|]. split; [vm_compute; reflexivity|]. vm_compute. reflexivity. Qed.
(** z = 7: no proof. *)
Definition refused : bool :=
  match transpose_er1cs square_system with
  | Some T => match generate_setup 101 G101 [] 2 T 5 11 12 13 14, combine_polynomials 101 G101 [] [1; 7; 3; 9] T with
              | Some (k, _), Some (Px, _) => match generate_proofs 101 G101 2 k [1; 7; 3; 9] Px with None => true | Some _ => false end
              | _, _ => false
              end
  | None => false
  end.
Example C44_case : refused = true /\ ~ Forall (row_ok 101 (gxc G101) [1; 7; 3; 9]) (rows square_system).
Proof.
  split; [vm_compute; reflexivity|]. intros F. inversion F as [|? ? _ F1]; subst. inversion F1 as [|? ? R2 _]; subst. unfold row_ok in R2.
  apply cong_mod_iff in R2; [|lia]. vm_compute in R2. discriminate R2.
Qed.
(** Equality of sums, decided on exponents. *)
Fixpoint sum_ifb (q s : Z) (ts : list Z) : bool :=
  match ts with [] => true | t :: ts' => (negb (s =? t) || (s =? 0)) && sum_ifb q ((s + t) mod q) ts' end.
Definition sum_allb (q : Z) (ts : list Z) : bool := match ts with [] => true | t :: ts' => sum_ifb q t ts' end.
Lemma sum_allb_ok q X ts : sum_allb q ts = true -> safe1 (exponents q X) ts /\ safe2 (exponents q X) ts.
Proof.
  assert (H : forall ts s, sum_ifb q s ts = true -> sum_if (apart (0 mod q)) (fun a b => (a + b) mod q) s ts).
  { clear. induction ts as [|t ts IH]; intros s; cbn; auto. intros H. apply andb_prop in H. destruct H as [H1 H2]. split; auto.
    intros ->. rewrite Z.eqb_refl in H1. cbn in H1. apply Z.eqb_eq in H1. exact H1. }
  intros E. destruct ts as [|t ts]; split; cbn; auto; apply H; exact E.
Qed.
Definition all_safe (q : Z) (X : Z -> Z) (pub : nat) (k : pk (exponents q X)) (w Px : list Z) : bool :=
  let G := exponents q X in
  let chk := fun (l : option (list Z)) => match l with Some ts => sum_allb q ts | None => true end in
  chk (option_map (fun ts => ts ++ [alpha1 G k]) (smuls (smul1 G) (lx_ex G k) w)) && chk (smuls (smul2 G) (rx G k) w) &&
  chk (smuls (smul1 G) (ex G k) w) &&
  match pdiv q Px (domain G k) with
  | Some (Qx, _) => chk (smuls (smul1 G) (powers_domain_delta G k) Qx) &&
                    match msm (smul1 G) (acc1 G) (powers_domain_delta G k) Qx with
                    | Some qd => chk (option_map (fun ts => ts ++ [qd]) (smuls (smul1 G) (rleo_delta G k) (skipn pub w)))
                    | None => true
                    end
  | None => true
  end && chk (smuls (smul1 G) (rleo_gamma G k) (firstn pub w)).
Lemma all_safe_ok q X pub k w Px : all_safe q X pub k w Px = true ->
  prover_safe q (exponents q X) pub k w Px /\ verifier_safe (exponents q X) k (firstn pub w).
Proof.
  unfold all_safe. intros H. apply andb_prop in H. destruct H as [H H5]. apply andb_prop in H. destruct H as [H H4].
  apply andb_prop in H. destruct H as [H H3]. apply andb_prop in H. destruct H as [H1 H2]. split; [split; [|split; [|split]]|].
  - intros ts E. rewrite E in H1. now apply sum_allb_ok.
  - intros ts E. rewrite E in H2. now apply sum_allb_ok.
  - intros ts E. rewrite E in H3. now apply sum_allb_ok.
  - intros Qx r E. rewrite E in H4. apply andb_prop in H4. destruct H4 as [H4 H6]. split.
    + intros ts Et. rewrite Et in H4. now apply sum_allb_ok.
    + intros ts qd Et Eq. rewrite Eq in H6. rewrite Et in H6. now apply sum_allb_ok.
  - intros ts E. rewrite E in H5. now apply sum_allb_ok.
Qed.

Definition accepted_safely (s : er1cs (list Z)) (w : list Z) (b : bool) : bool :=
  match outcome_of 101 G101 s 2 w 5 11 12 13 14 with
  | Some (k, Px, _, b') => Bool.eqb b b' && all_safe 101 (fun a => a * a) 2 k w Px
  | None => false
  end.
Lemma accepted_safely_ok s w b : accepted_safely s w b = true -> exists k Px p, outcome_of 101 G101 s 2 w 5 11 12 13 14 = Some (k, Px, p, b) /\
  prover_safe 101 G101 2 k w Px /\ verifier_safe G101 k (firstn 2 w).
Proof.
  unfold accepted_safely. destruct (outcome_of 101 G101 s 2 w 5 11 12 13 14) as [[[[k Px] p] b']|]; [|discriminate].
  intros H. apply andb_prop in H. destruct H as [H1 H2]. apply Bool.eqb_prop in H1. subst b'. apply all_safe_ok in H2. exists k, Px, p. tauto.
Qed.
Example C45_case : exists k Px p, outcome_of 101 G101 square_system 2 [1; 9; 3; 9] 5 11 12 13 14 = Some (k, Px, p, true) /\
  prover_safe 101 G101 2 k [1; 9; 3; 9] Px /\ verifier_safe G101 k [1; 9] /\
  Forall (row_ok 101 (gxc G101) [1; 9; 3; 9]) (rows square_system).
Proof.
  destruct (accepted_safely_ok square_system [1; 9; 3; 9] true ltac:(vm_compute; reflexivity)) as (k & Px & p & E & S1 & S2).
  exists k, Px, p. split; auto. split; auto. split; auto.
  repeat (apply Forall_cons; [apply cong_mod_iff; [lia|vm_compute; reflexivity]|]); apply Forall_nil.
Qed.
(** With a base multiplication (u = base(y) next to z = y*y) an honest proof is rejected. *)
Definition base_system : er1cs (list Z) :=
  ER1CS [("1", 0%nat); ("z", 1%nat); ("y", 2%nat); ("u", 3%nat)]%string []
    [ {| rl := [0; 0; 0; 0]; rr := [0; 0; 0; 0]; re := [0; 0; 1; 0]; ro := [0; 0; 0; 1] |};
      {| rl := [0; 0; 1; 0]; rr := [0; 0; 1; 0]; re := [0; 0; 0; 0]; ro := [0; 1; 0; 0] |} ].
Theorem C45_base_refuted : exists s w x al be ga de k Px p, well_sized s /\ lawful 101 G101 /\
  Forall (row_ok 101 (gxc G101) w) (rows s) /\ ~ ga ==[101] 0 /\ ~ de ==[101] 0 /\
  prover_safe 101 G101 2 k w Px /\ verifier_safe G101 k (firstn 2 w) /\
  outcome_of 101 G101 s 2 w x al be ga de = Some (k, Px, p, false).
Proof.
  exists base_system, [1; 9; 3; 9], 5, 11, 12, 13, 14.
  destruct (accepted_safely_ok base_system [1; 9; 3; 9] false ltac:(vm_compute; reflexivity)) as (k & Px & p & E & S1 & S2).
  exists k, Px, p. split; [repeat constructor|]. split; [exact G101_lawful|].
  split; [repeat (apply Forall_cons; [apply cong_mod_iff; [lia|vm_compute; reflexivity]|]); apply Forall_nil|].
  split; [intros H; apply cong_mod_iff in H; [vm_compute in H; discriminate|lia]|].
  split; [intros H; apply cong_mod_iff in H; [vm_compute in H; discriminate|lia]|].
  split; auto.
Qed.
Print Assumptions C45_base_refuted.

(** C47. *)
Theorem C47_one_gate : forall q G s T c0 c1 pub x al be ga de k c c' w Px, prime q -> List.length (rows s) = 1%nat ->
  well_sized s -> cache_ok q c -> List.length w = List.length (index_map s) -> w <> [] ->
  transpose_er1cs s = Some T -> generate_setup q G c0 pub T x al be ga de = Some (k, c1) ->
  combine_polynomials q G c w T = Some (Px, c') -> generate_proofs q G pub k w Px = None.
Proof.
  intros q G s T c0 c1 pub x al be ga de k c c' w Px Pq N W Hc Lw Nw ET ES EC.
  destruct (combine_spec q Pq G s T c w ltac:(lia) ltac:(destruct Pq; lia) W ET Hc Lw Nw) as (Px' & c2 & E' & _ & L & R & _ & H).
  rewrite EC in E'. injection E' as <- <-.
  destruct (divisible_iff q Pq G s Px w ltac:(lia) ltac:(destruct Pq; lia) R ltac:(lia) H) as (Qx & rem & ED & _ & LQ & _ & Iff).
  unfold generate_proofs. rewrite (setup_domain _ _ _ _ _ _ _ _ _ _ _ _ ES).
  destruct (transpose_er1cs_spec s W ltac:(lia)) as (T' & ET' & TN & _). rewrite ET in ET'. injection ET' as <-. rewrite TN, ED.
  destruct (is_zero_array rem); auto. rewrite L, N in LQ. destruct Qx; [|discriminate LQ]. unfold msm. destruct (powers_domain_delta G k); reflexivity.
Qed.
Print Assumptions C47_one_gate.
(** x*y = z *)
Definition one_gate : er1cs (list Z) :=
  ER1CS [("1", 0%nat); ("z", 1%nat); ("x", 2%nat); ("y", 3%nat)]%string []
    [ {| rl := [0; 0; 1; 0]; rr := [0; 0; 0; 1]; re := [0; 0; 0; 0]; ro := [0; 1; 0; 0] |} ].
Definition one_gate_runs : bool :=
  match transpose_er1cs one_gate with
  | Some T => match generate_setup 101 G101 [] 2 T 5 11 12 13 14, combine_polynomials 101 G101 [] [1; 6; 2; 3] T with
              | Some (k, _), Some (Px, _) => match generate_proofs 101 G101 2 k [1; 6; 2; 3] Px with None => is_zero_array Px | Some _ => false end
              | _, _ => false
              end
  | None => false
  end.
Example C47_case : one_gate_runs = true /\ Forall (row_ok 101 (gxc G101) [1; 6; 2; 3]) (rows one_gate).
Proof.
  split; [vm_compute; reflexivity|].
  repeat (apply Forall_cons; [apply cong_mod_iff; [lia|vm_compute; reflexivity]|]); apply Forall_nil.
Qed.

(** C48.  An entry in a row beyond the number of variables makes the sparse setup panic. *)
Lemma interpolations_panic q n d k : wf d -> tc d k <> 0 -> (n <= k)%nat -> forall cols c, In d cols -> interpolations q c n cols = None.
Proof.
  intros W H L. induction cols as [|d' cols IH]; intros c []; cbn [interpolations].
  - subst. now rewrite (C23_too_short q c d n k W H L).
  - destruct (interpolate_sparse q c d' n) as [[p c1]|]; auto. now rewrite IH.
Qed.
Theorem C48_setup_aborts : forall q G c pub T x al be ga de d k, wf d -> tc d k <> 0 -> (wlen T <= k)%nat ->
  In d (cl T) \/ In d (firstn (List.length (cl T)) (cr T)) \/ In d (firstn (List.length (cl T)) (ce T)) \/ In d (firstn (List.length (cl T)) (co T)) ->
  generate_setup_sparse q G c pub T x al be ga de = None.
Proof.
  intros q G c pub T x al be ga de d k W H L I. unfold generate_setup_sparse, er1cs_to_eap_sparse.
  destruct (_ && _)%bool; [|reflexivity]. assert (A := interpolations_panic q (wlen T) d k W H L).
  destruct I as [I|I]; [now rewrite A|]. destruct (interpolations q c _ (cl T)) as [[l c1]|]; auto.
  destruct I as [I|I]; [now rewrite A|]. destruct (interpolations q c1 _ _) as [[r c2]|]; auto.
  destruct I as [I|I]; [now rewrite A|]. destruct (interpolations q c2 _ _) as [[e c3]|]; auto. now rewrite A.
Qed.
Print Assumptions C48_setup_aborts.
(** An honest sparse proof is rejected: equal(y*y, z), two gates and four variables. *)
Definition sparse_outcome (q : Z) (G : groups) (s : er1cs tree) (pub : nat) (w : list Z) (x al be ga de : Z) : option (outcome bool) :=
  match transpose_sparse_er1cs s with
  | None => None
  | Some T =>
      match generate_setup_sparse q G [] pub T x al be ga de, combine_sparse_polynomials q G [] w T with
      | Some (k, _), Some (Px, _) =>
          match generate_proofs_sparse q G 100 pub k w Px with
          | Ret p => match verify_proof G k p (firstn pub w) with Some b => Some (Ret b) | None => None end
          | Panic => Some Panic
          | Running => Some Running
          end
      | _, _ => None
      end
  end.
Theorem C48_rejected_refuted : exists c f tr d s, execute sort_factors toy_hash 101 square_prog = Some (c, f, tr) /\
  gates_to_r1cs ["1"; "z"]%string ["z"; "y"]%string (gates c) false = Some d /\
  gates_to_sparse_r1cs 101 ["1"; "z"]%string ["z"; "y"]%string (gates c) false = Some s /\
  Forall (row_ok 101 (gxc G101) [1; 9; 3; 9]) (rows d) /\ Forall (srow_ok 101 (gxc G101) [1; 9; 3; 9]) (rows s) /\
  option_map snd (outcome_of 101 G101 d 2 [1; 9; 3; 9] 5 11 12 13 14) = Some true /\
  sparse_outcome 101 G101 s 2 [1; 9; 3; 9] 5 11 12 13 14 = Some (Ret false).
Proof.
  do 5 eexists. split; [vm_compute; reflexivity|]. split; [vm_compute; reflexivity|]. split; [vm_compute; reflexivity|].
  split; [repeat (apply Forall_cons; [apply cong_mod_iff; [lia|vm_compute; reflexivity]|]); apply Forall_nil|].
  split; [repeat (apply Forall_cons; [apply cong_mod_iff; [lia|vm_compute; reflexivity]|]); apply Forall_nil|]. split; vm_compute; reflexivity.
Qed.
Print Assumptions C48_rejected_refuted.
Example C48_case : exists T, transpose_sparse_er1cs (ER1CS [("1", 0%nat); ("x", 1%nat)]%string []
    (repeat {| rl := Node Leaf 1 1 1 Leaf; rr := Node Leaf 1 1 1 Leaf; re := Leaf; ro := Node Leaf 0 1 1 Leaf |} 3)) = Some T /\
  tc (nth 1 (cl T) Leaf) 2 <> 0 /\ wlen T = 2%nat /\ generate_setup_sparse 101 G101 [] 1 T 5 11 12 13 14 = None.
Proof. eexists. split; [vm_compute; reflexivity|]. repeat split; vm_compute; discriminate. Qed.

(** C49. *)
Theorem C49_signal_count : forall q G c pub T x al be ga de k c1 p signals,
  generate_setup q G c pub T x al be ga de = Some (k, c1) -> (pub <= wlen T)%nat ->
  List.length signals <> pub -> verify_proof G k p signals = Some false.
Proof.
  intros q G c pub T x al be ga de k c1 p signals ES HP L.
  assert (LK : List.length (rleo_gamma G k) = pub).
  { unfold generate_setup in ES. destruct (er1cs_to_eap q c T) as [[[[[l r] e] o] c2]|]; [|discriminate].
    unfold setup_keys in ES. destruct (_ && _)%bool; [|discriminate]. destruct (Nat.leb _ _); [discriminate|].
    destruct (feval_poly q (domain_poly q (ngates T)) x); [|discriminate]. destruct (finv q de); [|discriminate]. destruct (finv q ga); [|discriminate].
    destruct (wire_keys _ _ _ _ _ _ _ _ _ _ _) as [ks|] eqn:EW; [|discriminate]. injection ES as <- <-. cbn [rleo_gamma].
    rewrite map_length, firstn_length. enough (List.length ks = wlen T) by lia.
    revert EW. generalize 0%nat as i. generalize (wlen T) as n. revert ks. clear. intros ks n. revert ks. induction n as [|n IH]; intros ks i; cbn [wire_keys].
    - intros [= <-]. reflexivity.
    - destruct (wire_key _ _ _ _ _ _ _ _); [|discriminate]. destruct (wire_keys q (feval_poly q) n (S i) x al be l r e o) as [ks'|] eqn:E; [|discriminate].
      intros [= <-]. cbn. f_equal. eapply IH; eauto. }
  unfold verify_proof. rewrite LK. destruct (Nat.eqb_spec (List.length signals) pub); [contradiction|reflexivity].
Qed.
Print Assumptions C49_signal_count.
Definition count_checked : bool :=
  match outcome_of 101 G101 square_system 2 [1; 9; 3; 9] 5 11 12 13 14 with
  | Some (k, _, p, true) =>
      match verify_proof G101 k p [1], verify_proof G101 k p [1; 9; 0], verify_proof G101 k p [1; 7] with
      | Some false, Some false, Some false => true
      | _, _, _ => false
      end
  | _ => false
  end.
Example C49_case : count_checked = true.
Proof. vm_compute. reflexivity. Qed.

(** C56, C57: arithmetic programs compile to gates that mean the program. *)
Require Import ZArith Znumtheory Lia Bool Permutation Ascii String List.
Require Import Verif.Cong Verif.FqModel Verif.FqProofs Verif.FactorModel Verif.FactorSpec Verif.FactorProofs
  Verif.ExprModel Verif.ExprSpec Verif.ExprProofs Verif.ExprProofs2 Verif.PropsFactor.
Import ListNotations.
Open Scope Z_scope.

(** ** C56.  sort: any permutation; hash: any function, as long as no two different gates of this
    program share an identifier. *)
Theorem C56_sound : forall sort hash q gx, (forall l, Permutation (sort l) l) -> prime q ->
  forall p c f tr, execute sort hash q p = Some (c, f, tr) -> no_collision tr ->
  forall w, all_hold q gx w (gates c) ->
  Forall (fun e => divisors_ok q gx w (fst e) /\ divisors_ok q gx w (snd e)) (equalities p) -> divisors_ok q gx w (result p) ->
  Forall (fun e => exists a b, means q gx w (fst e) a /\ means q gx w (snd e) b /\ a ==[q] b) (equalities p) /\
  means q gx w (result p) (lin w f) /\
  (is_single_number f = true \/ exists o, means q gx w (result p) (w o)).
Proof. intros sort hash q gx HS Hq p c f tr H NC w HA HD HR. now apply (execute_sound sort HS hash q Hq gx p c f tr). Qed.
Print Assumptions C56_sound.

(** Inputs for which the equalities hold and no divisor is zero extend to all wires. *)
Theorem C56_complete : forall sort hash q gx, (forall l, Permutation (sort l) l) -> prime q ->
  forall p c f tr, execute sort hash q p = Some (c, f, tr) -> no_collision tr ->
  (forall x, In x (flat_map (fun e => vars (fst e) ++ vars (snd e)) (equalities p)) \/ In x (vars (result p)) -> ~ In x (known c)) ->
  forall w,
  Forall (fun e => divisors_ok q gx w (fst e) /\ divisors_ok q gx w (snd e)) (equalities p) -> divisors_ok q gx w (result p) ->
  Forall (fun e => forall a b, means q gx w (fst e) a -> means q gx w (snd e) b -> a ==[q] b) (equalities p) ->
  exists w', (forall x, In x (flat_map (fun e => vars (fst e) ++ vars (snd e)) (equalities p)) \/ In x (vars (result p)) -> w' x = w x) /\
             all_hold q gx w' (gates c).
Proof.
  intros sort hash q gx HS Hq p c f tr H NC AP w HD HR HE.
  exact (execute_complete sort HS hash q Hq gx p c f tr H NC AP w HD HR HE).
Qed.
Print Assumptions C56_complete.

(** A boolean check of [no_collision], for the examples. *)
Definition factor_eqb (a b : factor) : bool :=
  ttype_eqb (ttyp (ftok a)) (ttyp (ftok b)) && String.eqb (ident (ftok a)) (ident (ftok b)) && Z.eqb (mult a) (mult b).
Fixpoint factors_eqb (a b : factors) : bool :=
  match a, b with
  | [], [] => true
  | x :: a', y :: b' => factor_eqb x y && factors_eqb a' b'
  | _, _ => false
  end.
Definition gkind_eqb (a b : gkind) : bool :=
  match a, b with GMul, GMul | GReturnMul, GReturnMul | GBase, GBase | GEqual, GEqual | GAdd, GAdd | GSum, GSum | GBit, GBit => true | _, _ => false end.
Definition same_gateb (g1 g2 : gate) : bool :=
  gkind_eqb (gtyp g1) (gtyp g2) && factors_eqb (gexp g1) (gexp g2) && factors_eqb (gout g1) (gout g2) &&
  (factors_eqb (gleft g1) (gleft g2) && factors_eqb (gright g1) (gright g2) ||
   factors_eqb (gleft g1) (gright g2) && factors_eqb (gright g1) (gleft g2)).
Definition no_collisionb (tr : list gate) : bool :=
  forallb (fun g1 => forallb (fun g2 => negb (String.eqb (gid g1) (gid g2)) || same_gateb g1 g2) tr) tr.
Lemma factors_eqb_eq a : forall b, factors_eqb a b = true -> a = b.
Proof.
  induction a as [|[[t i] m] a IH]; intros [|[[t' i'] m'] b]; cbn; try discriminate; auto. intros H. apply andb_prop in H. destruct H as [H1 H2].
  unfold factor_eqb in H1. cbn in H1. apply andb_prop in H1. destruct H1 as [H1 H3]. apply andb_prop in H1. destruct H1 as [H0 H1].
  apply ttype_eqb_eq in H0. apply String.eqb_eq in H1. apply Z.eqb_eq in H3. subst. now rewrite (IH b).
Qed.
Lemma no_collisionb_ok tr : no_collisionb tr = true -> no_collision tr.
Proof.
  unfold no_collisionb. intros H g1 g2 H1 H2 E. rewrite forallb_forall in H. specialize (H g1 H1). rewrite forallb_forall in H.
  specialize (H g2 H2). rewrite E, String.eqb_refl in H. cbn [negb orb] in H. unfold same_gateb in H.
  apply andb_prop in H. destruct H as [H HL]. apply andb_prop in H. destruct H as [H HO]. apply andb_prop in H. destruct H as [HT HE].
  split; [destruct (gtyp g1), (gtyp g2); try discriminate; reflexivity|]. split; [now apply factors_eqb_eq|]. split; [now apply factors_eqb_eq|].
  apply orb_prop in HL. destruct HL as [HL|HL]; apply andb_prop in HL; destruct HL as [A B]; apply factors_eqb_eq in A; apply factors_eqb_eq in B; auto.
Qed.

(** equal(x*y, z/y); return base(x) + 3*(y*x), where y*x shares the gate of x*y. *)
Definition C56_prog : prog :=
  Prog [(EBin "*" (EVar "x") (EVar "y"), EBin "/" (EVar "z") (EVar "y"))]
       (EBin "+" (EBase (EVar "x")) (EBin "*" (ENum "3") (EBin "*" (EVar "y") (EVar "x")))).
Definition C56_in (s : string) : Z := if String.eqb s "x" then 2 else if String.eqb s "y" then 3 else if String.eqb s "z" then 18 else 0.
Lemma prime_101 : prime 101.
Proof.
  apply prime_intro; [lia|]. intros n Hn. apply Zgcd_1_rel_prime.
  assert (H : forall k, (k < 100)%nat -> Z.gcd (Z.of_nat (S k)) 101 = 1).
  { intros k Hk. do 100 (destruct k as [|k]; [reflexivity|]). lia. }
  specialize (H (Z.to_nat (n - 1)) ltac:(lia)). replace (Z.of_nat (S (Z.to_nat (n - 1)))) with n in H by lia. exact H.
Qed.
Example C56_case : exists c f tr, execute sort_factors toy_hash 101 C56_prog = Some (c, f, tr) /\
  no_collision tr /\ List.length (gates c) = 5%nat /\ List.length tr = 6%nat /\
  (forall x, In x (flat_map (fun e => vars (fst e) ++ vars (snd e)) (equalities C56_prog)) \/ In x (vars (result C56_prog)) -> ~ In x (known c)) /\
  Forall (fun e => divisors_ok 101 (fun k => k + 5) C56_in (fst e) /\ divisors_ok 101 (fun k => k + 5) C56_in (snd e)) (equalities C56_prog) /\
  divisors_ok 101 (fun k => k + 5) C56_in (result C56_prog) /\
  Forall (fun e => forall a b, means 101 (fun k => k + 5) C56_in (fst e) a -> means 101 (fun k => k + 5) C56_in (snd e) b -> a ==[101] b) (equalities C56_prog) /\
  exists w, all_hold 101 (fun k => k + 5) w (gates c) /\ w "x"%string = 2.
Proof.
  destruct (execute sort_factors toy_hash 101 C56_prog) as [[[c f] tr]|] eqn:E; [|vm_compute in E; discriminate].
  exists c, f, tr. split; auto.
  assert (H : no_collisionb tr = true /\ List.length (gates c) = 5%nat /\ List.length tr = 6%nat /\
    forallb (fun x => negb (existsb (String.eqb x) (known c))) ["x"; "y"; "z"]%string = true).
  { vm_compute in E. injection E as <- _ <-. vm_compute. auto. }
  destruct H as [H1 [H2 [H3 H4]]].
  assert (AP : forall x, In x (flat_map (fun e => vars (fst e) ++ vars (snd e)) (equalities C56_prog)) \/ In x (vars (result C56_prog)) -> ~ In x (known c)).
  { intros x Hx Hk. rewrite forallb_forall in H4. specialize (H4 x). assert (Hi : In x ["x"; "y"; "z"]%string) by (cbn in *; tauto).
    specialize (H4 Hi). assert (X : existsb (String.eqb x) (known c) = true) by (apply existsb_exists; exists x; split; auto; apply String.eqb_refl).
    rewrite X in H4. discriminate. }
  assert (D1 : Forall (fun e => divisors_ok 101 (fun k => k + 5) C56_in (fst e) /\ divisors_ok 101 (fun k => k + 5) C56_in (snd e)) (equalities C56_prog)).
  { constructor; [|constructor]. split; cbn [fst snd divisors_ok]; (split; [exact I|split; [exact I|]]); intros EO; [discriminate EO|]. intros M. inversion M as [|? ? X| | | | |]; subst. cbn in X. destruct X as [k X]. lia. }
  assert (D2 : divisors_ok 101 (fun k => k + 5) C56_in (result C56_prog)).
  { cbn [C56_prog result divisors_ok]. repeat (split; try exact I); intros X; discriminate X. }
  assert (D3 : Forall (fun e => forall a b, means 101 (fun k => k + 5) C56_in (fst e) a -> means 101 (fun k => k + 5) C56_in (snd e) b -> a ==[101] b) (equalities C56_prog)).
  { constructor; [|constructor]. intros a b Ma Mb. cbn [fst snd] in *.
    inversion Ma as [| | | |l1 r1 a1 b1 v1 A1 B1 V1| |]; subst. inversion Mb as [| | | | |l2 r2 a2 b2 v2 A2 B2 V2|]; subst.
    inversion A1 as [|? ? X1| | | | |]; subst. inversion B1 as [|? ? X2| | | | |]; subst.
    inversion A2 as [|? ? X3| | | | |]; subst. inversion B2 as [|? ? X4| | | | |]; subst. cbn in X1, X2, X3, X4.
    rewrite X1, X2 in V1. rewrite X3, X4 in V2. rewrite V1. apply (cong_cancel 101 prime_101 3).
    - intros [k X]. lia.
    - rewrite (Z.mul_comm 3 b), V2. reflexivity. }
  repeat (split; [auto; now apply no_collisionb_ok|]).
  destruct (C56_complete sort_factors toy_hash 101 (fun k => k + 5) sort_factors_perm prime_101 C56_prog c f tr E (no_collisionb_ok tr H1) AP C56_in D1 D2 D3) as [w [W1 W2]].
  exists w. split; auto. rewrite W1; [reflexivity|]. right. cbn. auto.
Qed.

(** ** C57.  A divisor that folds to the constant zero gives zero, with no constraint and no error. *)
Theorem C57_zero_divisor : forall sort hash q c l s, prime q -> Forall plain l -> l <> [] ->
  exists f, compile_op sort hash q c "/" l [Fac (Tok TNumber s) 0] = Some (c, f) /\ forall w, lin w f ==[q] 0.
Proof.
  intros sort hash q c l s Hq Pl Nl. unfold compile_op. cbn [String.eqb]. change (String.eqb "/" "*") with false. change (String.eqb "/" "/") with true.
  cbn [is_single_number ftok ttyp ttype_eqb invert_factors mult]. rewrite finv_0.
  change (if is_number (Fac (Tok TNumber s) 0) then Tok TNumber (dec 0) else Tok TNumber s) with (Tok TNumber (dec 0)).
  assert (P0 : Forall plain [Fac (Tok TNumber (dec 0)) 0]).
  { constructor; [right; reflexivity|constructor]. }
  destruct (mul_factors_some q l _ Pl P0 (or_intror (conj eq_refl Nl))) as [f [E _]]. exists f. rewrite E. split; auto.
  intros w. rewrite (mul_factors_val q w l [Fac (Tok TNumber (dec 0)) 0] f (or_intror (conj eq_refl Nl)) E). cbn. apply cong_eq. ring.
Qed.
Print Assumptions C57_zero_divisor.

(** So "y/(x-x)" is accepted and is the constant 0: the gates hold for every assignment, although
    no value times x-x is y. *)
Theorem C57_quotient_refuted : exists (sort : factors -> factors) hash q gx e c f tr w, (forall l, Permutation (sort l) l) /\ prime q /\
  compile_expr sort hash q (Coll [] []) e [] = Some (c, f, tr) /\ no_collision tr /\ all_hold q gx w (gates c) /\
  ~ exists v, means q gx w e v.
Proof.
  exists sort_factors, toy_hash, 101, (fun _ => 0), (EBin "/" (EVar "y") (EBin "-" (EVar "x") (EVar "x"))).
  eexists _, _, _, (fun _ => 1). split; [apply sort_factors_perm|]. split; [apply prime_101|]. split; [vm_compute; reflexivity|].
  split; [intros g1 g2 []|]. split; [constructor|]. intros [v M].
  inversion M as [| | | | |l r a b v' A B V|]; subst. inversion A as [|? ? X1| | | | |]; subst.
  inversion B as [| | |l' r' a' b' v' A' B' V'| | |]; subst. inversion A' as [|? ? X2| | | | |]; subst. inversion B' as [|? ? X3| | | | |]; subst.
  rewrite X2, X3 in V'. rewrite V', X1 in V. destruct V as [k V]. lia.
Qed.
Print Assumptions C57_quotient_refuted.
Example C57_case : Forall plain (wire "y" 1) /\ wire "y" 1 <> [].
Proof. split; [apply wire_plain|discriminate]. Qed.

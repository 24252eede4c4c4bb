(** C34-C38: factor lists, common factors, gate identifiers. *)
Require Import ZArith Znumtheory Lia Bool Permutation Ascii String List.
Require Import Verif.Cong Verif.FqModel Verif.FqProofs Verif.Pocklington Verif.FactorModel Verif.FactorSpec Verif.FactorProofs.
Import ListNotations.
Open Scope Z_scope.

(** ** C34 *)
Theorem C34_add : forall q w l r, lin w (add_factors q l r) ==[q] lin w l + lin w r.
Proof. intros. apply add_factors_val. Qed.
Print Assumptions C34_add.

(** One side a single number; [plain] lists (inputs, wires and numbers) never panic. *)
Theorem C34_mul : forall q l r, Forall plain l -> Forall plain r ->
  (is_single_number l = true /\ r <> [] \/ is_single_number r = true /\ l <> []) ->
  exists f, mul_factors q l r = Some f /\ forall w, lin w f ==[q] lin w l * lin w r.
Proof.
  intros q l r Hl Hr H. destruct (mul_factors_some q l r Hl Hr H) as [f [E _]]. exists f. split; auto.
  intros w. now apply mul_factors_val.
Qed.
Print Assumptions C34_mul.

Theorem C34_negate : forall w f, lin w (negate_factors f) = - lin w f.
Proof. intros. apply negate_val. Qed.
Print Assumptions C34_negate.

Theorem C34_invert : forall q x, prime q -> is_number x = true -> ~ mult x ==[q] 0 ->
  exists f, invert_factors q [x] = Some f /\ forall w, lin w [x] * lin w f ==[q] 1.
Proof.
  intros q x Hq Hx Hn. destruct (finv_prime q (mult x) Hq Hn) as [i [E [_ HI]]].
  cbn [invert_factors]. rewrite E, Hx. eexists. split; [reflexivity|]. intros w.
  cbn [lin]. rewrite (fac_val_number w x Hx). cbn. rewrite !Z.add_0_r. exact HI.
Qed.
Print Assumptions C34_invert.

(** Both sides with more than one factor: mulFactors does not multiply them out. *)
Theorem C34_mul_general_refuted : exists q w l r f, prime q /\ Forall plain l /\ Forall plain r /\ l <> [] /\ r <> [] /\
  mul_factors q l r = Some f /\ ~ lin w f ==[q] lin w l * lin w r.
Proof.
  exists 7, (fun _ => 1), [Fac (arg "x") 1; Fac (arg "y") 1], [Fac (Tok TNumber "1") 1; Fac (Tok TNumber "2") 2].
  eexists. split; [apply prime_intro; [lia|]; intros n Hn; apply Zgcd_1_rel_prime; assert (X : n = 1 \/ n = 2 \/ n = 3 \/ n = 4 \/ n = 5 \/ n = 6) by lia;
          destruct X as [->|[->|[->|[->|[->| ->]]]]]; reflexivity|].
  split; [repeat constructor|]. split; [constructor; [right; reflexivity|constructor; [right; reflexivity|constructor]]|].
  split; [discriminate|]. split; [discriminate|]. split; [reflexivity|].
  intros H; apply cong_mod_iff in H; [vm_compute in H; discriminate|lia].
Qed.
Print Assumptions C34_mul_general_refuted.

Definition C34_l : factors := [Fac (arg "x") 3; Fac (arg "y") 5; Fac (Tok TNumber "4") 4].
Definition C34_r : factors := [Fac (Tok TNumber "6") 6; Fac (arg "x") 8].
Example C34_case :
  add_factors 11 C34_l C34_r = [Fac (arg "y") 5; Fac (Tok TNumber "10") 10] /\
  Forall plain C34_l /\ is_single_number [Fac (Tok TNumber "6") 6] = true /\
  mul_factors 11 C34_l [Fac (Tok TNumber "6") 6] = Some [Fac (arg "x") 7; Fac (arg "y") 8; Fac (Tok TNumber "2") 2] /\
  invert_factors 11 [Fac (Tok TNumber "6") 6] = Some [Fac (Tok TNumber "2") 2].
Proof.
  split; [vm_compute; reflexivity|]. split; [repeat (constructor; [first [left; reflexivity|right; reflexivity]|]); constructor|].
  split; [reflexivity|]. split; vm_compute; reflexivity.
Qed.

(** ** C35 *)
Theorem C35_extract_constant : forall sort q, (forall l, Permutation (sort l) l) ->
  forall l r k l' r', extract_constant sort q l r = Some (k, l', r') ->
  forall w, k * lin w l' * lin w r' ==[q] lin w l * lin w r.
Proof. intros sort q HS l r k l' r' H w. eapply extract_constant_val; eauto. Qed.
Print Assumptions C35_extract_constant.

(** It aborts exactly when one side has no non-zero coefficient. *)
Theorem C35_aborts_iff : forall sort q l r,
  extract_constant sort q l r = None <-> Forall (fun y => mult y = 0) l \/ Forall (fun y => mult y = 0) r.
Proof.
  intros sort q l r.
  assert (D : forall f : factors, Forall (fun y => mult y = 0) f \/ Exists (fun y => mult y <> 0) f).
  { induction f as [|x f [IH|IH]]; [left; constructor| |right; now apply Exists_cons_tl].
    destruct (Z.eq_dec (mult x) 0); [left; now constructor|right; now apply Exists_cons_hd]. }
  assert (N : forall f : factors, Forall (fun y => mult y = 0) f -> Exists (fun y => mult y <> 0) f -> False).
  { intros f A B. apply Exists_exists in B. destruct B as [y [Hy B]]. rewrite Forall_forall in A. auto. }
  assert (S := extract_constant_some q sort l r). split.
  - intros E. destruct (D l) as [A|A]; auto. destruct (D r) as [B|B]; auto.
    destruct S as [_ S]. destruct (S (conj A B)) as [x Hx]. congruence.
  - intros H. destruct (extract_constant sort q l r) as [x|]; auto.
    destruct S as [S _]. destruct S as [A B]; [eauto|]. destruct H as [H|H]; destruct (N _ H); auto.
Qed.
Print Assumptions C35_aborts_iff.

(** A concrete sort for the examples: insertion by identifier. *)
Fixpoint insert_factor (x : factor) (f : factors) : factors :=
  match f with
  | [] => [x]
  | y :: f' => match String.compare (ident (ftok x)) (ident (ftok y)) with
               | Lt => y :: insert_factor x f'
               | _ => x :: y :: f'
               end
  end.
Definition sort_factors (f : factors) : factors := fold_right insert_factor [] f.
Lemma insert_factor_perm x f : Permutation (insert_factor x f) (x :: f).
Proof.
  induction f as [|y f IH]; [reflexivity|]. cbn [insert_factor].
  destruct (String.compare _ _); try reflexivity. rewrite IH. apply perm_swap.
Qed.
Lemma sort_factors_perm f : Permutation (sort_factors f) f.
Proof. induction f as [|x f IH]; [reflexivity|]. cbn. now rewrite insert_factor_perm, IH. Qed.
Fixpoint desc (f : factors) : Prop :=
  match f with
  | x :: (y :: _) as f' => String.compare (ident (ftok x)) (ident (ftok y)) <> Lt /\ desc f'
  | _ => True
  end.
Lemma insert_factor_desc x f : desc f -> desc (insert_factor x f).
Proof.
  induction f as [|y f IH]; intros H; [exact I|]. cbn [insert_factor].
  destruct (String.compare (ident (ftok x)) (ident (ftok y))) eqn:E.
  1,3: split; [congruence|exact H].
  assert (A : String.compare (ident (ftok y)) (ident (ftok x)) <> Lt) by (rewrite String.compare_antisym, E; discriminate).
  destruct f as [|z f]; [split; [exact A|exact I]|]. destruct H as [H1 H2]. specialize (IH H2). cbn [insert_factor] in *.
  destruct (String.compare (ident (ftok x)) (ident (ftok z))); split; auto.
Qed.
Lemma sort_desc f : desc f -> sort_factors f = f.
Proof.
  induction f as [|x f IH]; [reflexivity|]. intros H. cbn. fold (sort_factors f). rewrite IH by (destruct f; [exact I|apply H]).
  destruct f as [|y f]; [reflexivity|]. cbn [insert_factor]. destruct H as [H _]. now destruct (String.compare _ _).
Qed.
Lemma sort_factors_idem f : sort_factors (sort_factors f) = sort_factors f.
Proof. apply sort_desc. induction f as [|x f IH]; [exact I|]. now apply insert_factor_desc. Qed.
(** A toy hash with long decimal values. *)
Fixpoint toy_fold (s : string) (a : Z) : Z :=
  match s with EmptyString => a | String c s' => toy_fold s' ((a * 257 + Z.of_nat (nat_of_ascii c)) mod 999999999999989) end.
Definition toy_hash (s : string) : Z := 10 ^ 16 + toy_fold s 0.

Example C35_case : extract_constant sort_factors 101 [Fac (arg "x") 6; Fac (arg "y") 9] [Fac (arg "z") 4] =
    Some (12, [Fac (arg "y") 3; Fac (arg "x") 2], [Fac (arg "z") 1]) /\
  extract_constant sort_factors 101 [Fac (arg "x") 0] [Fac (arg "z") 4] = None.
Proof. split; vm_compute; reflexivity. Qed.

(** ** C36 *)

(** What the gate and the returned wire say: gr*l + gl*r, where gl and gr are the common factors
    of the two operands (first coefficient if there is only one). *)
Theorem C36_value : forall sort hash q gx, (forall l, Permutation (sort l) l) ->
  forall c l r gl gr c' f w, gcd_of l = Some gl -> gcd_of r = Some gr ->
  compile_add_gate sort hash q c l r = Some (c', f) -> gates c' <> gates c ->
  all_hold q gx w (gates c') ->
  lin w f ==[q] gr * lin w l + gl * lin w r.
Proof.
  intros sort hash q gx HS c l r gl gr c' f w Hgl Hgr H Hne HA. unfold compile_add_gate in H.
  destruct (extract_constant sort q l r) as [[[k l'] r']|] eqn:E; [|discriminate].
  destruct (collect _ _ _ _ _) as [[c1 i]|] eqn:EC; [|discriminate]. injection H as <- <-.
  apply collect_inv in EC. destruct EC as [g' [EG [Ei [[-> _]|[-> _]]]]]; [easy|].
  apply Forall_app in HA. destruct HA as [_ HA]. inversion HA as [|? ? HG _]; subst.
  destruct (with_id_lin sort HS hash w _ _ EG) as [Ht [Hl _]]. cbn in Ht, Hl.
  unfold gate_holds in HG. cbn [gtyp gleft gout] in HG. rewrite Ht, Hl in HG. cbn [wire lin] in HG.
  unfold extract_constant in E. destruct (factor_signature sort l) as [[gl1 l1]|] eqn:El; [|discriminate].
  destruct (factor_signature sort r) as [[gr1 r1]|] eqn:Er; [|discriminate]. injection E as <- <- <-.
  assert (gl1 = gl) by (unfold factor_signature, extract_gcd in El; rewrite Hgl in El; destruct (gl =? 0); [discriminate|injection El as <- _; reflexivity]).
  assert (gr1 = gr) by (unfold factor_signature, extract_gcd in Er; rewrite Hgr in Er; destruct (gr =? 0); [discriminate|injection Er as <- _; reflexivity]).
  subst gl1 gr1.
  destruct (factor_signature_val sort HS w l gl l1 El) as [_ <-]. destruct (factor_signature_val sort HS w r gr r1 Er) as [_ <-].
  unfold wire. cbn [lin]. unfold fac_val in *. cbn [ftok arg ttyp mult ident] in *. rewrite add_factors_val in HG.
  rewrite Z.add_0_r, fmul_cong. rewrite Z.add_0_r, Z.mul_1_l in HG. rewrite <- HG. apply cong_eq. ring.
Qed.
Print Assumptions C36_value.

(** The returned factor is the wire of the new gate, which has a place in the trace. *)
Theorem C36_wire : forall sort hash q c l r c' f, compile_add_gate sort hash q c l r = Some (c', f) -> gates c' <> gates c ->
  exists g, gates c' = gates c ++ [g] /\ gnonew g = false /\ map (fun x => ident (ftok x)) f = [gid g] /\
    map (fun x => ident (ftok x)) (gout g) = [gid g].
Proof.
  intros sort hash q c l r c' f H Hne. unfold compile_add_gate in H.
  destruct (extract_constant sort q l r) as [[[k l'] r']|]; [|discriminate].
  destruct (collect _ _ _ _ _) as [[c1 i]|] eqn:EC; [|discriminate]. injection H as <- <-.
  apply collect_inv in EC. destruct EC as [g' [EG [Ei [[-> _]|[-> _]]]]]; [easy|].
  assert (N : gnonew g' = false).
  { revert EG. unfold with_id. cbn [gid]. unfold set_id. destruct (prefix16 _); [|discriminate]. intros [= <-]. reflexivity. }
  eexists. split; [reflexivity|]. cbn. subst i. auto.
Qed.
Print Assumptions C36_wire.

Theorem C36_sum_when_coprime : forall sort hash q gx, (forall l, Permutation (sort l) l) ->
  forall c l r c' f w, gcd_of l = Some 1 -> gcd_of r = Some 1 ->
  compile_add_gate sort hash q c l r = Some (c', f) -> gates c' <> gates c ->
  all_hold q gx w (gates c') -> lin w f ==[q] lin w l + lin w r.
Proof. intros. rewrite (C36_value sort hash q gx H c l r 1 1 c' f w) by auto. apply cong_eq. ring. Qed.
Print Assumptions C36_sum_when_coprime.

Theorem C36_sum_refuted : exists sort hash q gx l r c' f w, (forall l, Permutation (sort l) l) /\ 
  compile_add_gate sort hash q (Coll [] []) l r = Some (c', f) /\ gates c' <> [] /\
  all_hold q gx w (gates c') /\ ~ lin w f ==[q] lin w l + lin w r.
Proof.
  exists sort_factors, toy_hash, 101, (fun _ => 0), [Fac (arg "x") 2], [Fac (arg "y") 2].
  eexists _, _, (fun s => if String.eqb s "x" then 1 else if String.eqb s "y" then 1 else 2).
  split; [apply sort_factors_perm|]. split; [vm_compute; reflexivity|]. split; [discriminate|].
  split; [constructor; [|constructor]; exists 0; vm_compute; reflexivity|].
  intros H; apply cong_mod_iff in H; [vm_compute in H; discriminate|lia].
Qed.
Print Assumptions C36_sum_refuted.

Example C36_case : gcd_of [Fac (arg "x") 2; Fac (arg "y") 3] = Some 1 /\ gcd_of [Fac (arg "z") 1] = Some 1 /\
  exists c' f, compile_add_gate sort_factors toy_hash 101 (Coll [] []) [Fac (arg "x") 2; Fac (arg "y") 3] [Fac (arg "z") 1] = Some (c', f) /\
  gates c' <> [] /\
  all_hold 101 (fun _ => 0) (fun s => if String.eqb s "x" then 10 else if String.eqb s "y" then 20 else if String.eqb s "z" then 5 else 85) (gates c').
Proof.
  split; [reflexivity|]. split; [reflexivity|]. eexists _, _. split; [vm_compute; reflexivity|].
  split; [discriminate|]. constructor; [|constructor]. exists 0. vm_compute. reflexivity.
Qed.

(** ** C37 *)
Lemma extract_gcd_one f : gcd_of f = Some 1 -> extract_gcd f = Some (f, 1).
Proof.
  intros H. unfold extract_gcd. rewrite H. cbn [Z.eqb]. f_equal. f_equal. induction f as [|x f IH]; [reflexivity|].
  clear H IH. induction (x :: f) as [|[t m] l IH]; [reflexivity|]. cbn [map ftok mult]. now rewrite Z.div_1_r, IH.
Qed.

(** For any hash and any idempotent permutation in place of the sort: once l*r is compiled,
    equal(l,r) changes nothing. *)
Theorem C37_equality_dropped : forall sort hash q, (forall l, sort (sort l) = sort l) ->
  forall c l r c1 f, gcd_of l = Some 1 -> gcd_of r = Some 1 ->
  compile_mul sort hash q c l r = Some (c1, f) -> compile_equal sort hash c1 l r = Some c1.
Proof.
  intros sort hash q HI c l r c1 f Hl Hr H. unfold compile_mul, extract_constant, factor_signature in H.
  rewrite (extract_gcd_one l Hl), (extract_gcd_one r Hr) in H.
  destruct (collect _ _ _ _ _) as [[c2 i]|] eqn:EC; [|discriminate]. injection H as <- <-.
  apply collect_inv in EC. destruct EC as [g' [EG [Ei HC]]].
  unfold with_id in EG. cbn [gid] in EG. unfold set_id in EG. cbn [gleft gright gexp gout] in EG. rewrite !HI in EG.
  unfold compile_equal, collect, with_id. cbn [gid]. unfold set_id. cbn [gleft gright gexp gout].
  destruct (prefix16 _) as [i0|]; [|discriminate]. injection EG as <-. cbn [gid] in Ei. subst i0. cbn [gid].
  assert (X : contains c2 i = true).
  { unfold contains. apply existsb_exists. exists i. split; [|apply String.eqb_refl].
    destruct HC as [[-> HC]|[-> _]]; [auto|now left]. }
  rewrite X. reflexivity.
Qed.
Print Assumptions C37_equality_dropped.

(** So the compiled gates do not imply the equality: for x*y followed by equal(x,y) on any two
    inputs, some assignment with x <> y satisfies every gate. *)
Theorem C37_equality_not_enforced : forall sort hash q gx,
  (forall l, Permutation (sort l) l) -> (forall l, sort (sort l) = sort l) -> 1 < q ->
  forall x y c1 c2 f, x <> y -> ~ In x (known c1) -> ~ In y (known c1) ->
  compile_mul sort hash q (Coll [] []) (wire x 1) (wire y 1) = Some (c1, f) ->
  compile_equal sort hash c1 (wire x 1) (wire y 1) = Some c2 ->
  exists w, all_hold q gx w (gates c2) /\ ~ w x ==[q] w y.
Proof.
  intros sort hash q gx HP HI Hq x y c1 c2 f Hxy Hx Hy HM HE.
  rewrite (C37_equality_dropped sort hash q HI (Coll [] []) (wire x 1) (wire y 1) c1 f eq_refl eq_refl HM) in HE. injection HE as <-.
  unfold compile_mul, extract_constant, factor_signature in HM. rewrite !extract_gcd_one in HM by reflexivity.
  destruct (collect _ _ _ _ _) as [[c2 i]|] eqn:EC; [|discriminate]. injection HM as <- <-.
  apply collect_inv in EC. destruct EC as [g' [EG [Ei [[_ []]|[-> _]]]]]. cbn [known] in Hx, Hy.
  exists (fun s => if String.eqb s x then 1 else 0). split.
  - destruct (with_id_lin sort HP hash (fun s => if String.eqb s x then 1 else 0) _ _ EG) as [Ht [Hl [Hr _]]]. cbn [gtyp gleft gright] in Ht, Hl, Hr.
    cbn [gates app]. constructor; [|constructor]. unfold gate_holds. cbn [gtyp gleft gright gout]. rewrite Ht, Hl, Hr.
    rewrite !(lin_perm _ _ _ (HP _)). cbn. rewrite String.eqb_refl.
    destruct (String.eqb_spec y x) as [->|_]; [easy|]. rewrite Ei. destruct (String.eqb_spec i x) as [->|_]; [destruct Hx; now left|].
    reflexivity.
  - rewrite String.eqb_refl. destruct (String.eqb_spec y x) as [->|_]; [easy|]. intros [k Hk]. 
    assert (q * k = 1) by lia. apply Z.eq_mul_1_nonneg in H; lia.
Qed.
Print Assumptions C37_equality_not_enforced.
Example C37_case : (forall l, sort_factors (sort_factors l) = sort_factors l) /\ gcd_of (wire "x" 1) = Some 1 /\
  (exists c1 f, compile_mul sort_factors toy_hash 101 (Coll [] []) (wire "x" 1) (wire "y" 1) = Some (c1, f) /\
   compile_equal sort_factors toy_hash c1 (wire "x" 1) (wire "y" 1) = Some c1 /\ List.length (gates c1) = 1%nat /\
   ~ In "x"%string (known c1) /\ ~ In "y"%string (known c1)) /\
  (exists c1, compile_equal sort_factors toy_hash (Coll [] []) (wire "x" 1) (wire "y" 1) = Some c1 /\ List.length (gates c1) = 1%nat).
Proof.
  split; [exact sort_factors_idem|]. split; [reflexivity|]. split.
  - eexists _, _. split; [vm_compute; reflexivity|]. split; [vm_compute; reflexivity|]. split; [reflexivity|].
    split; cbn; intros [H|[]]; discriminate.
  - eexists. split; [vm_compute; reflexivity|reflexivity].
Qed.

(** ** C38 *)
Theorem C38_commutative : forall sort hash q c l r c1 f,
  compile_mul sort hash q c l r = Some (c1, f) -> compile_mul sort hash q c1 r l = Some (c1, f).
Proof.
  intros sort hash q c l r c1 f H. unfold compile_mul, extract_constant in *.
  destruct (factor_signature sort l) as [[gl l']|]; [|discriminate].
  destruct (factor_signature sort r) as [[gr r']|]; [|discriminate].
  destruct (collect sort hash c _ _) as [[c2 i]|] eqn:EC; [|discriminate]. injection H as <- <-.
  apply collect_inv in EC. destruct EC as [g' [EG [Ei HC]]].
  unfold with_id in EG. cbn [gid] in EG. unfold set_id in EG. cbn [gleft gright gexp gout] in EG.
  unfold collect, with_id. cbn [gid]. unfold set_id. cbn [gleft gright gexp gout].
  rewrite (Z.add_comm (hash_factors hash (sort r'))).
  destruct (prefix16 _) as [i0|]; [|discriminate]. injection EG as <-. cbn [gid] in Ei. subst i0. cbn [gid].
  assert (X : contains c2 i = true).
  { unfold contains. apply existsb_exists. exists i. split; [|apply String.eqb_refl].
    destruct HC as [[-> HC]|[-> _]]; [auto|now left]. }
  rewrite X. unfold fmul. now rewrite (Z.mul_comm gr gl).
Qed.
Print Assumptions C38_commutative.
Example C38_case : exists c1 f,
  compile_mul sort_factors toy_hash 101 (Coll [] []) [Fac (arg "x") 6; Fac (arg "y") 9] [Fac (arg "z") 4] = Some (c1, f) /\
  compile_mul sort_factors toy_hash 101 c1 [Fac (arg "z") 4] [Fac (arg "x") 6; Fac (arg "y") 9] = Some (c1, f) /\
  List.length (gates c1) = 1%nat.
Proof. eexists _, _. split; [vm_compute; reflexivity|]. split; [vm_compute; reflexivity|reflexivity]. Qed.

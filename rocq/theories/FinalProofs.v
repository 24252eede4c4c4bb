(** The final exponentiation is the power (p^12 - 1) / Order. *)
Require Import ZArith NArith Znumtheory Setoid Morphisms Bool Lia List.
Require Import Verif.Cong Verif.Ext Verif.FqModel Verif.FqProofs Verif.Pocklington Verif.TowerModel Verif.TowerSpec Verif.TowerProofs Verif.FieldProofs Verif.FrobProofs Verif.FrobProofs2.
Open Scope Z_scope.
Opaque P.

Lemma sealed_u : { u : N | u = Z.to_N bn_u }.
Proof. exists (Z.to_N bn_u). reflexivity. Qed.
Definition uN : N := proj1_sig sealed_u.
Lemma uN_def : uN = Z.to_N bn_u. Proof. exact (proj2_sig sealed_u). Qed.
Lemma sealed_l : { l : N | l = ((Z.to_N P ^ 4 + 1 - Z.to_N P ^ 2) / Z.to_N Order)%N }.
Proof. eexists. reflexivity. Qed.
(** The hard part of the exponent. *)
Definition lamN : N := proj1_sig sealed_l.
Lemma lamN_def : lamN = ((Z.to_N P ^ 4 + 1 - Z.to_N P ^ 2) / Z.to_N Order)%N. Proof. exact (proj2_sig sealed_l). Qed.
Definition plusE : N := (pN + pN ^ 2 + pN * pN ^ 2 + 6 * (uN * uN * pN ^ 2))%N.
Definition minusE : N := (2 + 12 * (uN * pN) + 18 * (uN + uN * uN * pN) + 30 * (uN * uN) + 36 * (uN * uN * uN + uN * uN * uN * pN))%N.
Lemma exponents : plusE = (minusE + lamN)%N.
Proof. unfold plusE, minusE. rewrite lamN_def, uN_def, pN_def. vm_compute. reflexivity. Qed.
Lemma lam_order : (lamN * Z.to_N Order + pN ^ 2 = pN ^ 4 + 1)%N.
Proof. rewrite lamN_def, pN_def. vm_compute. reflexivity. Qed.

Section Powers.
Variable t : FP12.
Definition pw (x : gfp12) (e : N) : Prop := x =[FP12]= cpow t e.
Lemma pw_mul x y a b : pw x a -> pw y b -> pw (g12_mul x y) (a + b).
Proof.
  unfold pw. intros X Y. etransitivity; [apply g12_mul_ok|]. etransitivity; [apply cmul_morph; [exact X|exact Y]|]. symmetry. apply cpow_add.
Qed.
Lemma pw_square x a : pw x a -> pw (g12_square x) (a + a).
Proof.
  unfold pw. intros X. etransitivity; [apply g12_square_ok|]. etransitivity; [apply cmul_morph; [exact X|exact X]|]. symmetry. apply cpow_add.
Qed.
Lemma pw_pow (f : gfp12 -> gfp12) n x a : (forall y : FP12, cpow y n =[FP12]= f y) -> pw x a -> pw (f x) (a * n).
Proof.
  unfold pw. intros F X. etransitivity; [symmetry; apply F|]. etransitivity; [|symmetry; apply cpow_mul]. apply cpow_morph; auto.
Qed.
Definition pw_frob x a := pw_pow g12_frobenius pN x a frobenius12.
Definition pw_frob2 x a := pw_pow g12_frobenius2 (pN ^ 2) x a frobenius12_2.
Definition pw_conj x a := pw_pow g12_conj (pN ^ 6) x a frobenius12_6.
Lemma g12_exp_u (y : FP12) : cpow y uN =[FP12]= g12_exp y bn_u.
Proof. rewrite uN_def. symmetry. apply g12_exp_ok. vm_compute. discriminate. Qed.
Definition pw_u x a := pw_pow (fun y => g12_exp y bn_u) uN x a g12_exp_u.
Lemma pw_let (v : gfp12) (b : gfp12 -> gfp12) a e : pw v a -> (forall x, pw x a -> pw (b x) e) -> pw (let x := v in b x) e.
Proof. auto. Qed.
Lemma pw_t : pw t 1. Proof. unfold pw. symmetry. apply cpow_1. Qed.
End Powers.

(** The part of optate.go:308-386 after the easy part. *)
Definition hard_part (t1 : gfp12) : gfp12 :=
  let fp := g12_frobenius t1 in
  let fp2 := g12_frobenius2 t1 in
  let fp3 := g12_frobenius fp2 in
  let fu := g12_exp t1 bn_u in
  let fu2 := g12_exp fu bn_u in
  let fu3 := g12_exp fu2 bn_u in
  let y3 := g12_frobenius fu in
  let fu2p := g12_frobenius fu2 in
  let fu3p := g12_frobenius fu3 in
  let y2 := g12_frobenius2 fu2 in
  let y0 := g12_mul fp fp2 in
  let y0 := g12_mul y0 fp3 in
  let y1 := g12_conj t1 in
  let y5 := g12_conj fu2 in
  let y3 := g12_conj y3 in
  let y4 := g12_mul fu fu2p in
  let y4 := g12_conj y4 in
  let y6 := g12_mul fu3 fu3p in
  let y6 := g12_conj y6 in
  let t0 := g12_square y6 in
  let t0 := g12_mul t0 y4 in
  let t0 := g12_mul t0 y5 in
  let t1 := g12_mul y3 y5 in
  let t1 := g12_mul t1 t0 in
  let t0 := g12_mul t0 y2 in
  let t1 := g12_square t1 in
  let t1 := g12_mul t1 t0 in
  let t1 := g12_square t1 in
  let t0 := g12_mul t1 y1 in
  let t1 := g12_mul t1 y0 in
  let t0 := g12_square t0 in
  g12_mul t0 t1.
Definition easy_part (s1 : Z) (a : gfp12) : gfp12 :=
  let t1 := g12_mul (g6_neg (fst a), snd a) (g12_invert s1 a) in
  g12_mul t1 (g12_frobenius2 t1).
Lemma parts s1 a : final_exponentiation s1 a = hard_part (easy_part s1 a).
Proof. reflexivity. Qed.
Ltac pw_step :=
  lazymatch goal with
  | |- pw _ (g12_mul _ _) _ => eapply pw_mul; eassumption
  | |- pw _ (g12_square _) _ => eapply pw_square; eassumption
  | |- pw _ (g12_frobenius2 _) _ => eapply pw_frob2; eassumption
  | |- pw _ (g12_frobenius _) _ => eapply pw_frob; eassumption
  | |- pw _ (g12_conj _) _ => eapply pw_conj; eassumption
  | |- pw ?t (g12_exp ?x bn_u) _ => eapply (pw_u t x); eassumption
  end.
Lemma hard_pw (t : FP12) : hard_part t =[FP12]= cpow t (plusE + pN ^ 6 * minusE).
Proof.
  eassert (H : forall x, pw t x 1 -> pw t (hard_part x) _).
  { intros x X. cbv beta delta [hard_part].
    repeat (lazymatch goal with |- pw ?t (let x := ?v in @?b x) _ => eapply (pw_let t v b); [pw_step|intros ? ?; cbv beta] end). pw_step. }
  specialize (H t (pw_t t)).
  unfold pw in H. etransitivity; [exact H|]. clear H. apply cpow_morph; [reflexivity|]. unfold plusE, minusE. ring.
Qed.
Lemma hard_ok (t : FP12) : t *! g12_conj t =! c1 -> hard_part t =[FP12]= cpow t lamN.
Proof.
  intros H. rewrite hard_pw, exponents, cpow_add, cpow_add, cpow_mul, frobenius12_6.
  transitivity (cpow t lamN *! (cpow t minusE *! cpow (g12_conj t : FP12) minusE) : FP12).
  - rewrite (cmul_assoc FP12), (cmul_comm FP12 (cpow t minusE) (cpow t lamN)). reflexivity.
  - rewrite <- cpow_distr, H, cpow_one. apply (cmul_1 FP12).
Qed.
Lemma hard_zero (t : FP12) : t =! c0 -> hard_part t =[FP12]= c0.
Proof.
  intros H. rewrite hard_pw, H. apply cpow_zero. unfold plusE. rewrite pN_6. lia.
Qed.
Lemma easy_ok s1 (a : FP12) : ~ a =! c0 -> easy_part s1 a =[FP12]= cpow a ((pN ^ 6 - 1) * (1 + pN ^ 2)).
Proof.
  intros N. unfold easy_part. cbv zeta. match goal with |- context [g12_mul ?x (g12_frobenius2 ?x)] => set (t1 := x) end.
  assert (T : t1 =[FP12]= cpow a (pN ^ 6 - 1)).
  { apply (f_cancel FP12 FP12_field a); auto.
    transitivity (cpow a (pN ^ 6)).
    - unfold t1. rewrite g12_mul_ok. rewrite frobenius12_6.
      transitivity ((g12_conj a : FP12) *! (a *! (g12_invert s1 a : FP12))).
      + rewrite !(cmul_assoc FP12). apply cmul_morph; [|reflexivity]. apply (cmul_comm FP12).
      + rewrite g12_invert_ok by exact N. apply (cmul_1 FP12).
    - replace (pN ^ 6)%N with (1 + (pN ^ 6 - 1))%N at 1.
      + rewrite cpow_add, cpow_1. reflexivity.
      + assert (pN ^ 6 <> 0)%N by (apply N.pow_nonzero; rewrite pN_6; lia). lia. }
  clearbody t1. etransitivity; [apply g12_mul_ok|]. etransitivity; [apply cmul_morph; [exact T|exact (g12_frobenius2_m _ _ T)]|].
  rewrite <- frobenius12_2. rewrite (cpow_mul FP12 a (pN ^ 6 - 1) (1 + pN ^ 2)), (cpow_add FP12 _ 1 (pN ^ 2)), cpow_1. reflexivity.
Qed.
Lemma g6_neg_0 (x : FP6) : x =! c0 -> g6_neg x =[FP6]= c0.
Proof. intros H. rewrite g6_neg_ok, H. split; [|split]; split; reflexivity. Qed.
Lemma easy_zero s1 (a : FP12) : a =! c0 -> easy_part s1 a =[FP12]= c0.
Proof.
  intros [H1 H2]. unfold easy_part. cbv zeta. match goal with |- context [g12_mul ?x (g12_frobenius2 ?x)] => set (t1 := x) end.
  assert (T : t1 =[FP12]= c0).
  { unfold t1. rewrite g12_mul_ok. transitivity ((c0 : FP12) *! (g12_invert s1 a : FP12)); [|apply (cmul_0 FP12)].
    apply cmul_morph; [|reflexivity]. split; [apply g6_neg_0; exact H1|exact H2]. }
  clearbody t1. etransitivity; [apply g12_mul_ok|]. etransitivity; [apply cmul_morph; [exact T|reflexivity]|]. apply (cmul_0 FP12).
Qed.
Lemma fermat12 (a : FP12) : ~ a =! c0 -> cpow a (pN ^ 12 - 1) =! c1.
Proof.
  intros N. apply (f_cancel FP12 FP12_field a); auto. rewrite <- (cpow_1 FP12 a) at 1. rewrite <- cpow_add.
  replace (1 + (pN ^ 12 - 1))%N with (pN ^ 12)%N.
  - rewrite frobenius12_12. symmetry. apply (cmul_1 FP12).
  - assert (pN ^ 12 <> 0)%N by (apply N.pow_nonzero; rewrite pN_6; lia). lia.
Qed.
Lemma split12 : (pN ^ 12 - 1 = (pN ^ 6 - 1) * (pN ^ 6 + 1))%N.
Proof.
  replace (pN ^ 12)%N with (pN ^ 6 * pN ^ 6)%N by (change 12%N with (6 + 6)%N; rewrite !N.pow_add_r; lia).
  assert (pN ^ 6 <> 0)%N by (apply N.pow_nonzero; rewrite pN_6; lia). remember (pN ^ 6)%N as c. nia.
Qed.
Lemma full_exponent : ((pN ^ 12 - 1) / Z.to_N Order = (pN ^ 6 - 1) * (1 + pN ^ 2) * lamN)%N.
Proof.
  symmetry. apply N.div_unique_exact; [vm_compute; discriminate|].
  rewrite split12. assert (L := lam_order).
  replace (pN ^ 6 + 1)%N with ((1 + pN ^ 2) * (lamN * Z.to_N Order))%N; [ring|].
  replace (pN ^ 6)%N with (pN ^ 2 * pN ^ 4)%N by (change 6%N with (2 + 4)%N; rewrite !N.pow_add_r; lia).
  replace (pN ^ 4)%N with (pN ^ 2 * pN ^ 2)%N in * by (change 4%N with (2 + 2)%N; rewrite !N.pow_add_r; lia).
  remember (pN ^ 2)%N as q. remember (lamN * Z.to_N Order)%N as m. nia.
Qed.
Lemma final_exponentiation_ok s1 (a : FP12) : final_exponentiation s1 a =[FP12]= cpow a ((pN ^ 12 - 1) / Z.to_N Order).
Proof.
  rewrite parts, full_exponent. destruct FP12_field as [_ F]. destruct (F a) as [Z|[b B]].
  - transitivity (c0 : FP12); [apply hard_zero, easy_zero, Z|]. rewrite Z. symmetry. apply cpow_zero.
    apply N.neq_mul_0. split.
    + apply N.neq_mul_0. split; [|lia]. assert (1 < pN ^ 6)%N; [|lia]. apply N.pow_gt_1; [rewrite pN_6, k6_def; vm_compute; reflexivity|discriminate].
    + rewrite lamN_def. vm_compute. discriminate.
  - assert (N0 : ~ a =! c0) by exact (f_unit_nz FP12 FP12_field a b B).
    assert (E := easy_ok s1 a N0). set (t := easy_part s1 a) in *. rewrite cpow_mul, <- E. apply hard_ok.
    rewrite <- frobenius12_6. rewrite <- (cpow_1 FP12 t) at 1. rewrite <- cpow_add, E, <- cpow_mul.
    replace ((pN ^ 6 - 1) * (1 + pN ^ 2) * (1 + pN ^ 6))%N with ((pN ^ 12 - 1) * (1 + pN ^ 2))%N by (rewrite split12; ring).
    rewrite cpow_mul, fermat12, cpow_one by exact N0. reflexivity.
Qed.
Lemma final_order s1 (a : FP12) : ~ a =! c0 -> cpow (final_exponentiation s1 a : FP12) (Z.to_N Order) =[FP12]= c1.
Proof.
  intros N0. rewrite final_exponentiation_ok, <- cpow_mul.
  replace ((pN ^ 12 - 1) / Z.to_N Order * Z.to_N Order)%N with (pN ^ 12 - 1)%N; [now apply fermat12|].
  rewrite full_exponent. assert (L := lam_order). rewrite split12.
  replace (pN ^ 6 + 1)%N with ((1 + pN ^ 2) * (lamN * Z.to_N Order))%N; [ring|].
  replace (pN ^ 6)%N with (pN ^ 2 * pN ^ 4)%N by (change 6%N with (2 + 4)%N; rewrite !N.pow_add_r; lia).
  replace (pN ^ 4)%N with (pN ^ 2 * pN ^ 2)%N in * by (change 4%N with (2 + 2)%N; rewrite !N.pow_add_r; lia).
  remember (pN ^ 2)%N as q. remember (lamN * Z.to_N Order)%N as m. nia.
Qed.
Lemma final_mul s1 s2 s3 (a b : FP12) : final_exponentiation s1 (g12_mul a b) =[FP12]= (final_exponentiation s2 a : FP12) *! final_exponentiation s3 b.
Proof. rewrite !final_exponentiation_ok, g12_mul_ok. apply cpow_distr. Qed.

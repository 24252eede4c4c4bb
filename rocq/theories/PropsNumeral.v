(** Reading numbers from text, comparison of arrays, and the helper that scales factors. *)
Require Import ZArith Znumtheory Lia Bool Ascii String List.
Require Import Verif.Cong Verif.FqModel Verif.FqSpec Verif.PolyModel Verif.NumeralSpec
  Verif.Pocklington Verif.FactorModel Verif.FactorSpec.
Import ListNotations.
Open Scope Z_scope.

Lemma digit_of_char d : is_digit d -> digit_of (digit_char d) = Some (Z.of_nat d).
Proof. unfold is_digit. intros H. do 10 (destruct d as [|d]; [reflexivity|]). lia. Qed.

Lemma digit_of_inv c z : digit_of c = Some z -> exists d, is_digit d /\ c = digit_char d /\ z = Z.of_nat d.
Proof.
  unfold digit_of. destruct (_ && _)%bool eqn:B; [|discriminate]. intros [= <-].
  apply andb_true_iff in B. destruct B as [B1 B2]. apply Z.leb_le in B1. apply Z.leb_le in B2.
  assert (Hn : (48 <= nat_of_ascii c <= 57)%nat) by lia.
  exists (nat_of_ascii c - 48)%nat. unfold is_digit. split; [lia|]. split; [|lia].
  rewrite <- (ascii_nat_embedding c) at 1. remember (nat_of_ascii c) as n.
  assert (n = 48 \/ n = 49 \/ n = 50 \/ n = 51 \/ n = 52 \/ n = 53 \/ n = 54 \/ n = 55 \/ n = 56 \/ n = 57)%nat as K by lia.
  clear -K. repeat (destruct K as [->|K]; [reflexivity|]). subst. reflexivity.
Qed.

Lemma digits_val_text ds : Forall is_digit ds ->
  forall acc, digits_val (digit_text ds) acc = Some (acc * 10 ^ Z.of_nat (length ds) + decimal_value ds).
Proof.
  induction 1 as [|d ds Hd _ IH]; intros acc.
  - cbn. f_equal. lia.
  - cbn [digit_text map string_of_list_ascii digits_val]. rewrite (digit_of_char d Hd).
    fold (digit_text ds). rewrite IH. f_equal. cbn [decimal_value length].
    rewrite Nat2Z.inj_succ, Z.pow_succ_r by lia. ring.
Qed.

Lemma digits_val_inv s : forall acc z, digits_val s acc = Some z ->
  exists ds, Forall is_digit ds /\ s = digit_text ds.
Proof.
  induction s as [|c s IH]; intros acc z; cbn.
  - intros _. exists []. split; [constructor|reflexivity].
  - destruct (digit_of c) as [d|] eqn:E; [|discriminate]. intros H.
    destruct (IH _ _ H) as (ds & F & ->). destruct (digit_of_inv c d E) as (n & Hn & -> & _).
    exists (n :: ds). split; [now constructor|reflexivity].
Qed.

Lemma nonempty_digits_iff s z : nonempty_digits s = Some z <->
  exists ds, ds <> [] /\ Forall is_digit ds /\ s = digit_text ds /\ z = decimal_value ds.
Proof.
  unfold nonempty_digits. split.
  - intros H. assert (H' : digits_val s 0 = Some z /\ s <> EmptyString) by (destruct s; [discriminate|split; [exact H|discriminate]]).
    destruct H' as [D N]. destruct (digits_val_inv _ _ _ D) as (ds & F & ->).
    exists ds. split; [intros ->; now apply N|]. split; [exact F|]. split; [reflexivity|].
    rewrite (digits_val_text ds F) in D. injection D as <-. lia.
  - intros (ds & N & F & -> & ->). pose proof (digits_val_text ds F 0) as D.
    destruct ds as [|d ds]; [now destruct N|]. cbn [digit_text map string_of_list_ascii] in *. rewrite D. f_equal.
Qed.

Lemma digit_char_no_sign d : is_digit d -> digit_char d <> "-"%char /\ digit_char d <> "+"%char.
Proof. unfold is_digit. intros H. do 10 (destruct d as [|d]; [split; discriminate|]). lia. Qed.

Lemma set_string10_iff s z : set_string10 s = Some z <-> denotes s z.
Proof.
  split.
  - intros H.
    assert (P : nonempty_digits s = Some z -> denotes s z).
    { intros K. apply nonempty_digits_iff in K. destruct K as (ds & N & F & -> & ->). now apply denotes_plain. }
    destruct s as [|c s]; [discriminate|].
    destruct (ascii_dec c "-"%char) as [->|N1].
    { cbn in H. destruct (nonempty_digits s) as [v|] eqn:E; [|discriminate]. injection H as <-.
      apply nonempty_digits_iff in E. destruct E as (ds & N & F & -> & ->). exact (denotes_minus ds N F). }
    destruct (ascii_dec c "+"%char) as [->|N2].
    { cbn in H. apply nonempty_digits_iff in H. destruct H as (ds & N & F & -> & ->). exact (denotes_plus ds N F). }
    apply P. rewrite <- H. clear -N1 N2.
    destruct c as [[] [] [] [] [] [] [] []]; try reflexivity; congruence.
  - intros D. destruct D as [ds N F|ds N F|ds N F].
    + assert (K : nonempty_digits (digit_text ds) = Some (decimal_value ds)) by (apply nonempty_digits_iff; eauto).
      destruct ds as [|d ds]; [now destruct N|]. pose proof (digit_char_no_sign d ltac:(now inversion F)) as [N1 N2].
      cbn [digit_text map string_of_list_ascii] in *. rewrite <- K.
      destruct (digit_char d) as [[] [] [] [] [] [] [] []]; try reflexivity; congruence.
    + cbn. apply nonempty_digits_iff. eauto.
    + cbn. assert (K : nonempty_digits (digit_text ds) = Some (decimal_value ds)) by (apply nonempty_digits_iff; eauto).
      now rewrite K.
Qed.

(** ** C89: StringToFieldElement *)
Theorem C89_read : forall q s v b, 0 < q ->
  (string_to_field q s = Some (v, b) <-> b = true /\ exists z, denotes s z /\ canon q z v).
Proof.
  intros q s v b Hq. unfold string_to_field. split.
  - destruct (set_string10 s) as [z|] eqn:E; [|discriminate]. intros [= <- <-]. split; [reflexivity|].
    exists z. split; [now apply set_string10_iff|]. now apply Cong.canon_mod.
  - intros [-> (z & D & C2 & C1)]. apply set_string10_iff in D. rewrite D. f_equal. f_equal.
    rewrite <- (Z.mod_small v q C2). symmetry. apply Cong.cong_mod_iff; [lia|exact C1].
Qed.
Print Assumptions C89_read.

(** Anything else aborts: SetString's failure is not reported by the boolean. *)
Theorem C89_other_text_aborts : forall q s, (forall z, ~ denotes s z) -> string_to_field q s = None.
Proof.
  intros q s H. unfold string_to_field. destruct (set_string10 s) as [z|] eqn:E; [|reflexivity].
  apply set_string10_iff in E. now destruct (H z).
Qed.
Print Assumptions C89_other_text_aborts.

(** A text denotes at most one number. *)
Theorem C89_unambiguous : forall s z z', denotes s z -> denotes s z' -> z = z'.
Proof. intros s z z' H H'. apply set_string10_iff in H. apply set_string10_iff in H'. congruence. Qed.
Print Assumptions C89_unambiguous.

Example C89_case : string_to_field 97 "-0105" = Some (89, true) /\ denotes "-0105" (-105) /\ canon 97 (-105) 89.
Proof.
  split; [reflexivity|]. split.
  - exact (denotes_minus [0; 1; 0; 5]%nat ltac:(discriminate) ltac:(repeat constructor; unfold is_digit; lia)).
  - unfold canon. split; [lia|]. exists 2. reflexivity.
Qed.
Example C89_case_other : string_to_field 97 "1_0" = None /\ string_to_field 97 "" = None /\
  string_to_field 97 "+-1" = None /\ string_to_field 97 "0x1" = None.
Proof. repeat split. Qed.

(** ** C04: comparison of arrays *)
Theorem C04_arrays_equal : forall a b, big_arrays_equal a b = true <-> a = b.
Proof.
  induction a as [|x a IH]; destruct b as [|y b]; cbn; try (split; congruence).
  rewrite andb_true_iff, Z.eqb_eq, IH. split; [now intros [-> ->]|now intros [= -> ->]].
Qed.
Print Assumptions C04_arrays_equal.

Theorem C04_zero_array : forall a, is_zero_array a = true <-> Forall (fun x => x = 0) a.
Proof.
  intros a. unfold is_zero_array. rewrite forallb_forall, Forall_forall. split; intros H x Hx; specialize (H x Hx); now apply Z.eqb_eq.
Qed.
Print Assumptions C04_zero_array.

Example C04_arrays_case : big_arrays_equal [1; 0] [1; 0] = true /\ big_arrays_equal [1] [1; 0] = false /\
  is_zero_array [0; 0] = true /\ is_zero_array [0; 2] = false.
Proof. repeat split. Qed.

(** ** C34: scalarMultiplyFactors leaves every value as it is, so it does not scale. *)
Theorem C34_scalar_multiply : forall q w f x, lin w f * (x - 1) ==[q] 0 <->
  lin w (scalar_multiply_factors f x) ==[q] lin w f * x.
Proof.
  intros q w f x. unfold scalar_multiply_factors, cong. split; intros [k H]; exists (- k); lia.
Qed.
Print Assumptions C34_scalar_multiply.
Theorem C34_scalar_multiply_refuted : exists q w f x, prime q /\ f <> [] /\ Forall (fun c => 0 < mult c < q) f /\ 0 < x < q /\
  ~ lin w (scalar_multiply_factors f x) ==[q] lin w f * x.
Proof.
  exists Order, (fun _ => 1), [Fac (Tok TNumber "3") 3], 2. split; [exact prime_Order|].
  split; [discriminate|]. split; [repeat constructor|]. split; [split; reflexivity|].
  intros H. apply Cong.cong_mod_iff in H; [vm_compute in H; discriminate|discriminate].
Qed.
Print Assumptions C34_scalar_multiply_refuted.

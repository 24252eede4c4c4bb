(** The names of the bits of SPLIT (circuitcompiler/Programm.go:385-401: "first the number, then the variable, to avoid collisions"). *)
Require Import ZArith Lia Bool Ascii String List DecimalString.
Require Import Verif.FqModel Verif.FactorModel Verif.SplitProofs Verif.LexerModel Verif.ParserModel Verif.CircuitModel Verif.PropsFactor Verif.PropsLang Verif.LangBuild.
Import ListNotations.
Local Open Scope string_scope.
Local Open Scope list_scope.
Local Open Scope nat_scope.

Fixpoint all_digits (s : string) : Prop := match s with EmptyString => True | String c s' => digit_of c <> None /\ all_digits s' end.
Definition no_digit_first (s : string) : Prop := match s with EmptyString => False | String c _ => digit_of c = None end.
Lemma uint_digits d : all_digits (NilEmpty.string_of_uint d).
Proof. induction d; cbn; auto; split; auto; discriminate. Qed.
Lemma dec_digits k : all_digits (dec (Z.of_nat k)).
Proof. destruct (dec_nat k) as (c & d & -> & H). split; auto. apply uint_digits. Qed.
Lemma digits_cut a : forall b x y, all_digits a -> all_digits b -> no_digit_first x -> no_digit_first y -> (a ++ x = b ++ y)%string -> a = b /\ x = y.
Proof.
  induction a as [|c a IH]; intros [|d b] x y A B X Y E; cbn in E; auto.
  - subst x. cbn in X, B. tauto.
  - subst y. cbn in Y, A. tauto.
  - injection E as -> E. destruct A as [_ A], B as [_ B]. destruct (IH b x y A B X Y E) as [-> ->]. auto.
Qed.
Lemma length_cut a : forall b x y, String.length x = String.length y -> (a ++ x = b ++ y)%string -> a = b /\ x = y.
Proof.
  induction a as [|c a IH]; intros [|d b] x y L E; cbn in E; auto.
  - subst x. cbn in L. rewrite append_length in L. lia.
  - subst y. cbn in L. rewrite append_length in L. lia.
  - injection E as -> E. destruct (IH b x y L E) as [-> ->]. auto.
Qed.
Lemma digits_app a x : all_digits (a ++ x)%string -> all_digits x.
Proof. induction a; cbn; tauto. Qed.

(** ** C110.  Bits of wires do not share names: names of inputs do not begin with a digit, and the identifiers of gates are of one length and of digits only. *)
Theorem C110_inputs : forall i j x y, no_digit_first x -> no_digit_first y -> bit_name i x = bit_name j y -> i = j /\ x = y.
Proof.
  unfold bit_name. intros i j x y X Y E. destruct (digits_cut _ _ _ _ (dec_digits i) (dec_digits j) X Y E) as [A B]. split; auto. apply dec_nat_inj. exact A.
Qed.
Print Assumptions C110_inputs.
Theorem C110_gates : forall i j x y, String.length x = String.length y -> bit_name i x = bit_name j y -> i = j /\ x = y.
Proof. unfold bit_name. intros i j x y L E. destruct (length_cut _ _ _ _ L E) as [A B]. split; auto. apply dec_nat_inj. exact A. Qed.
Print Assumptions C110_gates.
Lemma substring_length n : forall s, n <= String.length s -> String.length (substring 0 n s) = n.
Proof. induction n as [|n IH]; intros [|c s] L; cbn in *; try lia. rewrite IH; lia. Qed.
Lemma prefix_length s i : prefix16 s = Some i -> String.length i = 16.
Proof. unfold prefix16. destruct (Nat.ltb_spec (String.length s) 16); [discriminate|]. intros E. apply (f_equal (fun o => match o with Some i => String.length i | None => 0 end)) in E. rewrite substring_length in E; auto. Qed.
(** The identifiers gates get are of 16 characters. *)
Theorem C110_length : forall sort hash, (forall g g', gid g = "" -> with_id sort hash g = Some g' -> String.length (gid g') = 16) /\ (forall f i, list_signature hash f = Some i -> String.length i = 16).
Proof.
  intros sort hash. split.
  - intros g g' E. unfold with_id. rewrite E. unfold set_id. destruct (prefix16 _) as [i|] eqn:P; [|discriminate]. intros X. injection X as <-. apply prefix_length in P. exact P.
  - intros f i E. apply prefix_length in E. exact E.
Qed.
Print Assumptions C110_length.
Theorem C110_mixed : forall i j x y, no_digit_first x -> all_digits y -> bit_name i x <> bit_name j y.
Proof.
  unfold bit_name. intros i j x y X Y E. assert (A : all_digits (dec (Z.of_nat j) ++ y)%string).
  { assert (D := dec_digits j). revert D. generalize (dec (Z.of_nat j)). induction s as [|c s IH]; cbn; auto. tauto. }
  rewrite <- E in A. apply digits_app in A. destruct x; cbn in *; tauto.
Qed.
Print Assumptions C110_mixed.
Example C110_case : no_digit_first "x1" /\ no_digit_first "y" /\ all_digits "3034001365382168" /\ bit_name 12 "x1" = "12x1" /\ bit_name 12 "3034001365382168" = "123034001365382168".
Proof. repeat split; discriminate. Qed.

(** Bits of numbers do: bit 11 of 1 and bit 1 of 11 are one wire with one gate, though these digits are 0 and 1. *)
Definition C110_text := "
func main(x){
	SPLIT(1)
	SPLIT(11)
	return x*x
}
".
Theorem C110_numbers_refuted : exists text r st g, compile_text sort_factors toy_hash 4099 1000 text = Done (r, st) /\ gid g = bit_name 11 "1" /\ gid g = bit_name 1 "11" /\
  In g (gates (scoll st)) /\ gtyp g = GBit /\ ident (grep g) = "1" /\ (forall g', In g' (gates (scoll st)) -> gid g' = gid g -> g' = g) /\
  Z.testbit 1 11 = false /\ Z.testbit 11 1 = true.
Proof.
  exists C110_text. eexists. eexists. exists (Gate GBit "111" [] [] [] [] false (Tok TNumber "1")). split; [vm_compute; reflexivity|]. split; [reflexivity|]. split; [reflexivity|].
  split; [cbn [gates scoll]; do 11 right; left; reflexivity|]. split; [reflexivity|]. split; [reflexivity|]. split; [|split; reflexivity].
  cbn [gates scoll gid]. intros g' I E. repeat (destruct I as [<-|I]; [try discriminate E; try reflexivity|]). destruct I.
Qed.
Print Assumptions C110_numbers_refuted.

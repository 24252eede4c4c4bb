(** When the numbering of wires aborts for a compiled program (circuitcompiler/Programm.go:618-660, 834-872). *)
Require Import ZArith Lia Bool Ascii String List.
Require Import Verif.FqModel Verif.FactorModel Verif.R1csModel Verif.R1csSpec Verif.R1csProofs Verif.EndProofs Verif.PropsR1cs Verif.LexerModel Verif.ParserModel Verif.CircuitModel Verif.PropsFactor Verif.PropsLang Verif.PropsGrow.
Import ListNotations.
Local Open Scope string_scope.
Local Open Scope list_scope.

Lemma NoDup_join {A} (l1 l2 : list A) : NoDup l1 -> NoDup l2 -> (forall x, In x l1 -> ~ In x l2) -> NoDup (l1 ++ l2).
Proof.
  induction l1 as [|x l1 IH]; cbn; auto. intros N1 N2 D. apply NoDup_cons_iff in N1. destruct N1 as [X N1]. constructor.
  - rewrite in_app_iff. intros [H|H]; [auto|]. apply (D x); auto.
  - apply IH; auto.
Qed.
Lemma NoDup_apart {A} (l1 l2 : list A) x : NoDup (l1 ++ l2) -> In x l1 -> ~ In x l2.
Proof.
  induction l1 as [|y l1 IH]; [easy|]. cbn [app]. intros N [<-|H]; apply NoDup_cons_iff in N; destruct N as [X N]; [|auto].
  intros C. apply X, in_app_iff. auto.
Qed.
Lemma fresh_distinct l : forall seen, NoDup (fresh seen l) /\ forall x, In x (fresh seen l) -> ~ In x seen.
Proof.
  induction l as [|y l IH]; intros seen; cbn [fresh]; [split; [constructor|easy]|]. destruct (existsb (String.eqb y) seen) eqn:E; [apply IH|]. destruct (IH (y :: seen)) as [A B]. split.
  - constructor; auto. intros C. apply (B y C). now left.
  - intros x [<-|C] H; [|apply (B x C); now right]. enough (existsb (String.eqb y) seen = true) by congruence. apply existsb_exists. exists y. split; auto. apply String.eqb_refl.
Qed.
Lemma filter_distinct (f : gate -> bool) gs : NoDup (map gid gs) -> NoDup (map gid (filter f gs)).
Proof.
  induction gs as [|g gs IH]; cbn [map filter]; auto. intros N. apply NoDup_cons_iff in N. destruct N as [X N]. destruct (f g); auto. cbn [map]. constructor; auto.
  intros C. apply X. apply in_map_iff in C. destruct C as (h & Eh & Ih). apply filter_In in Ih. apply in_map_iff. exists h. tauto.
Qed.

(** ** C109.  For a program that compiles, the panic "rewriting" of GatesToR1CS happens exactly when a gate with an output has the name of an input. *)
Theorem C109_rewriting_iff : forall sort hash q n r st pubs ins rz,
  (exists text, compile_text sort hash q n text = Done (r, st)) \/ (exists files text, compile_files sort hash q files n text = Done (r, st)) -> NoDup pubs ->
  build_index pubs ins (gates (scoll st)) rz = None <-> exists g, In g (gates (scoll st)) /\ gnonew g = false /\ (In (gid g) pubs \/ In (gid g) ins).
Proof.
  intros sort hash q n r st pubs ins rz H NP. apply C107_distinct in H. set (gs := gates (scoll st)) in *. rewrite C27_aborts_iff by exact NP.
  assert (NO : NoDup (out_names gs)) by now apply filter_distinct. destruct (fresh_distinct ins pubs) as [NF FP].
  assert (O : forall g, In g gs -> gnonew g = false -> In (gid g) (out_names gs)).
  { intros g Ig F. unfold out_names. apply in_map. apply filter_In. now rewrite F. }
  split.
  - intros A. destruct (Exists_dec (fun g => gnonew g = false /\ (In (gid g) pubs \/ In (gid g) ins)) gs) as [X|X].
    + intros g. destruct (gnonew g); [right; intros [C _]; discriminate|]. destruct (in_dec string_dec (gid g) pubs); [left; auto|]. destruct (in_dec string_dec (gid g) ins); [left; auto|right; tauto].
    + apply Exists_exists in X. destruct X as (g & Ig & F). exists g. tauto.
    + exfalso. apply A. assert (D : forall x, In x (out_names gs) -> ~ In x pubs /\ ~ In x ins).
      { intros x Ix. unfold out_names in Ix. apply in_map_iff in Ix. destruct Ix as (g & <- & Ig). apply filter_In in Ig. destruct Ig as [Ig F]. apply negb_true_iff in F.
        split; intros C; apply X, Exists_exists; exists g; auto. }
      apply NoDup_join; auto.
      * apply NoDup_join; auto. intros x Ix Io. apply fresh_sub in Ix. apply D in Io. tauto.
      * intros x Ix. rewrite in_app_iff. intros [C|C]; [apply (FP x C Ix)|]. apply D in C. tauto.
  - intros (g & Ig & F & [C|C]) N.
    + apply (NoDup_apart _ _ (gid g) N C). apply in_app_iff. right. auto.
    + destruct (fresh_in ins pubs _ C) as [P|P]; [apply (NoDup_apart _ _ (gid g) N P), in_app_iff; right; auto|].
      rewrite app_assoc in N. apply (NoDup_apart _ _ (gid g) N); [apply in_app_iff; auto|auto].
Qed.
Print Assumptions C109_rewriting_iff.

(** It does happen: f returns nothing, which is the factor 1 without a name, and the bit 1 of it is called 1, as the constant. *)
Definition C109_text := "
func main(x){
	SPLIT(f())
	return x*x
}
func f(){
	return
}
".
Theorem C109_system_refuted : exists text p r st, build sort_factors toy_hash 101 1000 (tree_of 1000 text) = Done p /\ compile_text sort_factors toy_hash 101 1000 text = Done (r, st) /\
  ppublic p = ["1"] /\ option_map (fun m => option_map finputs (nth_error (pheap p) m)) (pmain p) = Some (Some ["x"]) /\
  gates_to_r1cs ["1"] ["x"] (gates (scoll st)) false = None /\ gates_to_sparse_r1cs 101 ["1"] ["x"] (gates (scoll st)) false = None.
Proof.
  exists C109_text. eexists. eexists. eexists. split; [vm_compute; reflexivity|]. split; [vm_compute; reflexivity|]. split; [reflexivity|]. split; [reflexivity|]. split; reflexivity.
Qed.
Print Assumptions C109_system_refuted.
(** A program that does get its numbering. *)
Example C109_case : exists r st i, compile_text sort_factors toy_hash 101 1000 "
func main(x,y){
	SPLIT(x)
	return x*y
}
" = Done (r, st) /\ List.length (gates (scoll st)) = 9%nat /\ build_index ["1"] ["x"; "y"] (gates (scoll st)) false = Some i.
Proof. eexists. eexists. eexists. split; [vm_compute; reflexivity|]. split; [reflexivity|vm_compute; reflexivity]. Qed.

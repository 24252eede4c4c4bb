(** SPLIT of a multiple of a wire (circuitcompiler/Programm.go:362-414). *)
Require Import ZArith Lia Bool Ascii String List.
Require Import Verif.Cong Verif.FqModel Verif.FactorModel Verif.FactorSpec Verif.LexerModel Verif.ParserModel Verif.CircuitModel Verif.LangHeap Verif.PropsFactor Verif.PropsLang Verif.PropsCircuit.
Import ListNotations.
Local Open Scope string_scope.
Local Open Scope list_scope.

(** ** C111.  SPLIT takes the wire and not its multiple: arguments that compile to multiples of one wire, in one state, give one result. *)
Theorem C111_same : forall sort hash q n a e e' st st1 r r' t k k',
  compile sort hash q n a e st = Done (r, st1) -> compile sort hash q n a e' st = Done (r', st1) -> strip (rvals r) = [Fac t k] -> strip (rvals r') = [Fac t k'] ->
  forall r2 st2 r2' st2', compile sort hash q (S n) a (Con (Tok TCall "SPLIT") [e]) st = Done (r2, st2) -> compile sort hash q (S n) a (Con (Tok TCall "SPLIT") [e']) st = Done (r2', st2') ->
  gates (scoll st2) = gates (scoll st2').
Proof.
  intros sort hash q n a e e' st st1 r r' t k k' E E' R R' r2 st2 r2' st2' S S'. cbn [compile output inputs ttyp ident String.eqb Ascii.eqb Bool.eqb] in S, S'.
  rewrite E in S. rewrite E' in S'. cbn [bind] in S, S'. rewrite R in S. rewrite R' in S'.
  change (compile_split sort hash q (scoll st1) [Fac t k']) with (compile_split sort hash q (scoll st1) [Fac t k]) in S'.
  apply bind_inv in S. destruct S as (c & C & S). apply bind_inv in S'. destruct S' as (c' & C' & S'). rewrite C in C'. injection C' as <-.
  apply bind_inv in S. destruct S as (g & _ & S). apply bind_inv in S'. destruct S' as (g' & _ & S'). injection S as _ <-. injection S' as _ <-. reflexivity.
Qed.
Print Assumptions C111_same.

(** So the bits of SPLIT(2*x) are those of x: the constraints of this program make their sum x, and 5 is not 10. *)
Definition C111_text := "
func main(x,y){
	SPLIT(2*x)
	return x*y
}
".
Local Open Scope Z_scope.
Definition weighted (w : assignment) (x : string) : Z := fold_right Z.add 0 (map (fun i => 2 ^ Z.of_nat i * w (bit_name i x)) (seq 0 7)).
Theorem C111_multiple_refuted : exists text r st, text = C111_text /\ compile_text sort_factors toy_hash 101 1000 text = Done (r, st) /\
  (forall w, all_hold 101 (fun _ => 0) w (gates (scoll st)) -> weighted w "x" ==[101] w "x") /\
  exists w, all_hold 101 (fun _ => 0) w (gates (scoll st)) /\ w "x" = 5 /\ ~ weighted w "x" ==[101] 2 * w "x".
Proof.
  exists C111_text. eexists. eexists. split; [reflexivity|]. split; [vm_compute; reflexivity|]. cbn [gates scoll]. split.
  - intros w H. unfold all_hold in H. rewrite Forall_forall in H. match type of H with forall x, In x ?l -> _ => assert (X := H (nth 7 l (Gate GMul "" [] [] [] [] false no_token))) end.
    assert (Y := X ltac:(cbn; do 7 right; left; reflexivity)). cbn in Y. unfold weighted, bit_name. cbn.
    eapply cong_trans; [|exact Y]. apply cong_eq. unfold lin. cbn. ring.
  - exists (on [("1", 1); ("x", 5); ("y", 3); ("0x", 1); ("2x", 1); ("3034001365382168", 15)]). split; [|split; [reflexivity|]].
    + unfold all_hold. repeat (apply Forall_cons; [unfold gate_holds; cbn [gtyp]; apply cong_eq; vm_compute; reflexivity|]). apply Forall_nil.
    + intros [z Hz]. match type of Hz with ?l = _ => assert (E : l = -5) by (vm_compute; reflexivity); rewrite E in Hz end. lia.
Qed.
Print Assumptions C111_multiple_refuted.
(** x and 2*x meet the hypotheses of C111_same in main of this program. *)
Example C111_case :
  match build sort_factors toy_hash 101 100 (tree_of 1000 C111_text) with
  | Done p => let st := St (pheap p) (Coll [] []) [] [] in
      let e := leaf (Tok TIdent "x") in let e' := Con (Tok TUnassigned "2*x") [leaf (Tok TArith "*"); leaf (Tok TNumber "2"); e] in
      match compile sort_factors toy_hash 101 100 1 e st, compile sort_factors toy_hash 101 100 1 e' st with
      | Done (r, st1), Done (r', st1') => st1 = st1' /\ strip (rvals r) = [Fac (arg "x") 1] /\ strip (rvals r') = [Fac (arg "x") 2] /\
          match compile sort_factors toy_hash 101 101 1 (Con (Tok TCall "SPLIT") [e']) st with Done (_, st2) => List.length (gates (scoll st2)) = 8%nat | _ => False end
      | _, _ => False
      end
  | _ => False
  end.
Proof. vm_compute. repeat split. Qed.

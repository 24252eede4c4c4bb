(** C97: programs that compile to something else than they say. *)
Require Import ZArith Lia Bool Ascii String List.
Require Import Verif.Cong Verif.FqModel Verif.FactorModel Verif.FactorSpec Verif.FactorProofs Verif.ExprProofs Verif.PropsFactor Verif.PropsExpr
  Verif.LexerModel Verif.ParserModel Verif.CircuitModel Verif.LangSpec Verif.PropsLang Verif.PropsCircuit.
Import ListNotations.
Local Open Scope string_scope.
Local Open Scope list_scope.
Local Open Scope Z_scope.

(** A result that does not depend on the gates. *)
Definition results_in (text : string) (v : assignment -> Z) : Prop :=
  exists f gs, compiled text = Done (f, gs) /\ forall w, lin w f = v w.

(** ** return without a value counts as the number 1 *)
Theorem C97_return : forall sort hash q n cur x st, exists r, compile sort hash q (S n) cur (Con (Tok TReturn x) []) st = Done (r, st) /\
  rflag r = true /\ forall w, lin w (strip (rvals r)) = 1.
Proof. intros. eexists. split; [reflexivity|]. split; reflexivity. Qed.
Print Assumptions C97_return.
Theorem C97_no_value_refuted : exists product sum,
  product = "
func f(x){
	return
}
func main(x,y){
	return f(x)*y
}
" /\ sum = "
func f(x){
	return
}
func main(x,y){
	return f(x)+y
}
" /\ results_in product (fun w => w "y") /\ results_in sum (fun w => 1 + w "y").
Proof.
  eexists _, _. split; [reflexivity|]. split; [reflexivity|]. split; eexists _, _; (split; [vm_compute; reflexivity|]); intros w; unfold lin, fac_val; cbn -[Z.mul Z.add]; lia.
Qed.
Print Assumptions C97_no_value_refuted.
(** A call of a function without return inside an expression panics; as a statement it is accepted. *)
Theorem C97_no_return_refuted : exists used alone,
  used = "
func f(x){
	var b = x
}
func main(x,y){
	return f(x)*y
}
" /\ alone = "
func f(x){
	var b = x
}
func main(x,y){
	f(x)
	return y
}
" /\ compiled used = Panic /\ results_in alone (fun w => w "y").
Proof.
  eexists _, _. split; [reflexivity|]. split; [reflexivity|]. split; [vm_compute; reflexivity|]. eexists _, _. split; [vm_compute; reflexivity|]. intros w; unfold lin, fac_val; cbn -[Z.mul Z.add]; lia.
Qed.
Print Assumptions C97_no_return_refuted.

(** ** The numbers -3 and 98 are the same modulo 101, but a comparison tells them apart *)
Definition C97_if (value : string) : string := ("
func main(x,y){
	var a = " ++ value ++ "
	var r = 2
	if a<1 {
		r = 5
	}
	return r
}
")%string.
Definition C97_plain (value : string) : string := ("
func main(x,y){
	var a = " ++ value ++ "
	return a
}
")%string.
Theorem C97_negative_refuted : exists v1 v2 z1 z2,
  results_in (C97_plain v1) (fun _ => z1) /\ results_in (C97_plain v2) (fun _ => z2) /\ z1 ==[101] z2 /\
  results_in (C97_if v1) (fun _ => 5) /\ results_in (C97_if v2) (fun _ => 2).
Proof.
  exists "x-(x+3)", "98", (-3), 98. split; [|split; [|split; [|split]]].
  3: exists (-1); reflexivity.
  all: eexists _, _; (split; [vm_compute; reflexivity|]); intros w; reflexivity.
Qed.
Print Assumptions C97_negative_refuted.

(** ** [var a += x] is read as [var a = x] *)
Definition C97_var (op : string) : string := ("
func main(x,y){
	var a " ++ op ++ " x
	return a*y
}
")%string.
Theorem C97_var_refuted : exists f gs, compiled (C97_var "=") = Done (f, gs) /\ compiled (C97_var "+=") = Done (f, gs) /\ gs <> [].
Proof. eexists _, _. split; [vm_compute; reflexivity|]. split; [vm_compute; reflexivity|discriminate]. Qed.
Print Assumptions C97_var_refuted.
(** A declaration with a size is accepted, but the rest of the body is dropped: no result, no gates. *)
Theorem C97_size_refuted : exists sized plain, sized = "
func main(x,y){
	var b[2] = {x,y}
	return b[1]
}
" /\ plain = "
func main(x,y){
	var b[] = {x,y}
	return b[1]
}
" /\ compiled sized = Done ([], []) /\ results_in plain (fun w => w "y").
Proof.
  eexists _, _. split; [reflexivity|]. split; [reflexivity|]. split; [vm_compute; reflexivity|]. eexists _, _. split; [vm_compute; reflexivity|]. intros w; unfold lin, fac_val; cbn -[Z.mul Z.add]; lia.
Qed.
Print Assumptions C97_size_refuted.
(** Global variables are evaluated where they are used, also before the function they call is declared. *)
Example C97_global : exists text, text = "
var g = f(2)
func f(a){
	return a*5
}
func main(x,y){
	return x*g
}
" /\ results_in text (fun w => 10 * w "x").
Proof. eexists. split; [reflexivity|]. eexists _, _. split; [vm_compute; reflexivity|]. intros w; unfold lin, fac_val; cbn -[Z.mul Z.add]; lia. Qed.

(** ** AND, NAND, OR and NOT are reserved, but no call of them compiles *)
(** The arguments of a call are expressions: none is a bare operator. *)
Theorem C97_logic : forall sort hash q n cur f args st, In f ["AND"; "NAND"; "OR"; "NOT"] ->
  Forall (fun a => ttyp (output a) <> TArith) args -> compile sort hash q (S n) cur (Con (Tok TCall f) args) st = Panic.
Proof.
  intros sort hash q n cur f args st Hf HA.
  assert (B : forall comp, binary sort hash q comp args false st = Panic).
  { intros comp. unfold binary. destruct args as [|o [|a [|b [|e l]]]]; auto. inversion HA as [|x l H0 _]; subst. destruct (ttyp (output o)); auto. now destruct H0. }
  destruct Hf as [<-|[<-|[<-|[<-|[]]]]]; cbn -[binary]; auto.
Qed.
Print Assumptions C97_logic.
Example C97_logic_case : exists text, text = "
func main(x,y){
	return x*OR(x,y)
}
" /\ compiled text = Panic.
Proof. eexists. split; [reflexivity|]. vm_compute. reflexivity. Qed.

(** ** The bits of SPLIT cannot be used in the program: they are no array elements, and their names are not identifiers *)
Theorem C97_bits_refuted : exists split elem name,
  split = "
func main(x,y){
	SPLIT(x)
	return x*y
}
" /\ elem = "
func main(x,y){
	SPLIT(x)
	return x[0]*y
}
" /\ name = "
func main(x,y){
	SPLIT(x)
	return 0x*y
}
" /\ (exists f gs, compiled split = Done (f, gs) /\ List.length gs = 9%nat) /\ compiled elem = Panic /\ compiled name = Panic.
Proof.
  do 3 eexists. do 3 (split; [reflexivity|]). split; [|split; vm_compute; reflexivity]. eexists _, _. split; [vm_compute; reflexivity|]. reflexivity.
Qed.
Print Assumptions C97_bits_refuted.

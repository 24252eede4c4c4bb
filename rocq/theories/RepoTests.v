(** Tests, not proofs: the programs of /repo/testPrograms/codes.go that its tests do not skip, with the
    inputs given there, compiled and solved by the model.  TestCorrectness (circuitcompiler/
    Programm_test.go:33-76) asserts that both solvers succeed and agree; where the tests give the result of
    the program, it is checked too. *)
Require Import ZArith Bool Ascii String List.
Require Import Verif.CurveModel Verif.PolyModel.
Require Import Verif.SparseModel Verif.FqModel Verif.FactorModel Verif.ExprModel Verif.R1csModel Verif.WitnessModel Verif.LexerModel Verif.ParserModel
  Verif.CircuitModel Verif.PropsFactor.
Import ListNotations.
Local Open Scope string_scope.
Local Open Scope list_scope.
Definition field : Z := 21888242871839275222246405745257275088548364400416034343698204186575808495617.
(** scalarBaseMultiply with the curve of the model. *)
Definition base_x (k : Z) : Z := g1_x (g1_base k).
Definition value (im : imap) (w : list Z) (f : factors) : Z :=
  (fold_left (fun a x => a + mult x * (if is_number x then 1 else nth (im_idx im (ident (ftok x))) w 0)) f 0 mod field)%Z.
(** The public names, the witness both solvers find, and the value of the result of main. *)
Definition run_test (text : string) (inputs : list Z) : option (list string * list Z * Z) :=
  match lex 3000 text with
  | SparseModel.Ret ts =>
    match parse_tokens (stack_all_tokens ts) with
    | Some (Some cs) =>
      match build sort_factors toy_hash field 3000 cs with
      | Done p =>
        match run_program sort_factors toy_hash field 3000 p, pmain p with
        | Done (r, st), Some a =>
          match nth_error (pheap p) a with
          | Some o =>
            let gs := gates (scoll st) in
            match gates_to_r1cs (ppublic p) (finputs o) gs false, gates_to_sparse_r1cs field (ppublic p) (finputs o) gs false, combine_inputs (finputs o) inputs with
            | Some s, Some s', Some i =>
              match calculate_witness field base_x (index_map s) (split_map s) (rows s) 0 i, calculate_sparse_witness field base_x (index_map s') (split_map s') (rows s') 0 i with
              | Ok w, Ok w' => if list_eq_dec Z.eq_dec w w' then Some (ppublic p, w, value (index_map s) w (strip (rvals r))) else None
              | _, _ => None
              end
            | _, _, _ => None
            end
          | None => None
          end
        | _, _ => None
        end
      | _ => None
      end
    | _ => None
    end
  | _ => None
  end.
Definition program_0 := "
	func main( x  ,  z ) {
		return do(z) + add(x,x)
	}		

	func do(x){
		var e = x * 5
		var b = e * 6
		var c = b * 7
		var F = c * 1
		var d = c * F
		var ll = d * mul(d,e)
		return ll
	}
	
	func add(x ,k){
		var z = k * x
		return do(x) + mul(x,z)
	}

	func mul(a,b){
		return a * b
	}".
Example test_0 : run_test program_0 [7; 11]%Z = Some (["1"], [1; 7; 11; 121; 1331; 161051; 49; 343; 16807; 1729500084900343], 1729500084900343)%Z.
Proof. vm_compute. reflexivity. Qed.
Example test_0_2 : run_test program_0 [365235; 11876525]%Z = Some (["1"], [1; 365235; 11876525; 141051846075625; 1675205776213312203125; 236290867291438012851239954111328125; 133396605225; 48721109109352875; 6499230557984496821593771875; 2297704271284150716235246193843898764109352875], 2297704271284150716235246193843898764109352875)%Z.
Proof. vm_compute. reflexivity. Qed.
Definition program_1 := "
func main(x){
	return (x*fubunaci(7))
}
func fubunaci(a){
	if a==0{
		return 1
	}
	if a==1{
		return 1
	}
	return addGateConstraint(fubunaci(a-1),fubunaci(a-2))
}
".
Example test_1 : run_test program_1 [3]%Z = Some (["1"], [1; 3; 2; 3; 5; 8; 13; 21; 63], 63)%Z.
Proof. vm_compute. reflexivity. Qed.
Definition program_4 := "
func main(x,y){	
	var multiply = func(b,h){
		return b*h*6
	}
	var execute = func(j,m){
		return j(m)
	}
	#var kk = x*7	
	var k = execute(multiply,x) 
	iterate(2,4,1,k)
	return k(x)
}
	func iterate(fromX,toX,stepSize, call){       
		if fromX==toX{           
			return
		}			
		call(fromX)
		iterate(fromX+stepSize,toX,stepSize,call)
	}	
".
Example test_4 : run_test program_4 [3; 4]%Z = Some (["1"], [1; 3; 4; 9; 54], 54)%Z.
Proof. vm_compute. reflexivity. Qed.
Definition program_5 := "
#import ""/github.com/mottla/go-AlgebraicProgram-SNARK/utils/basicOperations""

func main(x){
	public{x}
	return (1*fubunaci(8,x))
}

func fubunaci(a,v){
	var dyn[] = {v,v}
	var i = 2
	for (i<a;i=i+1){
		var n = addGateConstraint(dyn[0],dyn[1])
		dyn[0] = dyn[1]
		dyn[1] = n
	}
    return dyn[1]
}
".
Example test_5 : run_test program_5 [1]%Z = Some (["1"; "x"], [1; 1; 2; 3; 5; 8; 13; 21], 21)%Z.
Proof. vm_compute. reflexivity. Qed.
Definition program_6 := "
func main(x){
	return (x*fubunaci(8,x))
}

func fubunaci(a,v){
	var dyn[] = {v,v}
	var i = 2
	for (i<a;i=i+1){
		var n = dyn[0]+dyn[1]
		dyn[0] = dyn[1]
		dyn[1] = n
	}
    return dyn[1]
}
".
Example test_6 : run_test program_6 [1]%Z = Some (["1"], [1; 1; 1; 21], 21)%Z.
Proof. vm_compute. reflexivity. Qed.
Definition program_7 := "
func main(x,y,z){
	return mul(add(mul(x,y),z)-132,z)
}

func mul(a,b){
    return a*b
}
func add(a,b){
	return a+b
	}

".
Example test_7 : run_test program_7 [3; 5; 7]%Z = Some (["1"], [1; 3; 5; 7; 15; 21888242871839275222246405745257275088548364400416034343698204186575808494847], 21888242871839275222246405745257275088548364400416034343698204186575808494847)%Z.
Proof. vm_compute. reflexivity. Qed.
Definition program_8 := "
func main(x){
	return (1*fubunaci(8))*(x*x)
}
var dyn[] = {1,1}
func fubunaci(a){
	var i = 2
	for (i<a;i=i+1){
		var n = dyn[0]+dyn[1]
		dyn[0] = dyn[1]
		dyn[1] = n
	}
    return dyn[1]
}
".
Example test_8 : run_test program_8 [3]%Z = Some (["1"], [1; 3; 9; 189], 189)%Z.
Proof. vm_compute. reflexivity. Qed.
Definition program_9 := "
func main(x){
	return (1*fubunaci(8))*(x*x)
}
var dyn[] = {1,1,0,0,0,0,0,0,0}
func fubunaci(a){
	var i = 2
	for (i<a;i=i+1){
		dyn[i] = dyn[i-1]+dyn[i-2]
	}
    return dyn[a-1]
}
".
Example test_9 : run_test program_9 [3]%Z = Some (["1"], [1; 3; 9; 189], 189)%Z.
Proof. vm_compute. reflexivity. Qed.
Definition program_10 := "
func main(x){
	var a = func(i){
		if i == 0 {
			return
		}
		i = i-1
		return x*a(i)			
	}
	var b = 7
	var c = 123 * b    
	 return mul(1/c,a(array[3]*2))
}

var xx = 4
var array[] = {1,4,7,xx}

func mul(a,b){
    return a*b
}
".
Example test_10 : run_test program_10 [3]%Z = Some (["1"], [1; 3; 9; 27; 81; 243; 729; 2187; 6561; 762656546057117603562592534677953835837922104544112694902376452493930609611], 762656546057117603562592534677953835837922104544112694902376452493930609611)%Z.
Proof. vm_compute. reflexivity. Qed.
Definition program_11 := "
	func main(x){
		var a = func(c,b){
			return (c*c)*b
		}
		var c[] = {x, 2*x,a }
		return a(applyFunction(c[0],a),x)
	}

	func applyFunction(a,fkt){
		return fkt(a,a)
	}
".
Example test_11 : run_test program_11 [3]%Z = Some (["1"], [1; 3; 6; 9; 27; 729; 2187], 2187)%Z.
Proof. vm_compute. reflexivity. Qed.
Definition program_12 := "
	func main(publicKey, privateKey){
		var pub = scalarBaseMultiply(privateKey)
		equal(pub,publicKey)
		equal(publicKey,pub)
	return
}
".
Example test_12 : run_test program_12 [4312786488925573964619847916436127219510912864504589785209181363209026354996; 42]%Z = Some (["1"], [1; 4312786488925573964619847916436127219510912864504589785209181363209026354996; 42; 4312786488925573964619847916436127219510912864504589785209181363209026354996], 1)%Z.
Proof. vm_compute. reflexivity. Qed.
Definition program_13 := "
	func main(x,z,w) {
		if ( (4*7) == 28){
			x=x*x
		}else{
			x=z*z
		}
		var arra[]={x,1,2,3}
		var mul = func(a,b){
			return x*b*7
		}
		var a =1
		var c = w
		
		for( a<3;a=a+1){
			var b = 3
			for( b<4;b=b+2){
				c = mul(c,c)
			}				
		}

		#arra[2]=3
		var k = mul(z,z)
		var l = k*k
		return l*(k*arra[2])*x*x
	}

	func mul(a,b){
	return a*b
	}
	
".
Example test_13 : run_test program_13 [3; 2; 328329]%Z = Some (["1"], [1; 3; 2; 328329; 9; 4; 1313316; 5253264; 8; 56; 64; 3136; 16; 128; 8192; 5619712], 5619712)%Z.
Proof. vm_compute. reflexivity. Qed.
Definition program_14 := "
	func main( x  ,  z ) {
		if ( 1==2){
			x=x*x
		}else if 3==3{
			x=z*z
		}else{
			x=x*z
		}
		if ( 1==2){
			x=x*x
		}else if 3==3{
			x=x*x
		}else{
			x=x*z
		}
	#	var b = x*x
		
		return
		}		
".
Example test_14 : run_test program_14 [7; 11]%Z = Some (["1"], [1; 7; 11; 121; 1331; 1771561; 19487171], 1)%Z.
Proof. vm_compute. reflexivity. Qed.
Definition program_15 := "


	func main( x  ,  z ) {
		var a =1
		var c = 45345146
		for( a<3;a=a+1){
			var b = 3
			c = foo(x,c)*x
			for( b<4;b=b+2){
				c = foo(x,c)*x
			}	
			x = x*x+1
		}
		return
	}	

	func foo(x,y){
		return x*y
	}
	
	func fooX(x,y){
		return x/y
	}".
Example test_15 : run_test program_15 [7; 11]%Z = Some (["1"], [1; 7; 11; 49; 343; 2401; 56; 134456; 7529536; 421654016; 23612624896; 3192], 1)%Z.
Proof. vm_compute. reflexivity. Qed.
(** TestFq1 (utils/finiteField_test.go) and TestPol, TestTranspose (utils/polynomialField_test.go). *)
Example test_fq1 : faffine 7 (fadd 7 4 4) = 1%Z /\ faffine 7 (fdouble 7 5) = 3%Z /\ faffine 7 (fsub 7 5 7) = 5%Z /\ faffine 7 (fneg 7 5) = 2%Z /\
  faffine 7 (fmul 7 5 11) = 6%Z /\ finv 7 4 = Some 2%Z /\ fsquare 7 5 = 4%Z.
Proof. vm_compute. repeat split. Qed.
Example test_pol :
  (pmul field [1; 0; 5] [3; 0; 1] = [3; 0; 16; 0; 5] /\ pdiv field [1; 0; 5] [3; 0; 1] = Some ([5], [field - 14; 0]) /\
   pdiv field [-4; 0; -2; 1] [-3; 1] = Some ([3; 1; 1], [5]) /\ padd field [1; 0; 5] [3; 0; 1] = [4; 0; 6] /\
   padd field (psub field [1; 0; 5] [3; 0; 1]) (psub field [3; 0; 1] [1; 0; 5]) = [0; 0; 0] /\ psub field [5; 6; 1] [1; 3] = [4; 3; 1] /\
   match new_pol_zero_at field 3 4 4 with Some p => feval_poly field p 3 | None => None end = Some 4 /\
   match new_pol_zero_at field 2 4 3 with Some p => feval_poly field p 2 | None => None end = Some 3)%Z.
Proof. vm_compute. repeat split. Qed.
Example test_transpose : transpose [[0; 1; 0; 0; 0; 0]; [0; 0; 0; 1; 0; 0]; [0; 1; 0; 0; 1; 0]; [5; 0; 0; 0; 0; 1]]%Z =
  Some (map (map Some) [[0; 0; 0; 5]; [1; 0; 1; 0]; [0; 0; 0; 0]; [0; 1; 0; 0]; [0; 0; 1; 0]; [0; 0; 0; 1]])%Z.
Proof. vm_compute. reflexivity. Qed.

(** Numbers as strings of hexadecimal digits, least significant digit first.  Used for certificates: sums
    and products of such numbers are cheap to evaluate for a kernel without a virtual machine. *)
Require Import ZArith List Lia Bool Number.
Import ListNotations.
Open Scope Z_scope.

Inductive num : Set := Nil | C0 (n : num) | C1 (n : num) | C2 (n : num) | C3 (n : num) | C4 (n : num) | C5 (n : num) | C6 (n : num) | C7 (n : num) | C8 (n : num) | C9 (n : num) | CA (n : num) | CB (n : num) | CC (n : num) | CD (n : num) | CE (n : num) | CF (n : num).
Fixpoint val (a : num) : Z :=
  match a with
  | Nil => 0
  | C0 x => 0 + 16 * val x
  | C1 x => 1 + 16 * val x
  | C2 x => 2 + 16 * val x
  | C3 x => 3 + 16 * val x
  | C4 x => 4 + 16 * val x
  | C5 x => 5 + 16 * val x
  | C6 x => 6 + 16 * val x
  | C7 x => 7 + 16 * val x
  | C8 x => 8 + 16 * val x
  | C9 x => 9 + 16 * val x
  | CA x => 10 + 16 * val x
  | CB x => 11 + 16 * val x
  | CC x => 12 + 16 * val x
  | CD x => 13 + 16 * val x
  | CE x => 14 + 16 * val x
  | CF x => 15 + 16 * val x
  end.

(** Literals: 0x1f stands for CF (C1 Nil). *)
Fixpoint of_hex (u : Hexadecimal.uint) (acc : num) : num :=
  match u with
  | Hexadecimal.Nil => acc
  | Hexadecimal.D0 u => of_hex u (C0 acc)
  | Hexadecimal.D1 u => of_hex u (C1 acc)
  | Hexadecimal.D2 u => of_hex u (C2 acc)
  | Hexadecimal.D3 u => of_hex u (C3 acc)
  | Hexadecimal.D4 u => of_hex u (C4 acc)
  | Hexadecimal.D5 u => of_hex u (C5 acc)
  | Hexadecimal.D6 u => of_hex u (C6 acc)
  | Hexadecimal.D7 u => of_hex u (C7 acc)
  | Hexadecimal.D8 u => of_hex u (C8 acc)
  | Hexadecimal.D9 u => of_hex u (C9 acc)
  | Hexadecimal.Da u => of_hex u (CA acc)
  | Hexadecimal.Db u => of_hex u (CB acc)
  | Hexadecimal.Dc u => of_hex u (CC acc)
  | Hexadecimal.Dd u => of_hex u (CD acc)
  | Hexadecimal.De u => of_hex u (CE acc)
  | Hexadecimal.Df u => of_hex u (CF acc)
  end.
Definition of_number (u : Number.uint) : option num :=
  match u with UIntHexadecimal u => Some (of_hex u Nil) | UIntDecimal _ => None end.
Definition to_number (a : num) : option Number.uint := None.
Declare Scope num_scope.
Delimit Scope num_scope with num.
Bind Scope num_scope with num.
Number Notation num of_number to_number : num_scope.

Fixpoint incr (a : num) : num :=
  match a with
  | Nil => C1 Nil
  | C0 x => C1 x
  | C1 x => C2 x
  | C2 x => C3 x
  | C3 x => C4 x
  | C4 x => C5 x
  | C5 x => C6 x
  | C6 x => C7 x
  | C7 x => C8 x
  | C8 x => C9 x
  | C9 x => CA x
  | CA x => CB x
  | CB x => CC x
  | CC x => CD x
  | CD x => CE x
  | CE x => CF x
  | CF x => C0 (incr x)
  end.
(** Addition without and with a carry coming in. *)
Fixpoint add0 (a b : num) {struct a} : num :=
  match a with
  | Nil => b
  | C0 x => match b with
    | Nil => a 
    | C0 y => C0 (add0 x y) | C1 y => C1 (add0 x y) | C2 y => C2 (add0 x y) | C3 y => C3 (add0 x y) | C4 y => C4 (add0 x y) | C5 y => C5 (add0 x y) | C6 y => C6 (add0 x y) | C7 y => C7 (add0 x y) | C8 y => C8 (add0 x y) | C9 y => C9 (add0 x y) | CA y => CA (add0 x y) | CB y => CB (add0 x y) | CC y => CC (add0 x y) | CD y => CD (add0 x y) | CE y => CE (add0 x y) | CF y => CF (add0 x y) end
  | C1 x => match b with
    | Nil => a 
    | C0 y => C1 (add0 x y) | C1 y => C2 (add0 x y) | C2 y => C3 (add0 x y) | C3 y => C4 (add0 x y) | C4 y => C5 (add0 x y) | C5 y => C6 (add0 x y) | C6 y => C7 (add0 x y) | C7 y => C8 (add0 x y) | C8 y => C9 (add0 x y) | C9 y => CA (add0 x y) | CA y => CB (add0 x y) | CB y => CC (add0 x y) | CC y => CD (add0 x y) | CD y => CE (add0 x y) | CE y => CF (add0 x y) | CF y => C0 (add1 x y) end
  | C2 x => match b with
    | Nil => a 
    | C0 y => C2 (add0 x y) | C1 y => C3 (add0 x y) | C2 y => C4 (add0 x y) | C3 y => C5 (add0 x y) | C4 y => C6 (add0 x y) | C5 y => C7 (add0 x y) | C6 y => C8 (add0 x y) | C7 y => C9 (add0 x y) | C8 y => CA (add0 x y) | C9 y => CB (add0 x y) | CA y => CC (add0 x y) | CB y => CD (add0 x y) | CC y => CE (add0 x y) | CD y => CF (add0 x y) | CE y => C0 (add1 x y) | CF y => C1 (add1 x y) end
  | C3 x => match b with
    | Nil => a 
    | C0 y => C3 (add0 x y) | C1 y => C4 (add0 x y) | C2 y => C5 (add0 x y) | C3 y => C6 (add0 x y) | C4 y => C7 (add0 x y) | C5 y => C8 (add0 x y) | C6 y => C9 (add0 x y) | C7 y => CA (add0 x y) | C8 y => CB (add0 x y) | C9 y => CC (add0 x y) | CA y => CD (add0 x y) | CB y => CE (add0 x y) | CC y => CF (add0 x y) | CD y => C0 (add1 x y) | CE y => C1 (add1 x y) | CF y => C2 (add1 x y) end
  | C4 x => match b with
    | Nil => a 
    | C0 y => C4 (add0 x y) | C1 y => C5 (add0 x y) | C2 y => C6 (add0 x y) | C3 y => C7 (add0 x y) | C4 y => C8 (add0 x y) | C5 y => C9 (add0 x y) | C6 y => CA (add0 x y) | C7 y => CB (add0 x y) | C8 y => CC (add0 x y) | C9 y => CD (add0 x y) | CA y => CE (add0 x y) | CB y => CF (add0 x y) | CC y => C0 (add1 x y) | CD y => C1 (add1 x y) | CE y => C2 (add1 x y) | CF y => C3 (add1 x y) end
  | C5 x => match b with
    | Nil => a 
    | C0 y => C5 (add0 x y) | C1 y => C6 (add0 x y) | C2 y => C7 (add0 x y) | C3 y => C8 (add0 x y) | C4 y => C9 (add0 x y) | C5 y => CA (add0 x y) | C6 y => CB (add0 x y) | C7 y => CC (add0 x y) | C8 y => CD (add0 x y) | C9 y => CE (add0 x y) | CA y => CF (add0 x y) | CB y => C0 (add1 x y) | CC y => C1 (add1 x y) | CD y => C2 (add1 x y) | CE y => C3 (add1 x y) | CF y => C4 (add1 x y) end
  | C6 x => match b with
    | Nil => a 
    | C0 y => C6 (add0 x y) | C1 y => C7 (add0 x y) | C2 y => C8 (add0 x y) | C3 y => C9 (add0 x y) | C4 y => CA (add0 x y) | C5 y => CB (add0 x y) | C6 y => CC (add0 x y) | C7 y => CD (add0 x y) | C8 y => CE (add0 x y) | C9 y => CF (add0 x y) | CA y => C0 (add1 x y) | CB y => C1 (add1 x y) | CC y => C2 (add1 x y) | CD y => C3 (add1 x y) | CE y => C4 (add1 x y) | CF y => C5 (add1 x y) end
  | C7 x => match b with
    | Nil => a 
    | C0 y => C7 (add0 x y) | C1 y => C8 (add0 x y) | C2 y => C9 (add0 x y) | C3 y => CA (add0 x y) | C4 y => CB (add0 x y) | C5 y => CC (add0 x y) | C6 y => CD (add0 x y) | C7 y => CE (add0 x y) | C8 y => CF (add0 x y) | C9 y => C0 (add1 x y) | CA y => C1 (add1 x y) | CB y => C2 (add1 x y) | CC y => C3 (add1 x y) | CD y => C4 (add1 x y) | CE y => C5 (add1 x y) | CF y => C6 (add1 x y) end
  | C8 x => match b with
    | Nil => a 
    | C0 y => C8 (add0 x y) | C1 y => C9 (add0 x y) | C2 y => CA (add0 x y) | C3 y => CB (add0 x y) | C4 y => CC (add0 x y) | C5 y => CD (add0 x y) | C6 y => CE (add0 x y) | C7 y => CF (add0 x y) | C8 y => C0 (add1 x y) | C9 y => C1 (add1 x y) | CA y => C2 (add1 x y) | CB y => C3 (add1 x y) | CC y => C4 (add1 x y) | CD y => C5 (add1 x y) | CE y => C6 (add1 x y) | CF y => C7 (add1 x y) end
  | C9 x => match b with
    | Nil => a 
    | C0 y => C9 (add0 x y) | C1 y => CA (add0 x y) | C2 y => CB (add0 x y) | C3 y => CC (add0 x y) | C4 y => CD (add0 x y) | C5 y => CE (add0 x y) | C6 y => CF (add0 x y) | C7 y => C0 (add1 x y) | C8 y => C1 (add1 x y) | C9 y => C2 (add1 x y) | CA y => C3 (add1 x y) | CB y => C4 (add1 x y) | CC y => C5 (add1 x y) | CD y => C6 (add1 x y) | CE y => C7 (add1 x y) | CF y => C8 (add1 x y) end
  | CA x => match b with
    | Nil => a 
    | C0 y => CA (add0 x y) | C1 y => CB (add0 x y) | C2 y => CC (add0 x y) | C3 y => CD (add0 x y) | C4 y => CE (add0 x y) | C5 y => CF (add0 x y) | C6 y => C0 (add1 x y) | C7 y => C1 (add1 x y) | C8 y => C2 (add1 x y) | C9 y => C3 (add1 x y) | CA y => C4 (add1 x y) | CB y => C5 (add1 x y) | CC y => C6 (add1 x y) | CD y => C7 (add1 x y) | CE y => C8 (add1 x y) | CF y => C9 (add1 x y) end
  | CB x => match b with
    | Nil => a 
    | C0 y => CB (add0 x y) | C1 y => CC (add0 x y) | C2 y => CD (add0 x y) | C3 y => CE (add0 x y) | C4 y => CF (add0 x y) | C5 y => C0 (add1 x y) | C6 y => C1 (add1 x y) | C7 y => C2 (add1 x y) | C8 y => C3 (add1 x y) | C9 y => C4 (add1 x y) | CA y => C5 (add1 x y) | CB y => C6 (add1 x y) | CC y => C7 (add1 x y) | CD y => C8 (add1 x y) | CE y => C9 (add1 x y) | CF y => CA (add1 x y) end
  | CC x => match b with
    | Nil => a 
    | C0 y => CC (add0 x y) | C1 y => CD (add0 x y) | C2 y => CE (add0 x y) | C3 y => CF (add0 x y) | C4 y => C0 (add1 x y) | C5 y => C1 (add1 x y) | C6 y => C2 (add1 x y) | C7 y => C3 (add1 x y) | C8 y => C4 (add1 x y) | C9 y => C5 (add1 x y) | CA y => C6 (add1 x y) | CB y => C7 (add1 x y) | CC y => C8 (add1 x y) | CD y => C9 (add1 x y) | CE y => CA (add1 x y) | CF y => CB (add1 x y) end
  | CD x => match b with
    | Nil => a 
    | C0 y => CD (add0 x y) | C1 y => CE (add0 x y) | C2 y => CF (add0 x y) | C3 y => C0 (add1 x y) | C4 y => C1 (add1 x y) | C5 y => C2 (add1 x y) | C6 y => C3 (add1 x y) | C7 y => C4 (add1 x y) | C8 y => C5 (add1 x y) | C9 y => C6 (add1 x y) | CA y => C7 (add1 x y) | CB y => C8 (add1 x y) | CC y => C9 (add1 x y) | CD y => CA (add1 x y) | CE y => CB (add1 x y) | CF y => CC (add1 x y) end
  | CE x => match b with
    | Nil => a 
    | C0 y => CE (add0 x y) | C1 y => CF (add0 x y) | C2 y => C0 (add1 x y) | C3 y => C1 (add1 x y) | C4 y => C2 (add1 x y) | C5 y => C3 (add1 x y) | C6 y => C4 (add1 x y) | C7 y => C5 (add1 x y) | C8 y => C6 (add1 x y) | C9 y => C7 (add1 x y) | CA y => C8 (add1 x y) | CB y => C9 (add1 x y) | CC y => CA (add1 x y) | CD y => CB (add1 x y) | CE y => CC (add1 x y) | CF y => CD (add1 x y) end
  | CF x => match b with
    | Nil => a 
    | C0 y => CF (add0 x y) | C1 y => C0 (add1 x y) | C2 y => C1 (add1 x y) | C3 y => C2 (add1 x y) | C4 y => C3 (add1 x y) | C5 y => C4 (add1 x y) | C6 y => C5 (add1 x y) | C7 y => C6 (add1 x y) | C8 y => C7 (add1 x y) | C9 y => C8 (add1 x y) | CA y => C9 (add1 x y) | CB y => CA (add1 x y) | CC y => CB (add1 x y) | CD y => CC (add1 x y) | CE y => CD (add1 x y) | CF y => CE (add1 x y) end
  end
with add1 (a b : num) {struct a} : num :=
  match a with
  | Nil => incr b
  | C0 x => match b with
    | Nil => incr a 
    | C0 y => C1 (add0 x y) | C1 y => C2 (add0 x y) | C2 y => C3 (add0 x y) | C3 y => C4 (add0 x y) | C4 y => C5 (add0 x y) | C5 y => C6 (add0 x y) | C6 y => C7 (add0 x y) | C7 y => C8 (add0 x y) | C8 y => C9 (add0 x y) | C9 y => CA (add0 x y) | CA y => CB (add0 x y) | CB y => CC (add0 x y) | CC y => CD (add0 x y) | CD y => CE (add0 x y) | CE y => CF (add0 x y) | CF y => C0 (add1 x y) end
  | C1 x => match b with
    | Nil => incr a 
    | C0 y => C2 (add0 x y) | C1 y => C3 (add0 x y) | C2 y => C4 (add0 x y) | C3 y => C5 (add0 x y) | C4 y => C6 (add0 x y) | C5 y => C7 (add0 x y) | C6 y => C8 (add0 x y) | C7 y => C9 (add0 x y) | C8 y => CA (add0 x y) | C9 y => CB (add0 x y) | CA y => CC (add0 x y) | CB y => CD (add0 x y) | CC y => CE (add0 x y) | CD y => CF (add0 x y) | CE y => C0 (add1 x y) | CF y => C1 (add1 x y) end
  | C2 x => match b with
    | Nil => incr a 
    | C0 y => C3 (add0 x y) | C1 y => C4 (add0 x y) | C2 y => C5 (add0 x y) | C3 y => C6 (add0 x y) | C4 y => C7 (add0 x y) | C5 y => C8 (add0 x y) | C6 y => C9 (add0 x y) | C7 y => CA (add0 x y) | C8 y => CB (add0 x y) | C9 y => CC (add0 x y) | CA y => CD (add0 x y) | CB y => CE (add0 x y) | CC y => CF (add0 x y) | CD y => C0 (add1 x y) | CE y => C1 (add1 x y) | CF y => C2 (add1 x y) end
  | C3 x => match b with
    | Nil => incr a 
    | C0 y => C4 (add0 x y) | C1 y => C5 (add0 x y) | C2 y => C6 (add0 x y) | C3 y => C7 (add0 x y) | C4 y => C8 (add0 x y) | C5 y => C9 (add0 x y) | C6 y => CA (add0 x y) | C7 y => CB (add0 x y) | C8 y => CC (add0 x y) | C9 y => CD (add0 x y) | CA y => CE (add0 x y) | CB y => CF (add0 x y) | CC y => C0 (add1 x y) | CD y => C1 (add1 x y) | CE y => C2 (add1 x y) | CF y => C3 (add1 x y) end
  | C4 x => match b with
    | Nil => incr a 
    | C0 y => C5 (add0 x y) | C1 y => C6 (add0 x y) | C2 y => C7 (add0 x y) | C3 y => C8 (add0 x y) | C4 y => C9 (add0 x y) | C5 y => CA (add0 x y) | C6 y => CB (add0 x y) | C7 y => CC (add0 x y) | C8 y => CD (add0 x y) | C9 y => CE (add0 x y) | CA y => CF (add0 x y) | CB y => C0 (add1 x y) | CC y => C1 (add1 x y) | CD y => C2 (add1 x y) | CE y => C3 (add1 x y) | CF y => C4 (add1 x y) end
  | C5 x => match b with
    | Nil => incr a 
    | C0 y => C6 (add0 x y) | C1 y => C7 (add0 x y) | C2 y => C8 (add0 x y) | C3 y => C9 (add0 x y) | C4 y => CA (add0 x y) | C5 y => CB (add0 x y) | C6 y => CC (add0 x y) | C7 y => CD (add0 x y) | C8 y => CE (add0 x y) | C9 y => CF (add0 x y) | CA y => C0 (add1 x y) | CB y => C1 (add1 x y) | CC y => C2 (add1 x y) | CD y => C3 (add1 x y) | CE y => C4 (add1 x y) | CF y => C5 (add1 x y) end
  | C6 x => match b with
    | Nil => incr a 
    | C0 y => C7 (add0 x y) | C1 y => C8 (add0 x y) | C2 y => C9 (add0 x y) | C3 y => CA (add0 x y) | C4 y => CB (add0 x y) | C5 y => CC (add0 x y) | C6 y => CD (add0 x y) | C7 y => CE (add0 x y) | C8 y => CF (add0 x y) | C9 y => C0 (add1 x y) | CA y => C1 (add1 x y) | CB y => C2 (add1 x y) | CC y => C3 (add1 x y) | CD y => C4 (add1 x y) | CE y => C5 (add1 x y) | CF y => C6 (add1 x y) end
  | C7 x => match b with
    | Nil => incr a 
    | C0 y => C8 (add0 x y) | C1 y => C9 (add0 x y) | C2 y => CA (add0 x y) | C3 y => CB (add0 x y) | C4 y => CC (add0 x y) | C5 y => CD (add0 x y) | C6 y => CE (add0 x y) | C7 y => CF (add0 x y) | C8 y => C0 (add1 x y) | C9 y => C1 (add1 x y) | CA y => C2 (add1 x y) | CB y => C3 (add1 x y) | CC y => C4 (add1 x y) | CD y => C5 (add1 x y) | CE y => C6 (add1 x y) | CF y => C7 (add1 x y) end
  | C8 x => match b with
    | Nil => incr a 
    | C0 y => C9 (add0 x y) | C1 y => CA (add0 x y) | C2 y => CB (add0 x y) | C3 y => CC (add0 x y) | C4 y => CD (add0 x y) | C5 y => CE (add0 x y) | C6 y => CF (add0 x y) | C7 y => C0 (add1 x y) | C8 y => C1 (add1 x y) | C9 y => C2 (add1 x y) | CA y => C3 (add1 x y) | CB y => C4 (add1 x y) | CC y => C5 (add1 x y) | CD y => C6 (add1 x y) | CE y => C7 (add1 x y) | CF y => C8 (add1 x y) end
  | C9 x => match b with
    | Nil => incr a 
    | C0 y => CA (add0 x y) | C1 y => CB (add0 x y) | C2 y => CC (add0 x y) | C3 y => CD (add0 x y) | C4 y => CE (add0 x y) | C5 y => CF (add0 x y) | C6 y => C0 (add1 x y) | C7 y => C1 (add1 x y) | C8 y => C2 (add1 x y) | C9 y => C3 (add1 x y) | CA y => C4 (add1 x y) | CB y => C5 (add1 x y) | CC y => C6 (add1 x y) | CD y => C7 (add1 x y) | CE y => C8 (add1 x y) | CF y => C9 (add1 x y) end
  | CA x => match b with
    | Nil => incr a 
    | C0 y => CB (add0 x y) | C1 y => CC (add0 x y) | C2 y => CD (add0 x y) | C3 y => CE (add0 x y) | C4 y => CF (add0 x y) | C5 y => C0 (add1 x y) | C6 y => C1 (add1 x y) | C7 y => C2 (add1 x y) | C8 y => C3 (add1 x y) | C9 y => C4 (add1 x y) | CA y => C5 (add1 x y) | CB y => C6 (add1 x y) | CC y => C7 (add1 x y) | CD y => C8 (add1 x y) | CE y => C9 (add1 x y) | CF y => CA (add1 x y) end
  | CB x => match b with
    | Nil => incr a 
    | C0 y => CC (add0 x y) | C1 y => CD (add0 x y) | C2 y => CE (add0 x y) | C3 y => CF (add0 x y) | C4 y => C0 (add1 x y) | C5 y => C1 (add1 x y) | C6 y => C2 (add1 x y) | C7 y => C3 (add1 x y) | C8 y => C4 (add1 x y) | C9 y => C5 (add1 x y) | CA y => C6 (add1 x y) | CB y => C7 (add1 x y) | CC y => C8 (add1 x y) | CD y => C9 (add1 x y) | CE y => CA (add1 x y) | CF y => CB (add1 x y) end
  | CC x => match b with
    | Nil => incr a 
    | C0 y => CD (add0 x y) | C1 y => CE (add0 x y) | C2 y => CF (add0 x y) | C3 y => C0 (add1 x y) | C4 y => C1 (add1 x y) | C5 y => C2 (add1 x y) | C6 y => C3 (add1 x y) | C7 y => C4 (add1 x y) | C8 y => C5 (add1 x y) | C9 y => C6 (add1 x y) | CA y => C7 (add1 x y) | CB y => C8 (add1 x y) | CC y => C9 (add1 x y) | CD y => CA (add1 x y) | CE y => CB (add1 x y) | CF y => CC (add1 x y) end
  | CD x => match b with
    | Nil => incr a 
    | C0 y => CE (add0 x y) | C1 y => CF (add0 x y) | C2 y => C0 (add1 x y) | C3 y => C1 (add1 x y) | C4 y => C2 (add1 x y) | C5 y => C3 (add1 x y) | C6 y => C4 (add1 x y) | C7 y => C5 (add1 x y) | C8 y => C6 (add1 x y) | C9 y => C7 (add1 x y) | CA y => C8 (add1 x y) | CB y => C9 (add1 x y) | CC y => CA (add1 x y) | CD y => CB (add1 x y) | CE y => CC (add1 x y) | CF y => CD (add1 x y) end
  | CE x => match b with
    | Nil => incr a 
    | C0 y => CF (add0 x y) | C1 y => C0 (add1 x y) | C2 y => C1 (add1 x y) | C3 y => C2 (add1 x y) | C4 y => C3 (add1 x y) | C5 y => C4 (add1 x y) | C6 y => C5 (add1 x y) | C7 y => C6 (add1 x y) | C8 y => C7 (add1 x y) | C9 y => C8 (add1 x y) | CA y => C9 (add1 x y) | CB y => CA (add1 x y) | CC y => CB (add1 x y) | CD y => CC (add1 x y) | CE y => CD (add1 x y) | CF y => CE (add1 x y) end
  | CF x => match b with
    | Nil => incr a 
    | C0 y => C0 (add1 x y) | C1 y => C1 (add1 x y) | C2 y => C2 (add1 x y) | C3 y => C3 (add1 x y) | C4 y => C4 (add1 x y) | C5 y => C5 (add1 x y) | C6 y => C6 (add1 x y) | C7 y => C7 (add1 x y) | C8 y => C8 (add1 x y) | C9 y => C9 (add1 x y) | CA y => CA (add1 x y) | CB y => CB (add1 x y) | CC y => CC (add1 x y) | CD y => CD (add1 x y) | CE y => CE (add1 x y) | CF y => CF (add1 x y) end
  end.
(** Multiplication by the number whose multiples are a1 to a15. *)
Definition mul_tab (a1 a2 a3 a4 a5 a6 a7 a8 a9 a10 a11 a12 a13 a14 a15 : num) : num -> num :=
  fix go (b : num) : num :=
  match b with
  | Nil => Nil
  | C0 x => C0 (go x)
  | C1 x => add0 a1 (C0 (go x))
  | C2 x => add0 a2 (C0 (go x))
  | C3 x => add0 a3 (C0 (go x))
  | C4 x => add0 a4 (C0 (go x))
  | C5 x => add0 a5 (C0 (go x))
  | C6 x => add0 a6 (C0 (go x))
  | C7 x => add0 a7 (C0 (go x))
  | C8 x => add0 a8 (C0 (go x))
  | C9 x => add0 a9 (C0 (go x))
  | CA x => add0 a10 (C0 (go x))
  | CB x => add0 a11 (C0 (go x))
  | CC x => add0 a12 (C0 (go x))
  | CD x => add0 a13 (C0 (go x))
  | CE x => add0 a14 (C0 (go x))
  | CF x => add0 a15 (C0 (go x))
  end.
(** The products of a1 with every number of bs; the table of multiples is shared. *)
Definition mul_row (a1 : num) (bs : list num) : list num :=
  let a2 := add0 a1 a1 in
  let a3 := add0 a2 a1 in
  let a4 := add0 a2 a2 in
  let a5 := add0 a4 a1 in
  let a6 := add0 a3 a3 in
  let a7 := add0 a6 a1 in
  let a8 := add0 a4 a4 in
  let a9 := add0 a8 a1 in
  let a10 := add0 a5 a5 in
  let a11 := add0 a10 a1 in
  let a12 := add0 a6 a6 in
  let a13 := add0 a12 a1 in
  let a14 := add0 a7 a7 in
  let a15 := add0 a14 a1 in
  map (mul_tab a1 a2 a3 a4 a5 a6 a7 a8 a9 a10 a11 a12 a13 a14 a15) bs.
Fixpoint is_zero (a : num) : bool := match a with Nil => true | C0 x => is_zero x | _ => false end.
Fixpoint eqn (a b : num) : bool :=
  match a with
  | Nil => is_zero b
  | C0 x => match b with C0 y => eqn x y | Nil => is_zero x | _ => false end
  | C1 x => match b with C1 y => eqn x y | _ => false end
  | C2 x => match b with C2 y => eqn x y | _ => false end
  | C3 x => match b with C3 y => eqn x y | _ => false end
  | C4 x => match b with C4 y => eqn x y | _ => false end
  | C5 x => match b with C5 y => eqn x y | _ => false end
  | C6 x => match b with C6 y => eqn x y | _ => false end
  | C7 x => match b with C7 y => eqn x y | _ => false end
  | C8 x => match b with C8 y => eqn x y | _ => false end
  | C9 x => match b with C9 y => eqn x y | _ => false end
  | CA x => match b with CA y => eqn x y | _ => false end
  | CB x => match b with CB y => eqn x y | _ => false end
  | CC x => match b with CC y => eqn x y | _ => false end
  | CD x => match b with CD y => eqn x y | _ => false end
  | CE x => match b with CE y => eqn x y | _ => false end
  | CF x => match b with CF y => eqn x y | _ => false end
  end.

Lemma val_incr a : val (incr a) = val a + 1.
Proof. induction a; cbn [incr val]; lia. Qed.
Lemma val_add a : forall b, val (add0 a b) = val a + val b /\ val (add1 a b) = val a + val b + 1.
Proof.
  induction a as [|x IH|x IH|x IH|x IH|x IH|x IH|x IH|x IH|x IH|x IH|x IH|x IH|x IH|x IH|x IH|x IH]; intros b.
  1: cbn [add0 add1 val]; rewrite val_incr; lia.
  all: destruct b as [|y|y|y|y|y|y|y|y|y|y|y|y|y|y|y|y]; cbn [add0 add1];
    [rewrite val_incr; cbn [val]; lia|..]; cbn [val]; destruct (IH y) as [A B]; rewrite ?A, ?B; lia.
Qed.
Lemma val_add0 a b : val (add0 a b) = val a + val b.
Proof. apply val_add. Qed.
Lemma mul_tab_ok a1 a2 a3 a4 a5 a6 a7 a8 a9 a10 a11 a12 a13 a14 a15 :
  val a2 = 2 * val a1 -> val a3 = 3 * val a1 -> val a4 = 4 * val a1 -> val a5 = 5 * val a1 -> val a6 = 6 * val a1 -> val a7 = 7 * val a1 -> val a8 = 8 * val a1 -> val a9 = 9 * val a1 -> val a10 = 10 * val a1 -> val a11 = 11 * val a1 -> val a12 = 12 * val a1 -> val a13 = 13 * val a1 -> val a14 = 14 * val a1 -> val a15 = 15 * val a1 ->
  forall b, val (mul_tab a1 a2 a3 a4 a5 a6 a7 a8 a9 a10 a11 a12 a13 a14 a15 b) = val a1 * val b.
Proof.
  intros H2 H3 H4 H5 H6 H7 H8 H9 H10 H11 H12 H13 H14 H15.
  induction b as [|x IH|x IH|x IH|x IH|x IH|x IH|x IH|x IH|x IH|x IH|x IH|x IH|x IH|x IH|x IH|x IH]; cbn [mul_tab].
  1: cbn [val]; lia.
  all: rewrite ?val_add0; cbn [val]; rewrite ?IH, ?H2, ?H3, ?H4, ?H5, ?H6, ?H7, ?H8, ?H9, ?H10, ?H11, ?H12, ?H13, ?H14, ?H15; ring.
Qed.
Lemma mul_row_ok a bs : map val (mul_row a bs) = map (fun b => val a * val b) bs.
Proof.
  unfold mul_row. cbv zeta. rewrite map_map. apply map_ext. intros b. apply mul_tab_ok; rewrite ?val_add0; ring.
Qed.
Lemma is_zero_ok a : is_zero a = true -> val a = 0.
Proof. induction a; cbn [is_zero val]; intros H; try discriminate H; [reflexivity|]. rewrite IHa by exact H. reflexivity. Qed.
Lemma eqn_ok a : forall b, eqn a b = true -> val a = val b.
Proof.
  induction a as [|x IH|x IH|x IH|x IH|x IH|x IH|x IH|x IH|x IH|x IH|x IH|x IH|x IH|x IH|x IH|x IH]; intros b H; cbn [eqn] in H.
  1: apply is_zero_ok in H; rewrite H; reflexivity.
  all: destruct b as [|y|y|y|y|y|y|y|y|y|y|y|y|y|y|y|y]; try discriminate H; cbn [val];
    first [rewrite (IH _ H); reflexivity|apply is_zero_ok in H; rewrite H; reflexivity].
Qed.

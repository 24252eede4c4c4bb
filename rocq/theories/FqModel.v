(** Model of utils/finiteField.go: arithmetic of Fq.
    A [*big.Int] is a [Z]; [big.Int.Mod] with a positive modulus is [Z.modulo]
    (both are the Euclidean remainder).  A Go panic or nil dereference is [None]. *)
Require Import ZArith Bool Ascii String List.
Import ListNotations.
Open Scope Z_scope.

Section Fq.
(** The field modulus, [Fq.Q], finiteField.go:37-41. *)
Variable q : Z.

(** finiteField.go:82-86 *)
Definition fadd (a b : Z) : Z := (a + b) mod q.
(** finiteField.go:89-93 *)
Definition fdouble (a : Z) : Z := (a + a) mod q.
(** finiteField.go:96-100 *)
Definition fsub (a b : Z) : Z := (a - b) mod q.
(** finiteField.go:103-107 *)
Definition fneg (a : Z) : Z := (- a) mod q.
(** finiteField.go:110-114 *)
Definition fmul (a b : Z) : Z := (a * b) mod q.
(** finiteField.go:116-118 *)
Definition fmul_scalar (base e : Z) : Z := fmul base e.
(** finiteField.go:136-139 *)
Definition fsquare (a : Z) : Z := (a * a) mod q.
(** finiteField.go:223-225 *)
Definition fcopy (a : Z) : Z := a mod q.

(** The extended Euclid loop behind math/big's ModInverse.
    Simplified: textbook Euclid instead of Lehmer's algorithm; both return the gcd
    and a Bezout coefficient.  [fuel] bounds the number of division steps;
    [egcd_fuel] below is enough (proved in FqProofs). *)
Fixpoint egcd (fuel : nat) (r0 r1 s0 s1 : Z) : Z * Z :=
  match fuel with
  | O => (r0, s0)
  | S f => if r1 =? 0 then (r0, s0)
           else let k := r0 / r1 in egcd f r1 (r0 - k * r1) s1 (s0 - k * s1)
  end.
Definition egcd_fuel (r0 r1 : Z) : nat := Z.to_nat (Z.log2 (r0 * r1) + 1).

(** math/big Int.ModInverse(a, n) for n > 0: nil ([None]) when a is not
    relatively prime to n, else the inverse in [0,n). *)
Definition mod_inverse (a n : Z) : option Z :=
  let a' := a mod n in
  let '(g, s) := egcd (egcd_fuel n a') n a' 0 1 in
  if g =? 1 then Some (s mod n) else None.

(** finiteField.go:121-127.  Zero is returned as is; otherwise ModInverse, whose nil
    result is [None] (every caller dereferences it and panics). *)
Definition finv (a : Z) : option Z :=
  if a =? 0 then Some a else mod_inverse a q.

(** finiteField.go:130-133 *)
Definition fdiv (a b : Z) : option Z :=
  match finv b with
  | Some i => Some ((fmul a i) mod q)
  | None => None
  end.

(** Loop of finiteField.go:147-153 / 162-168 on the binary digits of the exponent:
    an odd remainder multiplies, then square and shift. *)
Fixpoint exp_loop (res ex : Z) (rem : positive) : Z :=
  match rem with
  | xH => fmul res ex
  | xO p => exp_loop res (fsquare ex) p
  | xI p => exp_loop (fmul res ex) (fsquare ex) p
  end.
(** finiteField.go:142-155: the exponent is first copied with [fq.Copy], i.e. reduced mod q. *)
Definition fexp (base e : Z) : Z :=
  match fcopy e with
  | Zpos p => exp_loop 1 base p
  | _ => 1
  end.
(** finiteField.go:158-170, uint exponent as [N]. *)
Definition fexp_int (base : Z) (e : N) : Z :=
  match e with
  | N0 => 1
  | Npos p => exp_loop 1 base p
  end.

(** finiteField.go:173-179: recursion on the slice; length one returns the stored
    coefficient unreduced, the empty slice panics (v[1:] out of range). *)
Fixpoint feval_poly (v : list Z) (x : Z) : option Z :=
  match v with
  | [] => None
  | [c] => Some c
  | c :: v' => match feval_poly v' x with
               | Some r => Some (fadd (fmul r x) c)
               | None => None
               end
  end.

(** finiteField.go:67-79 *)
Definition fscalar_product (l r : list Z) : option Z :=
  if Nat.eqb (length l) (length r)
  then Some (fold_left (fun s (p : Z * Z) => (s + fst p * snd p) mod q) (combine l r) 0)
  else None.

(** finiteField.go:219-221: comparison of absolute-value byte strings. *)
Definition fis_zero (a : Z) : bool := Z.abs a =? Z.abs 0.

(** finiteField.go:227-244 (nq = Neg(Q); the two inner comparisons are kept) *)
Definition faffine (a : Z) : Z :=
  let nq := fneg q in
  if a <? 0 then
    let aux := if a <=? nq then a mod q else a in
    if aux <? 0 then aux + q else aux
  else if q <=? a then a mod q else a.

(** finiteField.go:246-250: comparison of absolute-value byte strings. *)
Definition fequal (a b : Z) : bool := Z.abs (faffine a) =? Z.abs (faffine b).

(** big.Int.BitLen *)
Definition bitlen (a : Z) : Z := if a =? 0 then 0 else Z.log2 (Z.abs a) + 1.

(** big.Int.SetBytes: big-endian value of a byte string. *)
Definition set_bytes (bs : list Z) : Z := fold_left (fun acc b => acc * 256 + b) bs 0.

(** finiteField.go:199-217.  The bytes read from crypto/rand are the argument; [None] when
    their number is not the requested one ([make] with a negative length panics: no list fits). *)
Definition frand (bs : list Z) : option Z :=
  if Z.of_nat (length bs) =? bitlen q / 8 - 1
  then Some (set_bytes bs mod q) else None.

(** big.Int.SetString(s, 10): optional sign, then one or more decimal digits. *)
Definition digit_of (c : ascii) : option Z :=
  let n := Z.of_nat (nat_of_ascii c) in
  if (48 <=? n) && (n <=? 57) then Some (n - 48) else None.
Fixpoint digits_val (s : string) (acc : Z) : option Z :=
  match s with
  | EmptyString => Some acc
  | String c s' => match digit_of c with
                   | Some d => digits_val s' (acc * 10 + d)
                   | None => None
                   end
  end.
Definition nonempty_digits (s : string) : option Z :=
  match s with EmptyString => None | _ => digits_val s 0 end.
Definition set_string10 (s : string) : option Z :=
  match s with
  | String "-"%char s' => match nonempty_digits s' with Some v => Some (- v) | None => None end
  | String "+"%char s' => nonempty_digits s'
  | _ => nonempty_digits s
  end.
(** finiteField.go:62-65: on a malformed string SetString returns nil and the following
    [v.Mod] panics, so the boolean result is never false. *)
Definition string_to_field (s : string) : option (Z * bool) :=
  match set_string10 s with
  | Some v => Some (v mod q, true)
  | None => None
  end.
End Fq.

(** pairing/constants.go:20 and :23. *)
Definition P : Z := 21888242871839275222246405745257275088696311157297823662689037894645226208583.
Definition Order : Z := 21888242871839275222246405745257275088548364400416034343698204186575808495617.

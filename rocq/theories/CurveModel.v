(** Model of pairing/curve.go, pairing/twist.go and of the group operations and the serialisation
    in pairing/bn256.go.
    - A [*big.Int] is a [Z]; reductions happen exactly where the code calls Mod.
    - A method is a function of its arguments (and of what it keeps of its receiver) to the new
      value of the receiver; the receiver is another object than the arguments unless the name ends
      in [_inplace].
    - The field t of a curvePoint is never read (only the t of a twistPoint is, in optate.go), so it
      is left out of [cpoint].
    - Scratch objects come from a pool; the contents they bring along are arguments ([st]). *)
Require Import ZArith Bool List.
Require Import Verif.FqModel Verif.TowerModel.
Import ListNotations.
Open Scope Z_scope.

(** curve.go:14-16 *)
Record cpoint := CP { cx : Z; cy : Z; cz : Z }.
(** curve.go:18 *)
Definition curveB : Z := 3.
(** curve.go:21-26 *)
Definition curveGen : cpoint := CP 1 2 1.
(** curve.go:57-67: the affine equation. *)
Definition c_on_curve (c : cpoint) : bool := zmin (cy c * cy c - cx c * cx c * cx c - curveB) =? 0.
(** curve.go:73-75 *)
Definition c_is_infinity (c : cpoint) : bool := cz c =? 0.
(** curve.go:183-226 *)
Definition c_double (a : cpoint) : cpoint :=
  let A := (cx a * cx a) mod P in
  let B := (cy a * cy a) mod P in
  let C := (B * B) mod P in
  let t := cx a + B in
  let t2 := (t * t) mod P in
  let t := t2 - A in
  let t2 := t - C in
  let d := t2 + t2 in
  let t := A + A in
  let e := t + A in
  let f := (e * e) mod P in
  let t := d + d in
  let x := f - t in
  let t := C + C in
  let t2 := t + t in
  let t := t2 + t2 in
  let y := d - x in
  let t2 := (e * y) mod P in
  let y := t2 - t in
  let t := (cy a * cz a) mod P in
  CP x y (t + t).
(** curve.go:183-226 when c is a: line 214 multiplies by the y just written. *)
Definition c_double_inplace (a : cpoint) : cpoint :=
  let d := c_double a in
  let t := (cy d * cz a) mod P in
  CP (cx d) (cy d) (t + t).
(** curve.go:77-181; [dbl] is the call of line 132. *)
Definition c_add_with (dbl : cpoint -> cpoint) (a b : cpoint) : cpoint :=
  if c_is_infinity a then b
  else if c_is_infinity b then a
  else
  let z1z1 := (cz a * cz a) mod P in
  let z2z2 := (cz b * cz b) mod P in
  let u1 := (cx a * z2z2) mod P in
  let u2 := (cx b * z1z1) mod P in
  let t := (cz b * z2z2) mod P in
  let s1 := (cy a * t) mod P in
  let t := (cz a * z1z1) mod P in
  let s2 := (cy b * t) mod P in
  let h := u2 - u1 in
  let xEqual := h =? 0 in
  let t := h + h in
  let i := (t * t) mod P in
  let j := (h * i) mod P in
  let t := s2 - s1 in
  let yEqual := t =? 0 in
  if xEqual && yEqual then dbl a
  else
  let r := t + t in
  let v := (u1 * i) mod P in
  let t4 := (r * r) mod P in
  let t := v + v in
  let t6 := t4 - j in
  let x := t6 - t in
  let t := v - x in
  let t4 := (s1 * j) mod P in
  let t6 := t4 + t4 in
  let t4 := (r * t) mod P in
  let y := t4 - t6 in
  let t := cz a + cz b in
  let t4 := (t * t) mod P in
  let t := t4 - z1z1 in
  let t4 := t - z2z2 in
  CP x y ((t4 * h) mod P).
Definition c_add : cpoint -> cpoint -> cpoint := c_add_with c_double.
(** a.Add(a, b): the reads of a.z in lines 159-164 come before its only write. *)
Definition c_add_inplace : cpoint -> cpoint -> cpoint := c_add_with c_double_inplace.
(** curve.go:228-246; [for i := BitLen; i >= 0; i--], [st] holds the x and y of the scratch sum. *)
Definition c_mul (st : cpoint) (a : cpoint) (k : Z) : cpoint :=
  fold_left (fun sum b => let t := c_double sum in if b : bool then c_add t a else t)
    (bits_down k (S (Z.to_nat (bitlen k)))) (CP (cx st) (cy st) 0).
(** curve.go:250-279; [st] is what ModInverse leaves in its receiver when there is no inverse
    (with a nil pool, 0). *)
Definition c_make_affine (st : Z) (c : cpoint) : cpoint :=
  if Z.abs (cz c) =? 1 then c
  else if c_is_infinity c then CP 0 1 0
  else
  let zInv := match mod_inverse (cz c) P with Some i => i | None => st end in
  let t := (cy c * zInv) mod P in
  let zInv2 := (zInv * zInv) mod P in
  let y := (t * zInv2) mod P in
  let x := (cx c * zInv2) mod P in
  CP x y 1.
(** curve.go:281-286 *)
Definition c_negative (a : cpoint) : cpoint := CP (cx a) (- cy a) (cz a).

(** twist.go:14-16 *)
Record tpoint := TP { tx : gfp2; ty : gfp2; tz : gfp2; tt : gfp2 }.
(** twist.go:18-21 *)
Definition twistB : gfp2 :=
  (266929791119991161246907387137283842545076965332900288569378510910307636690,
   19485874751759354771024239261021720505790618469301721065564631296452457478373).
(** twist.go:24-41 *)
Definition twistGen : tpoint := TP
  (11559732032986387107991004021392285783925812861821192530917403151452391805634,
   10857046999023057135944570762232829481370756359578518086990519993285655852781)
  (4082367875863433681332203403145435568316851327593401208105741076214120093531,
   8495653923123431417604973247489272438418190587263600148770280649306958101930)
  g2_one g2_one.
(** twist.go:92-94 *)
Definition t_is_infinity (c : tpoint) : bool := g2_is_zero (tz c).
(** twist.go:170-206; t is kept from the receiver: [rt]. *)
Definition t_double (rt : gfp2) (a : tpoint) : tpoint :=
  let A := g2_square (tx a) in
  let B := g2_square (ty a) in
  let C := g2_square B in
  let t := g2_add (tx a) B in
  let t2 := g2_square t in
  let t := g2_sub t2 A in
  let t2 := g2_sub t C in
  let d := g2_add t2 t2 in
  let t := g2_add A A in
  let e := g2_add t A in
  let f := g2_square e in
  let t := g2_add d d in
  let x := g2_sub f t in
  let t := g2_add C C in
  let t2 := g2_add t t in
  let t := g2_add t2 t2 in
  let y := g2_sub d x in
  let t2 := g2_mul e y in
  let y := g2_sub t2 t in
  let t := g2_mul (ty a) (tz a) in
  TP x y (g2_add t t) rt.
(** twist.go:170-206 when c is a. *)
Definition t_double_inplace (a : tpoint) : tpoint :=
  let d := t_double (tt a) a in
  let t := g2_mul (ty d) (tz a) in
  TP (tx d) (ty d) (g2_add t t) (tt a).
(** twist.go:96-168 *)
Definition t_add_with (dbl : tpoint -> tpoint) (rt : gfp2) (a b : tpoint) : tpoint :=
  if t_is_infinity a then b
  else if t_is_infinity b then a
  else
  let z1z1 := g2_square (tz a) in
  let z2z2 := g2_square (tz b) in
  let u1 := g2_mul (tx a) z2z2 in
  let u2 := g2_mul (tx b) z1z1 in
  let t := g2_mul (tz b) z2z2 in
  let s1 := g2_mul (ty a) t in
  let t := g2_mul (tz a) z1z1 in
  let s2 := g2_mul (ty b) t in
  let h := g2_sub u2 u1 in
  let xEqual := g2_is_zero h in
  let t := g2_add h h in
  let i := g2_square t in
  let j := g2_mul h i in
  let t := g2_sub s2 s1 in
  let yEqual := g2_is_zero t in
  if xEqual && yEqual then dbl a
  else
  let r := g2_add t t in
  let v := g2_mul u1 i in
  let t4 := g2_square r in
  let t := g2_add v v in
  let t6 := g2_sub t4 j in
  let x := g2_sub t6 t in
  let t := g2_sub v x in
  let t4 := g2_mul s1 j in
  let t6 := g2_add t4 t4 in
  let t4 := g2_mul r t in
  let y := g2_sub t4 t6 in
  let t := g2_add (tz a) (tz b) in
  let t4 := g2_square t in
  let t := g2_sub t4 z1z1 in
  let t4 := g2_sub t z2z2 in
  TP x y (g2_mul t4 h) rt.
Definition t_add (rt : gfp2) : tpoint -> tpoint -> tpoint := t_add_with (t_double rt) rt.
Definition t_add_inplace (a b : tpoint) : tpoint := t_add_with t_double_inplace (tt a) a b.
(** twist.go:208-226; [st] and [rt]: contents of the scratch sum and of the t of the scratch t. *)
Definition t_mul (st : tpoint) (rt : gfp2) (a : tpoint) (k : Z) : tpoint :=
  fold_left (fun sum b => let t := t_double rt sum in if b : bool then t_add (tt sum) t a else t)
    (bits_down k (S (Z.to_nat (bitlen k)))) (TP (tx st) (ty st) g2_zero (tt st)).
(** twist.go:71-86: the affine equation, then Order times the point. *)
Definition t_on_curve (st : tpoint) (rt : gfp2) (c : tpoint) : bool :=
  let yy := g2_square (ty c) in
  let xxx := g2_mul (g2_square (tx c)) (tx c) in
  let yy := g2_minimal (g2_sub (g2_sub yy xxx) twistB) in
  if negb (fst yy =? 0) || negb (snd yy =? 0) then false
  else g2_is_zero (tz (t_mul st rt c Order)).
(** twist.go:230-255 *)
Definition t_make_affine (st : Z) (c : tpoint) : tpoint :=
  if g2_is_one (tz c) then c
  else if t_is_infinity c then TP g2_zero g2_one g2_zero g2_zero
  else
  let zInv := g2_invert st (tz c) in
  let t := g2_mul (ty c) zInv in
  let zInv2 := g2_square zInv in
  let y := g2_mul t zInv2 in
  let x := g2_mul (tx c) zInv2 in
  TP x y g2_one g2_one.
(** twist.go:257-263 *)
Definition t_negative (a : tpoint) : tpoint := TP (tx a) (g2_sub g2_zero (ty a)) (tz a) g2_zero.

(** ** bn256.go.  Every operation works on a fresh pool or none, so scratch integers are 0. *)
Definition cscratch : cpoint := CP 0 0 0.
Definition tscratch : tpoint := TP g2_zero g2_zero g2_zero g2_zero.
(** bn256.go:68-75, 78-85 *)
Definition g1_base (k : Z) : cpoint := c_mul cscratch curveGen k.
Definition g1_mul (a : cpoint) (k : Z) : cpoint := c_mul cscratch a k.
(** bn256.go:107-114: X, which also makes its receiver affine. *)
Definition g1_x (e : cpoint) : Z := if c_is_infinity e then 0 else cx (c_make_affine 0 e) mod P.
(** bn256.go:210-225 *)
Definition g2_base (k : Z) : tpoint := t_mul tscratch g2_zero twistGen k.
Definition g2_smul (a : tpoint) (k : Z) : tpoint := t_mul tscratch g2_zero a k.
(** wol19.go:387-412: a sum built up in its first operand, [acc.Add(acc, term)] in a loop. *)
Definition c_accumulate (acc : cpoint) (terms : list cpoint) : cpoint := fold_left c_add_inplace terms acc.
Definition t_accumulate (acc : tpoint) (terms : list tpoint) : tpoint := fold_left t_add_inplace terms acc.

(** big.Int.Bytes of a non-negative number below 2^256, copied to the end of 32 zero bytes. *)
Definition byte_at (x : Z) (i : nat) : Z := (x / 256 ^ Z.of_nat i) mod 256.
Definition bytes32 (x : Z) : list Z := map (byte_at x) (rev (seq 0 32)).
(** bn256.go:117-135 *)
Definition g1_marshal (e : cpoint) : list Z :=
  if c_is_infinity e then repeat 0 64
  else let a := c_make_affine 0 e in bytes32 (cx a mod P) ++ bytes32 (cy a mod P).
(** m[k*numBytes : (k+1)*numBytes] *)
Definition chunk (k : nat) (m : list Z) : list Z := firstn 32 (skipn (32 * k) m).
(** bn256.go:139-172; [None] is an error. *)
Definition g1_unmarshal (m : list Z) : option cpoint :=
  if negb (Nat.eqb (length m) 64) then None
  else
  let x := set_bytes (chunk 0 m) in
  if P <=? x then None else
  let y := set_bytes (chunk 1 m) in
  if P <=? y then None else
  if (x =? 0) && (y =? 0) then Some (CP x 1 0)
  else if c_on_curve (CP x y 1) then Some (CP x y 1) else None.
(** bn256.go:238-260 *)
Definition g2_marshal (n : tpoint) : list Z :=
  if t_is_infinity n then repeat 0 128
  else let a := t_make_affine 0 n in
       bytes32 (fst (tx a) mod P) ++ bytes32 (snd (tx a) mod P) ++ bytes32 (fst (ty a) mod P) ++ bytes32 (snd (ty a) mod P).
(** bn256.go:264-308; the pool of IsOnCurve holds what its own scratch objects left ([st], [rt]). *)
Definition g2_unmarshal (st : tpoint) (rt : gfp2) (m : list Z) : option tpoint :=
  if negb (Nat.eqb (length m) 128) then None
  else
  let xx := set_bytes (chunk 0 m) in
  if P <=? xx then None else
  let xy := set_bytes (chunk 1 m) in
  if P <=? xy then None else
  let yx := set_bytes (chunk 2 m) in
  if P <=? yx then None else
  let yy := set_bytes (chunk 3 m) in
  if P <=? yy then None else
  if (xx =? 0) && (xy =? 0) && (yx =? 0) && (yy =? 0) then Some (TP (xx, xy) g2_one g2_zero g2_zero)
  else let c := TP (xx, xy) (yx, yy) g2_one g2_one in
       if t_on_curve st rt c then Some c else None.
(** bn256.go:348-382 *)
Definition flatten12 (a : gfp12) : list Z :=
  flat_map (fun b : gfp6 => flat_map (fun c : gfp2 => [fst c; snd c]) [g6x b; g6y b; g6z b]) [fst a; snd a].
Definition gt_marshal (n : gfp12) : list Z := flat_map bytes32 (flatten12 (g12_minimal n)).
(** bn256.go:386-412: no range check. *)
Definition gt_unmarshal (m : list Z) : option gfp12 :=
  if negb (Nat.eqb (length m) 384) then None
  else
  let v k := set_bytes (chunk k m) in
  Some (((v 0, v 1), (v 2, v 3), (v 4, v 5)), ((v 6, v 7), (v 8, v 9), (v 10, v 11)))%nat.

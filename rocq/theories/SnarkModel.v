(** Model of zkSNARK/wol19.go and of the transposition and interpolation in
    circuitcompiler/ER1CS.go:52-139.
    The groups of package bn256 are a parameter: a record of the operations the code calls.  What
    is assumed about them is a separate predicate (SnarkSpec), named by every theorem that needs
    it.  [acc1 a b] is the call [a.Add(a, b)], where the receiver is also an argument; [add1 a b]
    is [new(G1).Add(a, b)]: the two differ in package bn256 (C52).
    The random values of the setup are arguments.  Progress output is omitted. *)
Require Import ZArith NArith Bool Ascii String List.
Require Import Verif.FqModel Verif.PolyModel Verif.AvlModel Verif.SparseModel Verif.FactorModel Verif.R1csModel.
Import ListNotations.
Open Scope Z_scope.

(** pairing/bn256.go: ScalarBaseMult, ScalarMult, Add, X, Pair, Marshal of G1, G2 and GT. *)
Record groups := Groups {
  G1 : Type; G2 : Type; GT : Type;
  base1 : Z -> G1; smul1 : G1 -> Z -> G1; acc1 : G1 -> G1 -> G1; add1 : G1 -> G1 -> G1; xcoord : G1 -> Z;
  base2 : Z -> G2; smul2 : G2 -> Z -> G2; acc2 : G2 -> G2 -> G2; add2 : G2 -> G2 -> G2;
  smulT : GT -> Z -> GT; addT : GT -> GT -> GT;
  pair : G1 -> G2 -> GT; marshalT : GT -> list Z }.

(** ER1CS.go:43-50 and 35-42 *)
Record columns (A : Type) := Columns { ngates : nat; wlen : nat; cl : list A; cr : list A; ce : list A; co : list A }.
Arguments Columns {A}. Arguments ngates {A}. Arguments wlen {A}. Arguments cl {A}. Arguments cr {A}.
Arguments ce {A}. Arguments co {A}.

(** utils.Transpose of the rows.  An entry that stays nil makes the interpolation panic; here the
    panic is taken at once. *)
Definition transposed (m : list (list Z)) : option (list (list Z)) :=
  match transpose m with Some t => all_some (all_some (fun x => x)) t | None => None end.
(** ER1CS.go:81-91 *)
Definition transpose_er1cs (s : er1cs (list Z)) : option (columns (list Z)) :=
  match transposed (map rl (rows s)), transposed (map rr (rows s)), transposed (map re (rows s)), transposed (map ro (rows s)) with
  | Some l, Some r, Some e, Some o => Some (Columns (List.length (rows s)) (List.length (index_map s)) l r e o)
  | _, _, _, _ => None
  end.
(** ER1CS.go:52-64 *)
Definition transpose_sparse_er1cs (s : er1cs tree) : option (columns tree) :=
  let n := List.length (index_map s) in
  match transpose_sparse (map rl (rows s)) n, transpose_sparse (map rr (rows s)) n,
        transpose_sparse (map re (rows s)) n, transpose_sparse (map ro (rows s)) n with
  | Some l, Some r, Some e, Some o => Some (Columns (List.length (rows s)) n l r e o)
  | _, _, _, _ => None
  end.

(** keys[i] times ws[i] for all i < len(ws); [None] when there are fewer keys. *)
Fixpoint smuls {A} (mul : A -> Z -> A) (keys : list A) (ws : list Z) : option (list A) :=
  match ws, keys with
  | [], _ => Some []
  | _ :: _, [] => None
  | w :: ws', k :: keys' => match smuls mul keys' ws' with Some r => Some (mul k w :: r) | None => None end
  end.
(** sum = t0; sum.Add(sum, t1); ...; [None]: there is no t0. *)
Definition total_of {A} (acc : A -> A -> A) (ts : list A) : option A :=
  match ts with [] => None | t :: ts' => Some (fold_left acc ts' t) end.
Definition msm {A} (mul : A -> Z -> A) (acc : A -> A -> A) (keys : list A) (ws : list Z) : option A :=
  match smuls mul keys ws with Some ts => total_of acc ts | None => None end.

Section Snark.
Variable q : Z.
Variable G : groups.

(** g1ScalarBaseMultiply(k).X() *)
Definition gxc (k : Z) : Z := xcoord G (base1 G k).

(** ER1CS.go:99-115, one column after the other; the cache of basis polynomials is threaded. *)
Fixpoint lagranges (c : cache) (cols : list (list Z)) : option (list (list Z) * cache) :=
  match cols with
  | [] => Some ([], c)
  | d :: cols' => match lagrange q c d with
                  | None => None
                  | Some (p, c1) => match lagranges c1 cols' with
                                    | Some (ps, c2) => Some (p :: ps, c2)
                                    | None => None
                                    end
                  end
  end.
(** The four lists are indexed by i < len(L): a shorter one panics.  Simplified: the code
    interpolates L[i], R[i], E[i], O[i] in turn, here all L come first; the order only matters
    to the cache. *)
Definition er1cs_to_eap (c : cache) (T : columns (list Z)) : option (list (list Z) * list (list Z) * list (list Z) * list (list Z) * cache) :=
  let n := List.length (cl T) in
  if Nat.leb n (List.length (cr T)) && Nat.leb n (List.length (ce T)) && Nat.leb n (List.length (co T)) then
    match lagranges c (cl T) with
    | None => None
    | Some (l, c1) =>
        match lagranges c1 (firstn n (cr T)) with
        | None => None
        | Some (r, c2) =>
            match lagranges c2 (firstn n (ce T)) with
            | None => None
            | Some (e, c3) =>
                match lagranges c3 (firstn n (co T)) with
                | None => None
                | Some (o, c4) => Some (l, r, e, o, c4)
                end
            end
        end
    end
  else None.

(** pf.AddPolynomials(pf.LinearCombine(cols, witness)) *)
Definition weighted (cols : list (list Z)) (w : list Z) : option (list Z) :=
  match plinear_combine q cols w with Some ps => Some (padd_polynomials q ps) | None => None end.
(** wol19.go:75-100 *)
Definition combine_polynomials (c : cache) (w : list Z) (T : columns (list Z)) : option (list Z * cache) :=
  match weighted (cl T) w, weighted (cr T) w, weighted (ce T) w, weighted (co T) w with
  | Some dl, Some dr, Some de, Some d_o =>
      match lagrange q c dl with
      | None => None
      | Some (l, c1) =>
          match lagrange q c1 dr with
          | None => None
          | Some (r, c2) =>
              match lagrange q c2 d_o with
              | None => None
              | Some (o, c3) =>
                  match lagrange q c3 (map gxc de) with
                  | None => None
                  | Some (g, c4) =>
                      match pmul_checked q l r with
                      | None => None
                      | Some a => Some (psub q (padd q a g) o, c4)
                      end
                  end
              end
          end
      end
  | _, _, _, _ => None
  end.

(** wol19.go:13-37; eGH and eGHalphaBeta are e(g,h) and e(g,h)^(alpha beta). *)
Record pk := Pk {
  domain : list Z; eGH : GT G; eGHab : GT G;
  rleo_delta : list (G1 G); alpha1 : G1 G; beta1 : G1 G; delta1 : G1 G; rleo_gamma : list (G1 G);
  powers1 : list (G1 G); powers_domain_delta : list (G1 G); lx_ex : list (G1 G); ex : list (G1 G);
  beta2 : G2 G; gamma2 : G2 G; delta2 : G2 G; powers2 : list (G2 G); rx : list (G2 G) }.

(** tEncr of wol19.go:190-204: n values x, x^2, ... *)
Fixpoint powers (n : nat) (t x : Z) : list Z :=
  match n with O => [] | S n' => t :: powers n' (fmul q t x) x end.

(** Values of the polynomials of one wire at the secret point, and the combination of lines 228-231. *)
Definition wire_key (x al be : Z) (l r e o : option Z) : option (Z * Z * Z * Z) :=
  match l, r, e, o with
  | Some l, Some r, Some e, Some o =>
      Some (e, fadd q e l, fcopy q r,
            fadd q (fadd q (fadd q (fmul q al r) (fmul q be l)) (fmul q be e)) o)
  | _, _, _, _ => None
  end.
(** wol19.go:218-248 for the wires i, i+1, ..., witnessLength-1 (n of them); [ev] evaluates a
    polynomial. *)
Fixpoint wire_keys {A} (ev : A -> Z -> option Z) (n i : nat) (x al be : Z) (ls rs es os : list A) : option (list (Z * Z * Z * Z)) :=
  match n with
  | O => Some []
  | S n' =>
      let at_ ps := match nth_error ps i with Some p => ev p x | None => None end in
      match wire_key x al be (at_ ls) (at_ rs) (at_ es) (at_ os), wire_keys ev n' (S i) x al be ls rs es os with
      | Some k, Some ks => Some (k :: ks)
      | _, _ => None
      end
  end.

(** wol19.go:145-252 and 262-369 after the interpolation. *)
Definition setup_keys {A} (ev : A -> Z -> option Z) (pub gates wlength : nat) (ls rs es os : list A) (x al be ga de : Z) : option pk :=
  let n := List.length ls in
  if Nat.eqb n (List.length rs) && Nat.eqb (List.length rs) (List.length es) && Nat.eqb (List.length es) (List.length os) then
    if Nat.leb n pub then None else
    let dom := domain_poly q gates in
    match feval_poly q dom x, finv q de, finv q ga with
    | Some dx, Some id, Some ig =>
        let dxd := fmul q id dx in
        match wire_keys ev wlength 0 x al be ls rs es os with
        | None => None
        | Some ks =>
            let ps := powers (gates - 1) x x in
            Some {| domain := dom;
                    eGH := pair G (base1 G 1) (base2 G 1);
                    eGHab := pair G (base1 G al) (base2 G be);
                    rleo_delta := map (fun k => base1 G (fmul q id (snd k))) (skipn pub ks);
                    alpha1 := base1 G al; beta1 := base1 G be; delta1 := base1 G de;
                    rleo_gamma := map (fun k => base1 G (fmul q ig (snd k))) (firstn pub ks);
                    powers1 := base1 G 1 :: map (base1 G) ps;
                    powers_domain_delta := base1 G dxd :: map (fun t => base1 G (fmul q t dxd)) ps;
                    lx_ex := map (fun k => base1 G (snd (fst (fst k)))) ks;
                    ex := map (fun k => base1 G (fst (fst (fst k)))) ks;
                    beta2 := base2 G be; gamma2 := base2 G ga; delta2 := base2 G de;
                    powers2 := base2 G 1 :: map (base2 G) ps;
                    rx := map (fun k => base2 G (snd (fst k))) ks |}
        end
    | _, _, _ => None
    end
  else None.
(** wol19.go:137-253 *)
Definition generate_setup (c : cache) (pub : nat) (T : columns (list Z)) (x al be ga de : Z) : option (pk * cache) :=
  match er1cs_to_eap c T with
  | None => None
  | Some (l, r, e, o, c') =>
      match setup_keys (feval_poly q) pub (ngates T) (wlen T) l r e o x al be ga de with
      | Some k => Some (k, c')
      | None => None
      end
  end.

(** wol19.go:66-72 *)
Record proof := Proof { piA : G1 G; piB : G2 G; piC : G1 G; piF : G1 G }.

(** The four sums that both provers form, wol19.go:377-380, 394-412. *)
Definition assemble (pub : nat) (k : pk) (w : list Z) (qd : G1 G) : option proof :=
  match msm (smul1 G) (acc1 G) (lx_ex k) w, msm (smul2 G) (acc2 G) (rx k) w,
        msm (smul1 G) (acc1 G) (rleo_delta k) (skipn pub w), msm (smul1 G) (acc1 G) (ex k) w with
  | Some a, Some b, Some c, Some f => Some (Proof (acc1 G a (alpha1 k)) b (acc1 G c qd) f)
  | _, _, _, _ => None
  end.
(** wol19.go:373-415 *)
Definition generate_proofs (pub : nat) (k : pk) (w Px : list Z) : option proof :=
  match pdiv q Px (domain k) with
  | None => None
  | Some (Qx, r) =>
      if is_zero_array r then
        match msm (smul1 G) (acc1 G) (powers_domain_delta k) Qx with
        | Some qd => assemble pub k w qd
        | None => None
        end
      else None
  end.

(** bytes.Equal *)
Definition bytes_equal (a b : list Z) : bool := if list_eq_dec Z.eq_dec a b then true else false.
(** wol19.go:463-496 *)
Definition verify_proof (k : pk) (p : proof) (signals : list Z) : option bool :=
  if negb (Nat.eqb (List.length signals) (List.length (rleo_gamma k))) then Some false
  else match msm (smul1 G) (acc1 G) (rleo_gamma k) signals with
       | None => None
       | Some ic =>
           let a := pair G (piA p) (add2 G (piB p) (beta2 k)) in
           let b := smulT G (eGH k) (xcoord G (piF p)) in
           let d := pair G ic (gamma2 k) in
           let e := pair G (piC p) (delta2 k) in
           let f := pair G (piF p) (piB p) in
           Some (bytes_equal (marshalT G (addT G a b)) (marshalT G (addT G (addT G (eGHab k) d) (addT G e f))))
       end.

(** ** Sparse *)
(** ER1CS.go:123-139 with the degree argument [n] = WitnessLength. *)
Fixpoint interpolations (c : scache) (n : nat) (cols : list tree) : option (list tree * scache) :=
  match cols with
  | [] => Some ([], c)
  | d :: cols' => match interpolate_sparse q c d n with
                  | None => None
                  | Some (p, c1) => match interpolations c1 n cols' with
                                    | Some (ps, c2) => Some (p :: ps, c2)
                                    | None => None
                                    end
                  end
  end.
Definition er1cs_to_eap_sparse (c : scache) (T : columns tree) : option (list tree * list tree * list tree * list tree * scache) :=
  let n := List.length (cl T) in
  if Nat.leb n (List.length (cr T)) && Nat.leb n (List.length (ce T)) && Nat.leb n (List.length (co T)) then
    match interpolations c (wlen T) (cl T) with
    | None => None
    | Some (l, c1) =>
        match interpolations c1 (wlen T) (firstn n (cr T)) with
        | None => None
        | Some (r, c2) =>
            match interpolations c2 (wlen T) (firstn n (ce T)) with
            | None => None
            | Some (e, c3) =>
                match interpolations c3 (wlen T) (firstn n (co T)) with
                | None => None
                | Some (o, c4) => Some (l, r, e, o, c4)
                end
            end
        end
    end
  else None.
(** wol19.go:256-370 *)
Definition generate_setup_sparse (c : scache) (pub : nat) (T : columns tree) (x al be ga de : Z) : option (pk * scache) :=
  match er1cs_to_eap_sparse c T with
  | None => None
  | Some (l, r, e, o, c') =>
      match setup_keys (eval_sparse q) pub (ngates T) (wlen T) l r e o x al be ga de with
      | Some k => Some (k, c')
      | None => None
      end
  end.

Definition sweighted (cols : list tree) (w : list Z) : option tree :=
  match linear_combine_sparse q cols w with Some ps => add_polynomials_sparse q ps | None => None end.
(** wol19.go:117-122 *)
Fixpoint gx_points (es : list (N * Z)) (t : tree) : option tree :=
  match es with
  | [] => Some t
  | (k, v) :: es' => match insert_no_overwrite t k (gxc v) with Some t' => gx_points es' t' | None => None end
  end.
(** wol19.go:103-127 *)
Definition combine_sparse_polynomials (c : scache) (w : list Z) (T : columns tree) : option (tree * scache) :=
  match sweighted (cl T) w, sweighted (cr T) w, sweighted (ce T) w, sweighted (co T) w with
  | Some dl, Some dr, Some de, Some d_o =>
      match interpolate_sparse q c dl (ngates T) with
      | None => None
      | Some (l, c1) =>
          match interpolate_sparse q c1 dr (ngates T) with
          | None => None
          | Some (r, c2) =>
              match interpolate_sparse q c2 d_o (ngates T) with
              | None => None
              | Some (o, c3) =>
                  match gx_points (ascending de) Leaf with
                  | None => None
                  | Some pts =>
                      match interpolate_sparse q c3 pts (ngates T) with
                      | None => None
                      | Some (g, c4) =>
                          match mul_sparse q l r with
                          | None => None
                          | Some a =>
                              match add_to_sparse q a g with
                              | None => None
                              | Some b => match sub_to_sparse q b o with Some p => Some (p, c4) | None => None end
                              end
                          end
                      end
                  end
              end
          end
      end
  | _, _, _, _ => None
  end.

(** wol19.go:432-437 *)
Fixpoint sparse_msm (keys : list (G1 G)) (es : list (N * Z)) (s : G1 G) : option (G1 G) :=
  match es with
  | [] => Some s
  | (k, v) :: es' => match nth_error keys (N.to_nat k) with
                     | Some p => sparse_msm keys es' (acc1 G s (smul1 G p v))
                     | None => None
                     end
  end.
(** wol19.go:418-460; [fuel] bounds the rounds of the division. *)
Definition generate_proofs_sparse (fuel : nat) (pub : nat) (k : pk) (w : list Z) (Px : tree) : outcome proof :=
  match from_array (domain k) with
  | None => Panic
  | Some dom =>
      match divide_sparse q fuel Px dom with
      | Panic => Panic
      | Running => Running
      | Ret (Qx, r) =>
          if Nat.ltb 0 (size r) then Panic
          else match sparse_msm (powers_domain_delta k) (ascending Qx) (base1 G 0) with
               | None => Panic
               | Some qd => match assemble pub k w qd with Some p => Ret p | None => Panic end
               end
      end
  end.
End Snark.

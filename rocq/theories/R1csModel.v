(** Model of GatesToR1CS and GatesToSparseR1CS, circuitcompiler/Programm.go:613-1033.
    The gates are those of the collector, so their identifiers are set (gate.go:39-44 returns the
    stored identifier).  Go maps are association lists; insertion order has no influence. *)
Require Import ZArith NArith Bool Ascii String List.
Require Import Verif.FqModel Verif.PolyModel Verif.AvlModel Verif.SparseModel Verif.FactorModel.
Import ListNotations.
Open Scope Z_scope.

(** indexMap *)
Definition imap := list (string * nat).
Fixpoint im_get (m : imap) (x : string) : option nat :=
  match m with
  | [] => None
  | (y, i) :: m' => if String.eqb y x then Some i else im_get m' x
  end.
(** indexMap[x] of an absent key is 0. *)
Definition im_idx (m : imap) (x : string) : nat := match im_get m x with Some i => i | None => O end.
(** indexMap[x] = i *)
Fixpoint im_set (m : imap) (x : string) (i : nat) : imap :=
  match m with
  | [] => [(x, i)]
  | (y, j) :: m' => if String.eqb y x then (y, i) :: m' else (y, j) :: im_set m' x i
  end.

(** splitmap *)
Definition smap := list (string * list nat).
Fixpoint sm_add (s : smap) (x : string) (i : nat) : smap :=
  match s with
  | [] => [(x, [i])]
  | (y, l) :: s' => if String.eqb y x then (y, l ++ [i]) :: s' else (y, l) :: sm_add s' x i
  end.

(** Programm.go:625-627.  len(indexMap) is taken before the assignment. *)
Definition add_public (m : imap) (x : string) : imap := im_set m x (List.length m).
(** Programm.go:628-633 *)
Definition add_input (m : imap) (x : string) : imap :=
  match im_get m x with Some _ => m | None => im_set m x (List.length m) end.
(** Programm.go:635-655; [None] is the panic of line 646. *)
Definition add_gate (ms : imap * smap) (g : gate) : option (imap * smap) :=
  let '(m, s) := ms in
  if gnonew g then Some (m, s)
  else match im_get m (gid g) with
       | Some _ => None
       | None => let m' := im_set m (gid g) (List.length m) in
                 Some (m', match gtyp g with GBit => sm_add s (ident (grep g)) (im_idx m' (gid g)) | _ => s end)
       end.
Fixpoint add_gates (ms : imap * smap) (gs : list gate) : option (imap * smap) :=
  match gs with
  | [] => Some ms
  | g :: gs' => match add_gate ms g with Some ms' => add_gates ms' gs' | None => None end
  end.
(** ER1CS.go:12 *)
Definition rand_in : string := "1@randomIn".
Definition rand_out : string := "1@randomOut".
(** Programm.go:618-660 *)
Definition build_index (pubs ins : list string) (gs : list gate) (randomize : bool) : option (imap * smap) :=
  let m0 := fold_left add_input ins (fold_left add_public pubs []) in
  match add_gates (m0, []) gs with
  | None => None
  | Some (m, s) =>
      if randomize then
        let m1 := im_set m rand_in (List.length m) in
        Some (im_set m1 rand_out (List.length m1), s)
      else Some (m, s)
  end.

(** One constraint (l.w)(r.w) + X(g^(e.w)) = o.w *)
Record row (A : Type) := Row { rl : A; rr : A; re : A; ro : A }.
Arguments Row {A}. Arguments rl {A}. Arguments rr {A}. Arguments re {A}. Arguments ro {A}.

(** Programm.go:677-683: the longer side goes left. *)
Definition swap_sides (g : gate) : factors * factors :=
  if Nat.ltb (List.length (gleft g)) (List.length (gright g)) then (gright g, gleft g) else (gleft g, gright g).

Section Dense.
Variable m : imap.
Variable size : nat.
(** Programm.go:662-674.  [None]: the panic, or an index outside the array. *)
Definition insert_value (arr : list Z) (f : factor) : option (list Z) :=
  if is_number f then array_set arr 0 (mult f)
  else match im_get m (ident (ftok f)) with
       | None => None
       | Some i => array_set arr i (mult f)
       end.
Fixpoint insert_values (arr : list Z) (fs : factors) : option (list Z) :=
  match fs with
  | [] => Some arr
  | f :: fs' => match insert_value arr f with Some arr' => insert_values arr' fs' | None => None end
  end.
Definition mk_row (l r e o : option (list Z)) : option (row (list Z)) :=
  match l, r, e, o with Some l, Some r, Some e, Some o => Some (Row l r e o) | _, _, _, _ => None end.
Definition unit_at (i : nat) : option (list Z) := array_set (zeros size) i 1.
Definition vec (fs : factors) : option (list Z) := insert_values (zeros size) fs.
(** Programm.go:676-803 *)
Definition gate_row (g : gate) : option (row (list Z)) :=
  let '(l, r) := swap_sides g in
  let none := Some (zeros size) in
  match gtyp g with
  | GMul => mk_row (vec l) (vec r) none (vec (gout g))
  | GBase => mk_row none none (vec (gexp g)) (unit_at (im_idx m (gid g)))
  | GEqual => mk_row (vec l) (unit_at 0) none (vec r)
  | GBit => mk_row (match array_set (zeros size) 0 (-1) with
                    | Some a => array_set a (im_idx m (gid g)) 1
                    | None => None
                    end)
                   (unit_at (im_idx m (gid g))) none none
  | GAdd => mk_row (vec l) (unit_at 0) none (vec (gout g))
  | GSum => mk_row (vec l) (unit_at 0) none (unit_at (im_idx m (ident (grep g))))
  | GReturnMul => None
  end.
(** Programm.go:805-822 *)
Definition rand_row : option (row (list Z)) :=
  let i := vec (wire rand_in 1) in mk_row i i i (vec (wire rand_out 1)).
End Dense.

Fixpoint all_some {A B} (f : A -> option B) (l : list A) : option (list B) :=
  match l with
  | [] => Some []
  | x :: l' => match f x, all_some f l' with Some y, Some r => Some (y :: r) | _, _ => None end
  end.

(** ER1CS.go:14-25; NumberOfGates and WitnessLength are the lengths of the rows and the map. *)
Record er1cs (A : Type) := ER1CS { index_map : imap; split_map : smap; rows : list (row A) }.
Arguments ER1CS {A}. Arguments index_map {A}. Arguments split_map {A}. Arguments rows {A}.

Definition with_rand {A} (randomize : bool) (rs : option (list (row A))) (r : option (row A)) : option (list (row A)) :=
  match rs with
  | None => None
  | Some l => if randomize then match r with Some x => Some (l ++ [x]) | None => None end else Some l
  end.

(** Programm.go:613-826 *)
Definition gates_to_r1cs (pubs ins : list string) (gs : list gate) (randomize : bool) : option (er1cs (list Z)) :=
  match build_index pubs ins gs randomize with
  | None => None
  | Some (m, s) =>
      match with_rand randomize (all_some (gate_row m (List.length m)) gs) (rand_row m (List.length m)) with
      | Some rs => Some (ER1CS m s rs)
      | None => None
      end
  end.

Section Sparse.
Variable q : Z.
Variable m : imap.
(** Programm.go:874-883: a number goes to the index of its own text, 0 if that is no name. *)
Definition sinsert_value (t : tree) (f : factor) : option tree :=
  if is_number f then tree_put t (N.of_nat (im_idx m (ident (ftok f)))) (mult f) (add_cb q)
  else match im_get m (ident (ftok f)) with
       | None => None
       | Some i => tree_put t (N.of_nat i) (mult f) (add_cb q)
       end.
Fixpoint sinsert_values (t : tree) (fs : factors) : option tree :=
  match fs with
  | [] => Some t
  | f :: fs' => match sinsert_value t f with Some t' => sinsert_values t' fs' | None => None end
  end.
Definition mk_srow (l r e o : option tree) : option (row tree) :=
  match l, r, e, o with Some l, Some r, Some e, Some o => Some (Row l r e o) | _, _, _, _ => None end.
Definition sunit_at (i : nat) : option tree := insert Leaf (N.of_nat i) 1.
Definition svec (fs : factors) : option tree := sinsert_values Leaf fs.
(** Programm.go:885-1012 *)
Definition sgate_row (g : gate) : option (row tree) :=
  let '(l, r) := swap_sides g in
  let none := Some Leaf in
  match gtyp g with
  | GMul => mk_srow (svec l) (svec r) none (svec (gout g))
  | GBase => mk_srow none none (svec (gexp g)) (sunit_at (im_idx m (gid g)))
  | GEqual => mk_srow (svec l) (sunit_at 0) none (svec r)
  | GBit => mk_srow (match insert Leaf 0 (-1) with
                     | Some a => insert a (N.of_nat (im_idx m (gid g))) 1
                     | None => None
                     end)
                    (sunit_at (im_idx m (gid g))) none none
  | GAdd => mk_srow (svec l) (sunit_at 0) none (svec (gout g))
  | GSum => mk_srow (svec l) (sunit_at 0) none (sunit_at (im_idx m (ident (grep g))))
  | GReturnMul => None
  end.
(** Programm.go:1013-1029 *)
Definition srand_row : option (row tree) :=
  let i := svec (wire rand_in 1) in mk_srow i i i (svec (wire rand_out 1)).
End Sparse.

(** Programm.go:829-1033 *)
Definition gates_to_sparse_r1cs (q : Z) (pubs ins : list string) (gs : list gate) (randomize : bool) : option (er1cs tree) :=
  match build_index pubs ins gs randomize with
  | None => None
  | Some (m, s) =>
      match with_rand randomize (all_some (sgate_row q m) gs) (srand_row q m) with
      | Some rs => Some (ER1CS m s rs)
      | None => None
      end
  end.

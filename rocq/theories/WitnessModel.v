(** Model of CalculateWitness and CalculateSparseWitness, circuitcompiler/ER1CS.go:143-455.
    field (factorHandling.go:13) and utils.Field.ArithmeticField are the same field here.
    Go iterates over splitmap in a random order: the order is the order of the list [sp], and the
    theorems hold for every list.  The random value of line 160 is an argument. *)
Require Import ZArith NArith Bool Ascii String List.
Require Import Verif.FqModel Verif.PolyModel Verif.AvlModel Verif.SparseModel Verif.FactorModel Verif.R1csModel.
Import ListNotations.
Open Scope Z_scope.

(** Outcome of the solver: a result, an error value, or a panic. *)
Inductive solved (A : Type) := Ok (a : A) | Err | Panics.
Arguments Ok {A}. Arguments Err {A}. Arguments Panics {A}.
Definition bind {A B} (x : solved A) (f : A -> solved B) : solved B :=
  match x with Ok a => f a | Err => Err | Panics => Panics end.
Definition lift {A} (x : option A) : solved A := match x with Some a => Ok a | None => Panics end.
Notation "'let*' x ':=' e 'in' f" := (bind e (fun x => f)) (at level 200, x pattern, e at level 100, f at level 200).

(** witness and set *)
Record state := St { wit : list Z; isset : list bool }.
Fixpoint bset (l : list bool) (i : nat) : option (list bool) :=
  match l, i with
  | [], _ => None
  | _ :: l', O => Some (true :: l')
  | b :: l', S i' => match bset l' i' with Some r => Some (b :: r) | None => None end
  end.
(** setWitness(i, v); set[i] = true *)
Definition assign (s : state) (i : nat) (v : Z) : option state :=
  match array_set (wit s) i v, bset (isset s) i with
  | Some w, Some b => Some (St w b)
  | _, _ => None
  end.

(** ER1CS.go:164-167 *)
Definition input_arg := (string * Z)%type.
Fixpoint put_inputs (m : imap) (s : state) (inp : list input_arg) : option state :=
  match inp with
  | [] => Some s
  | (x, v) :: inp' => match assign s (im_idx m x) v with Some s' => put_inputs m s' inp' | None => None end
  end.

(** big.Int.Bit: two's complement for negative numbers. *)
Definition bit_of (v : Z) (i : nat) : Z := if Z.testbit v (Z.of_nat i) then 1 else 0.

(** inverseSplitmap: bit index to (bit position, father's index); a later entry wins. *)
Definition bitmap := list (nat * (nat * nat)).
Fixpoint bm_get (b : bitmap) (j : nat) : option (nat * nat) :=
  match b with [] => None | (i, x) :: b' => if Nat.eqb i j then Some x else bm_get b' j end.
(** ER1CS.go:174-177; bits [zs] of the wire at index [father], from position [pos] on. *)
Fixpoint put_bits (s : state) (father pos : nat) (zs : list nat) : option state :=
  match zs with
  | [] => Some s
  | z :: zs' => match nth_error (wit s) father with
                | None => None
                | Some v => match assign s z (bit_of v pos) with
                            | Some s' => put_bits s' father (S pos) zs'
                            | None => None
                            end
                end
  end.
(** ER1CS.go:179-181 *)
Fixpoint note_bits (b : bitmap) (father pos : nat) (zs : list nat) : bitmap :=
  match zs with [] => b | z :: zs' => note_bits ((z, (pos, father)) :: b) father (S pos) zs' end.
(** ER1CS.go:172-183 *)
Fixpoint put_splits (m : imap) (s : state) (b : bitmap) (sp : smap) : option (state * bitmap) :=
  match sp with
  | [] => Some (s, b)
  | (k, zs) :: sp' =>
      let father := im_idx m k in
      match nth_error (isset s) father with
      | None => None
      | Some known =>
          match (if known then put_bits s father 0 zs else Some s) with
          | None => None
          | Some s' => put_splits m s' (note_bits b father 0 zs) sp'
          end
      end
  end.

(** ER1CS.go:145-183 *)
Definition start (m : imap) (sp : smap) (rnd : Z) (inp : list input_arg) : option (state * bitmap) :=
  let n := List.length m in
  match assign (St (zeros n) (repeat false n)) 0 1 with
  | None => None
  | Some s0 =>
      match (if Nat.eqb (im_idx m rand_in) 0 then Some s0 else assign s0 (im_idx m rand_in) rnd) with
      | None => None
      | Some s1 => match put_inputs m s1 inp with
                   | None => None
                   | Some s2 => put_splits m s2 [] sp
                   end
      end
  end.

Section Solve.
Variable q : Z.
(** X coordinate of the generator times a scalar (pairing/bn256.go:107-114). *)
Variable gx : Z -> Z.
Variable bm : bitmap.

(** ** Dense, ER1CS.go:185-296 *)
(** getKnownsAndUnknowns, 189-208, from index [j] on. *)
Fixpoint scan (j : nat) (arr : list Z) (s : state) : option (list Z * list nat * state) :=
  match arr with
  | [] => Some ([], [], s)
  | v :: arr' =>
      if v =? 0 then
        match scan (S j) arr' s with Some (k, u, s') => Some (0 :: k, u, s') | None => None end
      else
        match nth_error (isset s) j with
        | None => None
        | Some true => match scan (S j) arr' s with Some (k, u, s') => Some (v :: k, u, s') | None => None end
        | Some false =>
            match bm_get bm j with
            | Some (pos, father) =>
                match nth_error (wit s) father with
                | None => None
                | Some f => match assign s j (bit_of f pos) with
                            | None => None
                            | Some s1 => match scan (S j) arr' s1 with
                                         | Some (k, u, s') => Some (bit_of f pos :: k, u, s')
                                         | None => None
                                         end
                            end
                end
            | None => match scan (S j) arr' s with Some (k, u, s') => Some (0 :: k, j :: u, s') | None => None end
            end
        end
  end.

(** 210: the sum at the current witness. *)
Definition total (k : list Z) (s : state) : solved Z := lift (fscalar_product q k (wit s)).

(** One round of the loop 213-293. *)
Definition solve_row (r : row (list Z)) (s : state) : solved state :=
  let* (lk, lu, s1) := lift (scan 0 (rl r) s) in
  let* (rk, ru, s2) := lift (scan 0 (rr r) s1) in
  let* (ek, eu, s3) := lift (scan 0 (re r) s2) in
  match eu with
  | _ :: _ => Err
  | [] =>
      let* (ok, ou, s4) := lift (scan 0 (ro r) s3) in
      if Nat.ltb 1 (List.length lu + List.length ru + List.length ou) then Err
      else
      match lu with
      | [x] =>
          let* sr := total rk s4 in
          if sr =? 0 then Err else
          let* so := total ok s4 in
          let* se := total ek s4 in
          let* d := lift (fdiv q (fsub q so (gx se)) sr) in
          let* sl := total lk s4 in
          let* a := lift (nth_error (rl r) x) in
          let* v := lift (fdiv q (fsub q d sl) a) in
          lift (assign s4 x v)
      | _ =>
      match ru with
      | [x] =>
          let* sl := total lk s4 in
          if sl =? 0 then Err else
          let* so := total ok s4 in
          let* se := total ek s4 in
          let* d := lift (fdiv q (fsub q so (gx se)) sl) in
          let* sr := total rk s4 in
          let* a := lift (nth_error (rr r) x) in
          let* v := lift (fdiv q (fsub q d sr) a) in
          lift (assign s4 x v)
      | _ =>
      match ou with
      | [x] =>
          let* sr := total rk s4 in
          let* sl := total lk s4 in
          let* se := total ek s4 in
          let* so := total ok s4 in
          let* a := lift (nth_error (ro r) x) in
          let* v := lift (fdiv q (fsub q (fadd q (fmul q sr sl) (gx se)) so) a) in
          lift (assign s4 x v)
      | _ =>
          let* (lk, lu, s1) := lift (scan 0 (rl r) s4) in
          let* (rk, ru, s2) := lift (scan 0 (rr r) s1) in
          let* (ek, eu, s3) := lift (scan 0 (re r) s2) in
          let* (ok, ou, s4) := lift (scan 0 (ro r) s3) in
          match lu, ru, ou, eu with
          | [], [], [], [] =>
              let* sr := total rk s4 in
              let* sl := total lk s4 in
              let* se := total ek s4 in
              let* so := total ok s4 in
              if fadd q (fmul q sr sl) (gx se) =? so then Ok s4 else Err
          | _, _, _, _ => Err
          end
      end end end
  end.
Fixpoint solve_rows (rs : list (row (list Z))) (s : state) : solved state :=
  match rs with
  | [] => Ok s
  | r :: rs' => let* s' := solve_row r s in solve_rows rs' s'
  end.

(** ** Sparse, ER1CS.go:337-455 *)
(** getKnownsAndUnknowns, 338-356, over the entries in ascending order. *)
Fixpoint sscan (es : list (N * Z)) (known : tree) (s : state) : option (tree * list N * state) :=
  match es with
  | [] => Some (known, [], s)
  | (k, v) :: es' =>
      let j := N.to_nat k in
      match nth_error (isset s) j with
      | None => None
      | Some true => match insert known k v with Some known' => sscan es' known' s | None => None end
      | Some false =>
          match bm_get bm j with
          | Some (pos, father) =>
              match nth_error (wit s) father with
              | None => None
              | Some f => match assign s j (bit_of f pos), insert known k (bit_of f pos) with
                          | Some s1, Some known' => sscan es' known' s1
                          | _, _ => None
                          end
              end
          | None => match sscan es' known s with
                    | Some (t, u, s') => Some (t, k :: u, s')
                    | None => None
                    end
          end
      end
  end.
Definition stotal (k : tree) (s : state) : solved Z := lift (sparse_scalar_product q k (wit s)).
(** array.Get, whose error is returned (408-411). *)
Definition sget (t : tree) (k : N) : solved Z := match get t k with Some v => Ok v | None => Err end.

Definition ssolve_row (r : row tree) (s : state) : solved state :=
  let* (lk, lu, s1) := lift (sscan (ascending (rl r)) Leaf s) in
  let* (rk, ru, s2) := lift (sscan (ascending (rr r)) Leaf s1) in
  let* (ek, eu, s3) := lift (sscan (ascending (re r)) Leaf s2) in
  match eu with
  | _ :: _ => Err
  | [] =>
      let* (ok, ou, s4) := lift (sscan (ascending (ro r)) Leaf s3) in
      if Nat.ltb 1 (List.length lu + List.length ru + List.length ou) then Err
      else
      let* s5 := match lu with
                 | [x] =>
                     let* sr := stotal rk s4 in
                     if sr =? 0 then Err else
                     let* so := stotal ok s4 in
                     let* se := stotal ek s4 in
                     let* d := lift (fdiv q (fsub q so (gx se)) sr) in
                     let* sl := stotal lk s4 in
                     let* a := sget (rl r) x in
                     let* v := lift (fdiv q (fsub q d sl) a) in
                     lift (assign s4 (N.to_nat x) v)
                 | _ => Ok s4
                 end in
      let* s6 := match ru with
                 | [x] =>
                     let* sl := stotal lk s5 in
                     if sl =? 0 then Err else
                     let* so := stotal ok s5 in
                     let* se := stotal ek s5 in
                     let* d := lift (fdiv q (fsub q so (gx se)) sl) in
                     let* sr := stotal rk s5 in
                     let* a := sget (rr r) x in
                     let* v := lift (fdiv q (fsub q d sr) a) in
                     lift (assign s5 (N.to_nat x) v)
                 | _ => Ok s5
                 end in
      let* s7 := match ou with
                 | [x] =>
                     let* sr := stotal rk s6 in
                     let* sl := stotal lk s6 in
                     let* se := stotal ek s6 in
                     let* so := stotal ok s6 in
                     let* a := sget (ro r) x in
                     let* v := lift (fdiv q (fsub q (fadd q (fmul q sr sl) (gx se)) so) a) in
                     lift (assign s6 (N.to_nat x) v)
                 | _ => Ok s6
                 end in
      let* (lk, lu, t1) := lift (sscan (ascending (rl r)) Leaf s7) in
      let* (rk, ru, t2) := lift (sscan (ascending (rr r)) Leaf t1) in
      let* (ek, eu, t3) := lift (sscan (ascending (re r)) Leaf t2) in
      let* (ok, ou, t4) := lift (sscan (ascending (ro r)) Leaf t3) in
      match lu, ru, ou, eu with
      | [], [], [], [] =>
          let* sr := stotal rk t4 in
          let* sl := stotal lk t4 in
          let* se := stotal ek t4 in
          let* so := stotal ok t4 in
          if fadd q (fmul q sr sl) (gx se) =? so then Ok t4 else Err
      | _, _, _, _ => Err
      end
  end.
Fixpoint ssolve_rows (rs : list (row tree)) (s : state) : solved state :=
  match rs with
  | [] => Ok s
  | r :: rs' => let* s' := ssolve_row r s in ssolve_rows rs' s'
  end.
End Solve.

(** ER1CS.go:143-296; [sp] is the splitmap of the system in some order. *)
Definition calculate_witness (q : Z) (gx : Z -> Z) (m : imap) (sp : smap) (rs : list (row (list Z))) (rnd : Z) (inp : list input_arg)
  : solved (list Z) :=
  let* (s, bm) := lift (start m sp rnd inp) in
  let* s' := solve_rows q gx bm rs s in
  Ok (wit s').
(** ER1CS.go:300-455 *)
Definition calculate_sparse_witness (q : Z) (gx : Z -> Z) (m : imap) (sp : smap) (rs : list (row tree)) (rnd : Z) (inp : list input_arg)
  : solved (list Z) :=
  let* (s, bm) := lift (start m sp rnd inp) in
  let* s' := ssolve_rows q gx bm rs s in
  Ok (wit s').

(** Programm.go:107-121 *)
Definition combine_inputs (names : list string) (vals : list Z) : option (list input_arg) :=
  if Nat.eqb (List.length names) (List.length vals) then Some (combine names vals) else None.

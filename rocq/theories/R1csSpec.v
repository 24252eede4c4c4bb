(** Numbering of the wires and satisfaction of constraint rows. *)
Require Import ZArith NArith Bool Ascii String List.
Require Import Verif.Cong Verif.AvlModel Verif.FactorModel Verif.R1csModel.
Import ListNotations.
Open Scope Z_scope.

(** The names of [l] not in [seen], first occurrences only. *)
Fixpoint fresh (seen l : list string) : list string :=
  match l with
  | [] => []
  | x :: l' => if existsb (String.eqb x) seen then fresh seen l' else x :: fresh (x :: seen) l'
  end.
(** Outputs of the gates that have one. *)
Definition out_names (gs : list gate) : list string := map gid (filter (fun g => negb (gnonew g)) gs).
(** All names in their order: public inputs, other inputs, gate outputs, randomizers. *)
Definition wire_names (pubs ins : list string) (gs : list gate) (randomize : bool) : list string :=
  pubs ++ fresh pubs ins ++ out_names gs ++ (if randomize then [rand_in; rand_out] else []).

(** Names of the bits of [x] in gate order, lowest first. *)
Definition bit_names (gs : list gate) (x : string) : list string :=
  map gid (filter (fun g => match gtyp g with
                            | GBit => negb (gnonew g) && String.eqb (ident (grep g)) x
                            | _ => false
                            end) gs).
Fixpoint sm_find (s : smap) (x : string) : list nat :=
  match s with [] => [] | (y, l) :: s' => if String.eqb y x then l else sm_find s' x end.

(** Public names are distinct, the constant comes first, the randomizers' names are not used. *)
Definition names_ok (pubs ins : list string) (gs : list gate) (randomize : bool) : Prop :=
  NoDup pubs /\ nth_error pubs 0 = Some "1"%string /\
  (randomize = true -> ~ In rand_in (pubs ++ ins ++ out_names gs) /\ ~ In rand_out (pubs ++ ins ++ out_names gs)).

(** Inner product of a coefficient vector and a witness. *)
Fixpoint dot (a w : list Z) : Z :=
  match a, w with x :: a', y :: w' => x * y + dot a' w' | _, _ => 0 end.
(** The same for a sparse vector, from its entries. *)
Fixpoint edot (es : list (N * Z)) (w : list Z) : Z :=
  match es with [] => 0 | (k, x) :: es' => x * nth (N.to_nat k) w 0 + edot es' w end.

(** (l.w)(r.w) + X(g^(e.w)) = o.w mod q, where [gx k] is X(g^k). *)
Definition row_ok (q : Z) (gx : Z -> Z) (w : list Z) (r : row (list Z)) : Prop :=
  dot (rl r) w * dot (rr r) w + gx (dot (re r) w mod q) ==[q] dot (ro r) w.
Definition srow_ok (q : Z) (gx : Z -> Z) (w : list Z) (r : row tree) : Prop :=
  edot (ascending (rl r)) w * edot (ascending (rr r)) w + gx (edot (ascending (re r)) w mod q)
    ==[q] edot (ascending (ro r)) w.

(** Name under which a factor enters a row. *)
Definition slot (f : factor) : string := if is_number f then "1"%string else ident (ftok f).
(** No row slot is used twice by one factor list. *)
Definition slots_distinct (fs : factors) : Prop := NoDup (map slot fs).
(** What the compiler guarantees about its gates: only multiplications and equalities have a
    right side, base multiplications and bits have an output of their own, a split wire exists. *)
Definition gate_shape (names : list string) (g : gate) : Prop :=
  match gtyp g with
  | GAdd => gright g = []
  | GSum => gright g = [] /\ In (ident (grep g)) names
  | GBase | GBit => gnonew g = false
  | GReturnMul => False
  | GMul | GEqual => True
  end.
(** Each factor list of the gate uses a slot once. *)
Definition gate_distinct (g : gate) : Prop :=
  slots_distinct (gleft g) /\ slots_distinct (gright g) /\ slots_distinct (gexp g) /\ slots_distinct (gout g).
(** The text of a number is not the name of another wire. *)
Definition numbers_apart (names : list string) (g : gate) : Prop :=
  forall f, In f (gleft g ++ gright g ++ gexp g ++ gout g) -> is_number f = true ->
    ident (ftok f) = "1"%string \/ ~ In (ident (ftok f)) names.

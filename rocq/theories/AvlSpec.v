(** Specification of the tree API: an abstract map from keys to integers in which 0 means
    "absent", and its list of entries in key order.  No reference to trees. *)
Require Import ZArith NArith List Sorted.
Import ListNotations.
Open Scope Z_scope.

(** Abstract state: value of every key, 0 when absent. *)
Definition amap := N -> Z.
Definition aempty : amap := fun _ => 0.
Definition aset (m : amap) (k : N) (x : Z) : amap := fun k' => if N.eqb k' k then x else m k'.

(** [l] lists exactly the present entries of [m] in strictly ascending key order. *)
Definition entries_of (m : amap) (l : list (N * Z)) : Prop :=
  StronglySorted (fun a b => (fst a < fst b)%N) l /\
  forall k v, In (k, v) l <-> (m k = v /\ v <> 0).

(** API operations: combine a value into a key (the callback may panic), remove a key. *)
Inductive op : Type :=
| OpPut (k : N) (v : Z) (f : Z -> Z -> option Z)
| OpRemove (k : N).

(** Effect on the abstract map; [None] = panic of the callback. *)
Definition astep (m : amap) (o : op) : option amap :=
  match o with
  | OpPut k v f => match f (m k) v with Some x => Some (aset m k x) | None => None end
  | OpRemove k => Some (aset m k 0)
  end.
Fixpoint arun (m : amap) (os : list op) : option amap :=
  match os with
  | [] => Some m
  | o :: os' => match astep m o with Some m' => arun m' os' | None => None end
  end.

(** Every OpRemove in the history hits a key that is present at that moment. *)
Fixpoint removes_present (m : amap) (os : list op) : Prop :=
  match os with
  | [] => True
  | o :: os' =>
      (match o with OpRemove k => m k <> 0 | _ => True end) /\
      match astep m o with Some m' => removes_present m' os' | None => True end
  end.

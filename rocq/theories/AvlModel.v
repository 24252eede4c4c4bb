(** Model of utils/avl.go: the tree behind sparse vectors and polynomials.
    A [*AvlNode] is a [tree] ([Leaf] = nil) that keeps the stored height field, which the Go
    code lets drift from the true height.  A [uint] key is an [N] (no 64-bit bound; the tree
    code only compares keys), a stored height (an [int]) is a [Z].
    Sharing: every node has one parent, so in-place updates are functional updates; the one
    place where a stale pointer is kept (Remove of an absent key) is modelled explicitly. *)
Require Import ZArith NArith Bool List.
Import ListNotations.
Open Scope Z_scope.

(** avl.go:288-294 *)
Inductive tree : Type :=
| Leaf : tree
| Node (l : tree) (k : N) (v : Z) (h : Z) (r : tree) : tree.

(** avl.go:477-482 *)
Definition height (t : tree) : Z := match t with Leaf => 0 | Node _ _ _ h _ => h end.

(** avl.go:484-489 *)
Fixpoint size (t : tree) : nat :=
  match t with Leaf => O | Node l _ _ _ r => S (size l + size r) end.

(** avl.go:18-23 and the recurring [maximum(left.Height(), right.Height()) + 1] *)
Definition fresh_height (l r : tree) : Z := (if height r <? height l then height l else height r) + 1.

(** avl.go:296-307 *)
Fixpoint has (t : tree) (key : N) : bool :=
  match t with
  | Leaf => false
  | Node l k _ _ r => if N.eqb k key then true else if N.ltb key k then has l key else has r key
  end.

(** avl.go:309-320; [None] is the "not found" error. *)
Fixpoint get (t : tree) (key : N) : option Z :=
  match t with
  | Leaf => None
  | Node l k v _ r => if N.eqb k key then Some v else if N.ltb key k then get l key else get r key
  end.

(** avl.go:523-525 (lmd) and 527-529 (rmd) through 513-521: key and value of the node reached. *)
Fixpoint lmd (t : tree) : option (N * Z) :=
  match t with
  | Leaf => None
  | Node Leaf k v _ _ => Some (k, v)
  | Node l _ _ _ _ => lmd l
  end.
Fixpoint rmd (t : tree) : option (N * Z) :=
  match t with
  | Leaf => None
  | Node _ k v _ Leaf => Some (k, v)
  | Node _ _ _ _ r => rmd r
  end.

(** avl.go:322-353.  The pointer test [self == node] is a key test here (keys are unique in a
    search tree); the callers only pop nodes without two children. *)
Fixpoint pop_node (t : tree) (key : N) : tree :=
  match t with
  | Leaf => Leaf
  | Node l k v h r =>
      if N.eqb k key then match l with Leaf => r | _ => l end
      else if N.ltb key k
           then let l' := pop_node l key in Node l' k v (fresh_height l' r) r
           else let r' := pop_node r key in Node l k v (fresh_height l r') r'
  end.

(** avl.go:355-372 for a leaf node (key, value). *)
Fixpoint push_node (t : tree) (key : N) (value : Z) : tree :=
  match t with
  | Leaf => Node Leaf key value 1 Leaf
  | Node l k v h r =>
      if N.ltb key k
      then let l' := push_node l key value in Node l' k v (fresh_height l' r) r
      else let r' := push_node r key value in Node l k v (fresh_height l r') r'
  end.

(** avl.go:374-388: the right-most node of the left subtree is unlinked ([pop_node] on self
    also recomputes self.height, which is irrelevant because self is then pushed as a leaf),
    takes over both subtrees, and the old root is pushed below it. *)
Definition rotate_right (t : tree) : tree :=
  match t with
  | Leaf => t
  | Node l k v h r =>
      match rmd l with
      | None => t
      | Some (mk, mv) => push_node (Node (pop_node l mk) mk mv 0 r) k v
      end
  end.
(** avl.go:390-404 *)
Definition rotate_left (t : tree) : tree :=
  match t with
  | Leaf => t
  | Node l k v h r =>
      match lmd r with
      | None => t
      | Some (mk, mv) => push_node (Node l mk mv 0 (pop_node r mk)) k v
      end
  end.

(** avl.go:406-418.  [None] = the loop has not stopped within [fuel] rounds; [balance] uses a
    fuel that is proved to suffice. *)
Fixpoint balance_loop (fuel : nat) (t : tree) : option tree :=
  match t with
  | Leaf => Some t
  | Node l _ _ _ r =>
      if 2 <? Z.abs (height l - height r) then
        match fuel with
        | O => None
        | S f => balance_loop f (if height r <? height l then rotate_right t else rotate_left t)
        end
      else Some t
  end.
Definition balance_fuel (t : tree) : nat := (S (size t) * S (size t))%nat.
Definition balance (t : tree) : option tree := balance_loop (balance_fuel t) t.

(** The callback type [insert func(old, new) new] of Put; [None] is a panic. *)
Definition combiner := Z -> Z -> option Z.
(** avl.go:92-94 *)
Definition set_insert : combiner := fun _ new => Some new.
(** avl.go:95-100 *)
Definition set_insert_no_override : combiner :=
  fun old new => if old =? 0 then Some new else None.

(** avl.go:420-440; the boolean is [updated].  [None]: the callback panicked or (excluded by
    proof) balancing ran out of fuel. *)
Fixpoint node_put (t : tree) (key : N) (value : Z) (f : combiner) : option (tree * bool) :=
  match t with
  | Leaf => match f 0 value with
            | Some v => Some (Node Leaf key v 1 Leaf, false)
            | None => None
            end
  | Node l k v h r =>
      if N.eqb k key then
        match f v value with
        | Some v' => Some (Node l k v' h r, true)
        | None => None
        end
      else if N.ltb key k then
        match node_put l key value f with
        | None => None
        | Some (l', true) => Some (Node l' k v h r, true)
        | Some (l', false) =>
            match balance (Node l' k v (h + 1) r) with Some t' => Some (t', false) | None => None end
        end
      else
        match node_put r key value f with
        | None => None
        | Some (r', true) => Some (Node l k v h r', true)
        | Some (r', false) =>
            match balance (Node l k v (h + 1) r') with Some t' => Some (t', false) | None => None end
        end
  end.

(** [lmd.left = x] and [rmd.right = x] of avl.go:450-451 and 454-455: no height is updated. *)
Fixpoint graft_left (t x : tree) : tree :=
  match t with Leaf => x | Node l k v h r => Node (graft_left l x) k v h r end.
Fixpoint graft_right (t x : tree) : tree :=
  match t with Leaf => x | Node l k v h r => Node l k v h (graft_right r x) end.

(** avl.go:442-475.  Result: the new subtree and the removed value ([None] = error "not
    found"; then every ancestor is balanced on the way up). Outer [None]: out of fuel. *)
Fixpoint node_remove (t : tree) (key : N) : option (tree * option Z) :=
  match t with
  | Leaf => Some (Leaf, None)
  | Node l k v h r =>
      if N.eqb k key then
        match l, r with
        | Leaf, _ => Some (r, Some v)
        | _, Leaf => Some (l, Some v)
        | _, _ => if Nat.ltb (size l) (size r)
                  then Some (graft_left r l, Some v)
                  else Some (graft_right l r, Some v)
        end
      else if N.ltb key k then
        match node_remove l key with
        | None => None
        | Some (l', Some x) => Some (Node l' k v h r, Some x)
        | Some (l', None) =>
            match balance (Node l' k v h r) with Some t' => Some (t', None) | None => None end
        end
      else
        match node_remove r key with
        | None => None
        | Some (r', Some x) => Some (Node l k v h r', Some x)
        | Some (r', None) =>
            match balance (Node l k v h r') with Some t' => Some (t', None) | None => None end
        end
  end.

(** The subtree below the node with the given key. *)
Fixpoint subtree_at (t : tree) (key : N) : tree :=
  match t with
  | Leaf => Leaf
  | Node l k _ _ r => if N.eqb k key then t else if N.ltb key k then subtree_at l key else subtree_at r key
  end.

(** avl.go:216-224.  On "not found" the tree keeps its old root pointer although balancing has
    rearranged the nodes in place, so it now shows what hangs below the old root node. *)
Definition tree_remove (t : tree) (key : N) : option (tree * option Z) :=
  match node_remove t key with
  | None => None
  | Some (t', Some v) => Some (t', Some v)
  | Some (t', None) =>
      match t with
      | Leaf => Some (Leaf, None)
      | Node _ k _ _ _ => Some (subtree_at t' k, None)
      end
  end.

(** avl.go:199-210: put, and remove again when the stored value is zero. *)
Definition tree_put (t : tree) (key : N) (value : Z) (f : combiner) : option tree :=
  match node_put t key value f with
  | None => None
  | Some (t', _) =>
      match get t' key with
      | Some v => if v =? 0 then
                    match tree_remove t' key with
                    | Some (t'', Some _) => Some t''
                    | _ => None
                    end
                  else Some t'
      | None => Some t'
      end
  end.
(** avl.go:70-75 *)
Definition insert (t : tree) (key : N) (value : Z) : option tree := tree_put t key value set_insert.
(** avl.go:64-67 *)
Definition insert_no_overwrite (t : tree) (key : N) (value : Z) : option tree :=
  tree_put t key value set_insert_no_override.
(** avl.go:76-80 *)
Definition sparse_with (key : N) (value : Z) : option tree := insert_no_overwrite Leaf key value.

(** avl.go:82-90 *)
Fixpoint from_array_loop (t : tree) (k : N) (l : list Z) : option tree :=
  match l with
  | [] => Some t
  | v :: l' => if v =? 0 then from_array_loop t (N.succ k) l'
               else match insert_no_overwrite t k v with
                    | Some t' => from_array_loop t' (N.succ k) l'
                    | None => None
                    end
  end.
Definition from_array (l : list Z) : option tree := from_array_loop Leaf 0%N l.

(** avl.go:112-123: an artificial node (0, 0) for the empty tree. *)
Definition max_node (t : tree) : N * Z := match rmd t with Some e => e | None => (0%N, 0) end.
(** avl.go:103-109 *)
Definition max_power (t : tree) : N := fst (max_node t).
(** avl.go:126-136; nil dereference on the empty tree. *)
Definition min_node (t : tree) : option (N * Z) := lmd t.

(** avl.go:169-185 (AllNodes, DecendingNodes) and 270-286 (descending channel). *)
Fixpoint descending (t : tree) : list (N * Z) :=
  match t with Leaf => [] | Node l k v _ r => descending r ++ (k, v) :: descending l end.
(** avl.go:251-267: the order in which the ascending channel delivers a tree that is not
    modified meanwhile. *)
Fixpoint ascending (t : tree) : list (N * Z) :=
  match t with Leaf => [] | Node l k v _ r => ascending l ++ (k, v) :: ascending r end.

(** collectedNodes[int(v.Key)] = v.Value; [None] when out of range. *)
Fixpoint array_set (l : list Z) (i : nat) (x : Z) : option (list Z) :=
  match l, i with
  | [], _ => None
  | _ :: l', O => Some (x :: l')
  | y :: l', S i' => match array_set l' i' x with Some r => Some (y :: r) | None => None end
  end.
(** avl.go:138-154 *)
Definition to_array (t : tree) (length : N) : option (list Z) :=
  if N.ltb length (max_power t) then None
  else fold_left (fun acc e => match acc with
                               | Some l => array_set l (N.to_nat (fst e)) (snd e)
                               | None => None
                               end)
         (descending t) (Some (repeat 0 (N.to_nat length))).

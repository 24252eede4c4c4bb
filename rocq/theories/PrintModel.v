(** Model of the printing in utils/avl.go and in package bn256. *)
Require Import ZArith NArith String List.
Require Import Verif.FqModel Verif.TowerModel Verif.CurveModel Verif.FactorModel Verif.AvlModel.
Local Open Scope string_scope.

(** avl.go:24-26: %v of a uint and big.Int.String are decimal. *)
Definition node_string (k : N) (v : Z) : string := "(" ++ dec (Z.of_N k) ++ "," ++ dec v ++ ")".
(** avl.go:39-52 *)
Fixpoint print (t : tree) : string :=
  match t with Leaf => "" | Node l k v _ r => print r ++ node_string k v ++ print l end.
(** avl.go:27-36; [None] is the nil pointer. *)
Definition tree_string (t : option tree) : string := match t with None => "empty" | Some t => print t end.

(** curve.go:37-40 and bn256.go:57-59.  The receiver is made affine, as Marshal and X do. *)
Definition g1_string (e : cpoint) : string := let a := c_make_affine 0 e in "bn256.G1(" ++ dec (cx a) ++ ", " ++ dec (cy a) ++ ")".
(** gfp2.go:25-29, gfp6.go:25-27, gfp12.go:25-27 *)
Definition gfp2_string (a : gfp2) : string := "(" ++ dec (fst a mod P)%Z ++ "," ++ dec (snd a mod P)%Z ++ ")".
Definition gfp6_string (a : gfp6) : string := "(" ++ gfp2_string (g6x a) ++ "," ++ gfp2_string (g6y a) ++ "," ++ gfp2_string (g6z a) ++ ")".
Definition gfp12_string (a : gfp12) : string := "(" ++ gfp6_string (fst a) ++ "," ++ gfp6_string (snd a) ++ ")".
(** twist.go:52-54 and bn256.go:198-200: the coordinates as they are, not made affine. *)
Definition g2_string (c : tpoint) : string := "bn256.G2(" ++ gfp2_string (tx c) ++ ", " ++ gfp2_string (ty c) ++ ", " ++ gfp2_string (tz c) ++ ")".
(** bn256.go:316-318 *)
Definition gt_string (a : gfp12) : string := "bn256.GT" ++ gfp12_string a.
(** bn256.go:238-247: what Marshal leaves in its receiver. *)
Definition g2_marshalled (n : tpoint) : tpoint := if t_is_infinity n then n else t_make_affine 0 n.

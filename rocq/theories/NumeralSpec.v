(** What a decimal numeral denotes, without reference to the model. *)
Require Import ZArith Ascii String List.
Import ListNotations.
Open Scope Z_scope.

(** A list of digits, most significant first, and the number it stands for. *)
Definition is_digit (d : nat) : Prop := (d < 10)%nat.
Fixpoint decimal_value (ds : list nat) : Z :=
  match ds with
  | [] => 0
  | d :: r => Z.of_nat d * 10 ^ Z.of_nat (length r) + decimal_value r
  end.

(** The characters of a list of digits. *)
Definition digit_char (d : nat) : ascii := nth d (list_ascii_of_string "0123456789") "0"%char.
Definition digit_text (ds : list nat) : string := string_of_list_ascii (map digit_char ds).

(** [denotes s z]: the text [s] is a decimal numeral, possibly with a sign, for [z]. *)
Inductive denotes : string -> Z -> Prop :=
| denotes_plain ds : ds <> [] -> Forall is_digit ds -> denotes (digit_text ds) (decimal_value ds)
| denotes_plus ds : ds <> [] -> Forall is_digit ds -> denotes ("+" ++ digit_text ds) (decimal_value ds)
| denotes_minus ds : ds <> [] -> Forall is_digit ds -> denotes ("-" ++ digit_text ds) (- decimal_value ds).

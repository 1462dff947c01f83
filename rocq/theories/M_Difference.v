(* difference.py *)
From Verif Require Import Bits.

Fixpoint map2 {A B C} (f : A -> B -> C) (a : list A) (b : list B) : list C :=
  match a, b with
  | x :: a', y :: b' => f x y :: map2 f a' b'
  | _, _ => []
  end.

(* difference.py:54-72 *)
Record diff_st := {
  df_vals : list Z;       (* vals_out, bd+1 bits each *)
  df_mns : list Z;        (* vals_out_mns *)
  df_valid : bool;
  df_end : bool
}.

Definition diff_init (ps : Z) : diff_st :=
  {| df_vals := repeat 0 (Z.to_nat ps); df_mns := repeat 0 (Z.to_nat ps);
     df_valid := false; df_end := false |}.

(* difference.py:89-90 *)
Definition sub_val (bd p q : Z) : Z := trunc (bd + 1) (p - q).
Definition sub_mns (bd p q : Z) : Z := trunc (bd + 1) (p - q - 1).

(* difference.py:88-96 *)
Definition diff_step (bd : Z) (s : diff_st) (valid_in end_in : bool) (px pr : list Z) : diff_st :=
  {| df_vals := if valid_in then map2 (sub_val bd) px pr else df_vals s;
     df_mns := if valid_in then map2 (sub_mns bd) px pr else df_mns s;
     df_valid := valid_in;
     df_end := end_in |}.

(* normalize.py *)
From Verif Require Import Bits.
From Verif Require Import M_Difference.

(* normalize.py:146-148 : neg_options[i] = (TEST_VALUE, SSSS, ADDED_VALUE, INDICES) *)
Definition neg_test (bd i : Z) : Z := 2 ^ (bd - i) - 1.
Definition neg_ssss (i : Z) : Z := i + 1.
Definition neg_added (i : Z) : Z := 2 ^ (i + 1) - 1.
(* val_in_mns[1+i : bd+1] == TEST_VALUE *)
Definition neg_hit (bd mns i : Z) : bool := slice (1 + i) (bd + 1) mns =? neg_test bd i.
(* normalize.py:57-60 : the two assigned registers, val_out (bd bits), ssss (5 bits) *)
Definition neg_leaf (bd v i : Z) : Z * Z := (trunc bd (v + neg_added i), trunc 5 (neg_ssss i)).

(* normalize.py:48-84 build_neg_tree; the recursion depth of the Python function
   is at most the number of options, used here as fuel (None = not reached). *)
Fixpoint neg_tree (fuel : nat) (bd mns v start en : Z) : option (Z * Z) :=
  match fuel with
  | O => None
  | S f =>
      if en =? start then Some (neg_leaf bd v start)
      else if en =? start + 1 then
        Some (if neg_hit bd mns start then neg_leaf bd v start else neg_leaf bd v en)
      else
        let middle := (en + start) / 2 in
        if neg_hit bd mns middle then neg_tree f bd mns v start middle
        else neg_tree f bd mns v (middle + 1) en
  end.

(* normalize.py:91-100,149-151 build_pos_tree: first set bit from bd-1 down to 0;
   n+1 bits left to look at: index n, ssss n+1.  Default 0 (line 167). *)
Fixpoint pos_tree (n : nat) (v : Z) : Z :=
  match n with
  | O => 0
  | S k => if Z.testbit v (Z.of_nat k) then trunc 5 (Z.of_nat n) else pos_tree k v
  end.

(* normalize.py:156-170 : next (val_out, ssss) for valid input *)
Definition norm1 (bd v mns : Z) : Z * Z :=
  if Z.testbit v bd then
    match neg_tree (Z.to_nat bd) bd mns v 0 (bd - 1) with
    | Some r => r
    | None => (0, 0)   (* unreachable, see neg_tree_total *)
    end
  else (trunc bd v, pos_tree (Z.to_nat bd) v).

(* normalize.py:118-133, 181-246: one SingleNormalizer per pixel; valid/end of pixel 0
   (all normalizers receive the same valid/end, so one copy is kept) *)
Record norm_st := {
  nm_out : list (Z * Z);      (* (val_out, ssss) per pixel *)
  nm_valid : bool;
  nm_end : bool
}.

Definition norm_init (ps : Z) : norm_st :=
  {| nm_out := repeat (0, 0) (Z.to_nat ps); nm_valid := false; nm_end := false |}.

(* normalize.py:154-176, 228-244 *)
Definition norm_step (bd : Z) (s : norm_st) (valid_in end_in : bool) (vals mns : list Z) : norm_st :=
  {| nm_out := if valid_in then map2 (norm1 bd) vals mns else nm_out s;
     nm_valid := valid_in;
     nm_end := end_in |}.

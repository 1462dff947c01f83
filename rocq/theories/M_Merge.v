(* merge.py *)
From Verif Require Import Bits.

(* merge.py:49-58 *)
Record mg_st := { mg_enc : Z; mg_ctr : Z; mg_valid : bool; mg_end : bool }.
Definition mg_init : mg_st := {| mg_enc := 0; mg_ctr := 0; mg_valid := false; mg_end := false |}.

(* inputs of a SingleMerger, merge.py:43-58 *)
Record mg_in := { mi_enc1 : Z; mi_ctr1 : Z; mi_enc2 : Z; mi_ctr2 : Z; mi_valid : bool; mi_end : bool }.

(* merge.py:72-82; inputs are wires of width w resp. clog2(w+1) *)
Definition mg_step (w : Z) (s : mg_st) (i : mg_in) : mg_st :=
  let e1 := trunc w (mi_enc1 i) in let c1 := trunc (clog2 (w + 1)) (mi_ctr1 i) in
  let e2 := trunc w (mi_enc2 i) in let c2 := trunc (clog2 (w + 1)) (mi_ctr2 i) in
  {| mg_enc := if mi_valid i then trunc (2 * w) (Z.lor (Z.shiftl e1 c2) e2) else mg_enc s;
     mg_ctr := if mi_valid i then trunc (clog2 (2 * w + 1)) (c1 + c2) else mg_ctr s;
     mg_valid := mi_valid i;
     mg_end := mi_end i |}.

(* merge.py:124 levels = ceil(log2 ps) *)
Definition merge_levels (ps : Z) : Z := clog2 ps.

(* The flat list self.mergers (merge.py:125-140) is kept level by level: level 0
   (the base) has 2^(levels-1) mergers, each next level half as many. *)
Definition merge_st := list (list mg_st).

Fixpoint merge_init_levels (n : nat) : merge_st :=
  match n with
  | O => []
  | S k => repeat mg_init (Nat.pow 2 k) :: merge_init_levels k
  end.
Definition merge_init (ps : Z) : merge_st := merge_init_levels (Z.to_nat (merge_levels ps)).

(* merge.py:160-193 : the ps inputs in order, then (0,0) up to 2^levels *)
Definition merge_pad (ps : Z) (ins : list (Z * Z)) : list (Z * Z) :=
  ins ++ repeat (0, 0) (Nat.pow 2 (Z.to_nat (merge_levels ps)) - length ins).

(* pair up 2m inputs for the m mergers of a level *)
Fixpoint pair_up (l : list (Z * Z)) (valid en : bool) : list mg_in :=
  match l with
  | (e1, c1) :: (e2, c2) :: r =>
      {| mi_enc1 := e1; mi_ctr1 := c1; mi_enc2 := e2; mi_ctr2 := c2; mi_valid := valid; mi_end := en |}
      :: pair_up r valid en
  | _ => []
  end.

(* merge.py:195-210 : merger j of a level reads mergers 2j, 2j+1 of the level below,
   valid and end from merger 2j *)
Fixpoint pair_mg (l : list mg_st) : list mg_in :=
  match l with
  | a :: b :: r =>
      {| mi_enc1 := mg_enc a; mi_ctr1 := mg_ctr a; mi_enc2 := mg_enc b; mi_ctr2 := mg_ctr b;
         mi_valid := mg_valid a; mi_end := mg_end a |} :: pair_mg r
  | _ => []
  end.

Fixpoint level_step (w : Z) (l : list mg_st) (ins : list mg_in) : list mg_st :=
  match l, ins with
  | m :: l', i :: ins' => mg_step w m i :: level_step w l' ins'
  | _, _ => []
  end.

(* all levels, each reading the old registers of the one below; w doubles (merge.py:137) *)
Fixpoint levels_step (w : Z) (ls : merge_st) (ins : list mg_in) : merge_st :=
  match ls with
  | [] => []
  | l :: r => level_step w l ins :: levels_step (2 * w) r (pair_mg l)
  end.

(* merge.py:150-220; single = min(16+bd,31) *)
Definition merge_step (ps single : Z) (s : merge_st) (valid_in end_in : bool) (ins : list (Z * Z))
  : merge_st :=
  levels_step single s (pair_up (merge_pad ps ins) valid_in end_in).

(* merge.py:212-218 : outputs of the top merger, cut to the output widths *)
Definition merge_top (s : merge_st) : mg_st := hd mg_init (last s []).
Definition merge_out (ps single : Z) (s : merge_st) : Z * Z :=
  (trunc (single * ps) (mg_enc (merge_top s)),
   trunc (clog2 (single * ps + 1)) (mg_ctr (merge_top s))).

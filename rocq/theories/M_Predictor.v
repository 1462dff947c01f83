(* predictor_p1_c4_px4.py and predictor_p1_c4_pix1_2.py *)
From Verif Require Import Bits.

(* replace element i of a list (no change when i is out of range) *)
Fixpoint upd {A} (i : nat) (x : A) (l : list A) : list A :=
  match i, l with
  | _, [] => []
  | O, _ :: r => x :: r
  | S k, y :: r => y :: upd k x r
  end.

(* ---- four pixels per cycle: predictor_p1_c4_px4.py:62-80, 96, 102 ---- *)
Record p4_st := {
  p4_pixels_out : list Z;
  p4_predics_out : list Z;
  p4_valid_out : bool;
  p4_end_out : bool;
  p4_buffs : list Z;
  p4_lbuffs : list Z
}.

Definition p4_init (bd : Z) : p4_st :=
  {| p4_pixels_out := repeat 0 4; p4_predics_out := repeat 0 4;
     p4_valid_out := false; p4_end_out := false;
     p4_buffs := repeat (2 ^ (bd - 1)) 4; p4_lbuffs := repeat (2 ^ (bd - 1)) 4 |}.

(* predictor_p1_c4_px4.py:104-126 *)
Definition p4_step (s : p4_st) (valid_in new_row end_in : bool) (px : list Z) : p4_st :=
  {| p4_pixels_out := if valid_in then px else p4_pixels_out s;
     p4_predics_out := if valid_in then (if new_row then p4_lbuffs s else p4_buffs s)
                       else p4_predics_out s;
     p4_valid_out := valid_in;
     p4_end_out := end_in;
     p4_buffs := if valid_in then px else p4_buffs s;
     p4_lbuffs := if valid_in && new_row then px else p4_lbuffs s |}.

(* ---- one or two pixels per cycle: predictor_p1_c4_pix1_2.py:58-84, 100-112 ----
   (debug_counter, line 84/124, is an output that nothing reads; it is omitted) *)
Record p12_st := {
  p12_pixels_out : list Z;
  p12_predics_out : list Z;
  p12_valid_out : bool;
  p12_end_out : bool;
  p12_buffs : list (list Z);       (* gb groups of ps pixels *)
  p12_lbuffs : list (list Z);
  p12_buff_ctr : Z;
  p12_lbuff_ctr : Z;
  p12_new_row_reg : bool
}.

(* predictor_p1_c4_pix1_2.py:61 *)
Definition p12_gb (ps : Z) : Z := 4 / ps.

Definition p12_init (bd ps : Z) : p12_st :=
  let g := repeat (2 ^ (bd - 1)) (Z.to_nat ps) in
  {| p12_pixels_out := repeat 0 (Z.to_nat ps); p12_predics_out := repeat 0 (Z.to_nat ps);
     p12_valid_out := false; p12_end_out := false;
     p12_buffs := repeat g (Z.to_nat (p12_gb ps)); p12_lbuffs := repeat g (Z.to_nat (p12_gb ps));
     p12_buff_ctr := 0; p12_lbuff_ctr := 0; p12_new_row_reg := false |}.

(* predictor_p1_c4_pix1_2.py:115-160.  buff_ctr = Signal(max=gb): width clog2 gb. *)
Definition p12_step (ps : Z) (s : p12_st) (valid_in new_row end_in : bool) (px : list Z) : p12_st :=
  let gb := p12_gb ps in
  let new_row_latch := new_row || p12_new_row_reg s in                     (* line 119 *)
  {| p12_pixels_out := if valid_in then px else p12_pixels_out s;            (* line 127 *)
     p12_predics_out :=                                                      (* lines 145-154 *)
       if valid_in then
         (if new_row_latch then nth (Z.to_nat (p12_lbuff_ctr s)) (p12_lbuffs s) (p12_predics_out s)
          else nth (Z.to_nat (p12_buff_ctr s)) (p12_buffs s) (p12_predics_out s))
       else p12_predics_out s;
     p12_valid_out := valid_in;
     p12_end_out := end_in;
     p12_buffs := if valid_in then upd (Z.to_nat (p12_buff_ctr s)) px (p12_buffs s)
                  else p12_buffs s;                                          (* lines 131-134 *)
     p12_lbuffs := if valid_in && new_row_latch
                   then upd (Z.to_nat (p12_lbuff_ctr s)) px (p12_lbuffs s)
                   else p12_lbuffs s;                                        (* lines 139-142 *)
     p12_buff_ctr := if valid_in then trunc (clog2 gb) (p12_buff_ctr s + 1) else p12_buff_ctr s;
     p12_lbuff_ctr := if valid_in && new_row_latch
                      then trunc (clog2 gb) (p12_lbuff_ctr s + 1) else p12_lbuff_ctr s;
     p12_new_row_reg :=                                                      (* lines 115-118 *)
       if valid_in && new_row then true
       else if valid_in && (p12_lbuff_ctr s =? gb - 1) then false
       else p12_new_row_reg s |}.

(* integration_1.py:37-40 : which predictor is instantiated *)
Inductive pred_st := PRED4 (s : p4_st) | PRED12 (s : p12_st).

Definition pred_init (bd ps : Z) : pred_st :=
  if ps =? 4 then PRED4 (p4_init bd) else PRED12 (p12_init bd ps).

Definition pred_step (ps : Z) (s : pred_st) (valid_in new_row end_in : bool) (px : list Z) : pred_st :=
  match s with
  | PRED4 s => PRED4 (p4_step s valid_in new_row end_in px)
  | PRED12 s => PRED12 (p12_step ps s valid_in new_row end_in px)
  end.

Definition pred_pixels_out (s : pred_st) :=
  match s with PRED4 s => p4_pixels_out s | PRED12 s => p12_pixels_out s end.
Definition pred_predics_out (s : pred_st) :=
  match s with PRED4 s => p4_predics_out s | PRED12 s => p12_predics_out s end.
Definition pred_valid_out (s : pred_st) :=
  match s with PRED4 s => p4_valid_out s | PRED12 s => p12_valid_out s end.
Definition pred_end_out (s : pred_st) :=
  match s with PRED4 s => p4_end_out s | PRED12 s => p12_end_out s end.

(* encode.py *)
From Verif Require Import Bits M_Difference.

(* encode.py:44-51 : (code, number of bits) per ssss class *)
Definition get_ssss : list (Z * Z) :=
  [(14, 4); (0, 3);
   (1, 3); (2, 3); (3, 3);
   (4, 3); (5, 3); (6, 3);
   (30, 5); (62, 6); (126, 7);
   (254, 8); (510, 9); (1022, 10);
   (2046, 11); (4094, 12);
   (8190, 13)].

(* encode.py:66-71 : memory word of class ind with code sx0 of length sx1 *)
Definition huff_entry (bd ind sx0 sx1 : Z) : Z :=
  if ind =? 16 then Z.lor (Z.shiftl sx1 (16 + bd)) sx0
  else Z.lor (Z.shiftl sx1 (16 + bd)) (Z.shiftl sx0 ind).

Fixpoint huff_entries (bd ind : Z) (l : list (Z * Z)) : list Z :=
  match l with
  | [] => []
  | (c, n) :: r => huff_entry bd ind c n :: huff_entries bd (ind + 1) r
  end.

(* encode.py:62-72 ; the slice [0:bd+1] has length bd+1 for bd <= 16 (assert line 64),
   and all lengths are <= 16 (assert line 67) *)
Definition init_huff_table (bd : Z) : list Z :=
  huff_entries bd 0 (firstn (Z.to_nat (bd + 1)) get_ssss).

(* encode.py:86-107, 118-131, 195-203.  One SingleEncoder per pixel.
   rp_data is the read port's data register (Memory.read_port(): synchronous). *)
Record enc1_st := {
  e1_ssss_late : Z;    (* 5 bits *)
  e1_val_late : Z;     (* bd bits *)
  e1_rp_data : Z;      (* bd+21 bits *)
  e1_enc_out : Z;      (* min(16+bd,31) bits *)
  e1_enc_ctr : Z       (* 5 bits *)
}.
Record enc_st := {
  en_px : list enc1_st;
  en_valid_late : bool; en_valid_out : bool;
  en_end_late : bool; en_end_out : bool
}.

Definition enc1_init : enc1_st :=
  {| e1_ssss_late := 0; e1_val_late := 0; e1_rp_data := 0; e1_enc_out := 0; e1_enc_ctr := 0 |}.
Definition enc_init (ps : Z) : enc_st :=
  {| en_px := repeat enc1_init (Z.to_nat ps);
     en_valid_late := false; en_valid_out := false; en_end_late := false; en_end_out := false |}.

(* after a reset: the read-port data register of a block RAM is not reset *)
Definition enc_reset (rps : list Z) : enc_st :=
  {| en_px := map (fun rp => {| e1_ssss_late := 0; e1_val_late := 0; e1_rp_data := rp;
                                e1_enc_out := 0; e1_enc_ctr := 0 |}) rps;
     en_valid_late := false; en_valid_out := false; en_end_late := false; en_end_out := false |}.

(* the memory (encode.py:195): depth bd+1, read address width bits_for(bd).
   An address past the depth reads 0 here (never happens: ssss <= bd). *)
Definition mem_read (bd : Z) (mem : list Z) (addr : Z) : Z :=
  nth (Z.to_nat (trunc (clog2 (bd + 1)) addr)) mem 0.

(* encode.py:138-158 : next enc_out, enc_ctr when valid_late *)
Definition enc_logic (bd : Z) (ssss_late val_late rp : Z) : Z * Z :=
  let w := Z.min (16 + bd) 31 in
  let len := slice (16 + bd) (16 + bd + 5) rp in
  if (bd =? 16) && (ssss_late =? 16) then (trunc w rp, trunc 5 len)
  else (trunc w (Z.lor rp val_late), trunc 5 (len + slice 0 4 ssss_late)).

Definition enc1_step (bd : Z) (mem : list Z) (valid_late : bool) (s : enc1_st) (i : Z * Z) : enc1_st :=
  let '(val_in, ssss) := i in
  let '(eo, ec) := enc_logic bd (e1_ssss_late s) (e1_val_late s) (e1_rp_data s) in
  {| e1_ssss_late := ssss;
     e1_val_late := val_in;
     e1_rp_data := mem_read bd mem ssss;
     e1_enc_out := if valid_late then eo else e1_enc_out s;
     e1_enc_ctr := if valid_late then ec else e1_enc_ctr s |}.

(* encode.py:114-160, 221-250.  mem = memory contents (no write port when
   support_axi_lite is false; constant during a frame otherwise) *)
Definition enc_step (bd : Z) (mem : list Z) (s : enc_st) (valid_in end_in : bool)
    (ins : list (Z * Z)) : enc_st :=
  {| en_px := map2 (enc1_step bd mem (en_valid_late s)) (en_px s) ins;
     en_valid_late := valid_in; en_valid_out := en_valid_late s;
     en_end_late := end_in; en_end_out := en_end_late s |}.

Definition enc_outs (s : enc_st) : list (Z * Z) :=
  map (fun e => (e1_enc_out e, e1_enc_ctr e)) (en_px s).

(* The configuration dictionary (config.py) and the constructors' assertions. *)
From Verif Require Import Bits.

(* config.py:1-20 : the keys used by the core *)
Record config := {
  bd   : Z;   (* bit_depth *)
  ps   : Z;   (* pixels_per_cycle *)
  ljd  : Z;   (* LJ92_fifo_depth *)
  conv : Z;   (* converter *)
  cfd  : Z;   (* converter_fifo_depth *)
  outb : Z;   (* out_bits *)
  bufs : Z    (* vbits_to_cbits_buffer_size *)
}.

(* encode.py:97, merge.py:106, converter.py:49, converter_fifo.py:45,
   lj92_pipeline_fifo.py:46 : min(16+bd, 31) *)
Definition single_ctr (c : config) : Z := Z.min (16 + bd c) 31.
(* merge.py:107, converter.py:50, converter_fifo.py:46, lj92_pipeline_fifo.py:47 *)
Definition total_ctr (c : config) : Z := single_ctr c * ps c.

(* converter_fifo.py:47  steps = ceil(total_ctr / converter) + 3 *)
Definition cf_steps (c : config) : Z := (total_ctr c + conv c - 1) / conv c + 3.

(* The conjunction of all constructor assertions met when Integration3 is built:
   predictor_p1_c4_px4.py:49-52, predictor_p1_c4_pix1_2.py:49-52 (ps is 1, 2 or 4),
   difference.py:45-46, normalize.py:111-112, encode.py:83-84, merge.py:99-100,
   lj92_pipeline_fifo.py:41-43, converter.py:46-51, converter_fifo.py:41-48,
   vbits_to_cbits.py:318-319, integration_3.py:14-16. *)
Definition cfg_ok (c : config) : bool :=
  (2 <=? bd c) && (bd c <=? 16) &&
  ((ps c =? 1) || (ps c =? 2) || (ps c =? 4)) &&
  (25 <=? ljd c) &&
  (1 <=? conv c) && (conv c <=? total_ctr c) &&
  (cf_steps c + 3 <? cfd c) &&
  (conv c + outb c <=? bufs c) && (outb c mod 8 =? 0) && (1 <=? outb c).

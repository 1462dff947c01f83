(* integration_1.py : the arithmetic pipeline *)
From Verif Require Import Bits M_Config M_Signals M_Predictor M_Difference M_Normalize M_Encode M_Merge.

Record i1_st := {
  i1_sig : sig_st;
  i1_pred : pred_st;
  i1_diff : diff_st;
  i1_norm : norm_st;
  i1_enc : enc_st;
  i1_merge : merge_st      (* [] when ps = 1: no Merge is instantiated (integration_1.py:45) *)
}.

Definition i1_init (c : config) : i1_st :=
  {| i1_sig := sig_init; i1_pred := pred_init (bd c) (ps c); i1_diff := diff_init (ps c);
     i1_norm := norm_init (ps c); i1_enc := enc_init (ps c);
     i1_merge := if 1 <? ps c then merge_init (ps c) else [] |}.

(* after a reset (rps: contents of the memory read registers, see enc_reset) *)
Definition i1_reset (c : config) (rps : list Z) : i1_st :=
  {| i1_sig := sig_init; i1_pred := pred_init (bd c) (ps c); i1_diff := diff_init (ps c);
     i1_norm := norm_init (ps c); i1_enc := enc_reset rps;
     i1_merge := if 1 <? ps c then merge_init (ps c) else [] |}.

(* integration_1.py:97-166.  force_end does not feed back into the pipeline; it is
   modelled in M_Beta.v.  w,h: the register-file / AXI-lite values (lines 77-90). *)
Definition i1_step (c : config) (mem : list Z) (s : i1_st)
    (valid_in : bool) (px : list Z) (w h : Z) : i1_st :=
  {| i1_sig := sig_step (ps c) (i1_sig s) valid_in w h;
     i1_pred := pred_step (ps c) (i1_pred s) valid_in (sg_new_row (i1_sig s))
                  (sg_end_of_frame (i1_sig s)) px;
     i1_diff := diff_step (bd c) (i1_diff s) (pred_valid_out (i1_pred s)) (pred_end_out (i1_pred s))
                  (pred_pixels_out (i1_pred s)) (pred_predics_out (i1_pred s));
     i1_norm := norm_step (bd c) (i1_norm s) (df_valid (i1_diff s)) (df_end (i1_diff s))
                  (df_vals (i1_diff s)) (df_mns (i1_diff s));
     i1_enc := enc_step (bd c) mem (i1_enc s) (nm_valid (i1_norm s)) (nm_end (i1_norm s))
                  (nm_out (i1_norm s));
     i1_merge := if 1 <? ps c
                 then merge_step (ps c) (single_ctr c) (i1_merge s) (en_valid_out (i1_enc s))
                        (en_end_out (i1_enc s)) (enc_outs (i1_enc s))
                 else [] |}.

(* integration_1.py:143-166 : outputs *)
Definition i1_valid_out (c : config) (s : i1_st) : bool :=
  if 1 <? ps c then mg_valid (merge_top (i1_merge s)) else en_valid_out (i1_enc s).
Definition i1_end_out (c : config) (s : i1_st) : bool :=
  if 1 <? ps c then mg_end (merge_top (i1_merge s)) else en_end_out (i1_enc s).
(* (enc_out, enc_out_ctr) *)
Definition i1_out (c : config) (s : i1_st) : Z * Z :=
  if 1 <? ps c then merge_out (ps c) (single_ctr c) (i1_merge s)
  else hd (0, 0) (enc_outs (i1_enc s)).

(* integration_3_axi_stream.py: integration_3 with four pixels per cycle and 32-bit words behind AXI-stream pins.  The size registers are
   those of register_file.py (support_axi_lite is False, integration_1.py:50-51, 73-90). *)
From Verif Require Import Bits M_Config M_I3 M_Markers.

(* integration_3_axi_stream.py:11-23 *)
Definition s3_cfg : config :=
  {| bd := 12; ps := 4; ljd := 128; conv := 48; cfd := 256; outb := 32; bufs := 144 |}.

(* the input pins of one cycle (s_tlast, line 68, goes nowhere) *)
Record s3_in := { s3_tvalid : bool; s3_tdata : Z; s3_tlast : bool; s3_mready : bool }.
Record s3_st := { s3_core : i3_st; s3_rf : rf_st }.
Definition s3_reset (i3 : i3_st) : s3_st := {| s3_core := i3; s3_rf := rf_init |}.

(* lines 57-69: the pins of the core *)
Definition s3_i3 (s : s3_st) (i : s3_in) : i3_in :=
  {| in_valid := s3_tvalid i;
     in_px := [slice 0 12 (s3_tdata i); slice 12 24 (s3_tdata i); slice 24 36 (s3_tdata i); slice 36 48 (s3_tdata i)];
     in_busy := negb (s3_mready i);
     in_w := rf_width (s3_rf s); in_h := rf_height (s3_rf s) |}.
(* line 67: s_tready; lines 55-58: m_tvalid, m_tdata, m_tlast *)
Definition s3_sready (s : s3_st) : bool := negb (i3_nready (s3_core s)).
Definition s3_mvalid (s : s3_st) : bool := i3_valid_out (s3_core s).
Definition s3_mdata (s : s3_st) : Z := i3_data_out (s3_core s).
Definition s3_mlast (s : s3_st) : bool := i3_end_out (s3_core s).

(* one clock edge *)
Definition s3_step (mem : list Z) (s : s3_st) (i : s3_in) : s3_st :=
  {| s3_core := i3_step s3_cfg mem (s3_core s) (s3_i3 s i); s3_rf := rf_step (s3_rf s) |}.
Fixpoint s3_run (mem : list Z) (s : s3_st) (l : list s3_in) : s3_st :=
  match l with [] => s | i :: r => s3_run mem (s3_step mem s i) r end.

(* the beats of both streams: tvalid and tready in the same cycle *)
Fixpoint s3_beats_in (mem : list Z) (s : s3_st) (l : list s3_in) : list Z :=
  match l with
  | [] => []
  | i :: r => (if s3_tvalid i && s3_sready s then [s3_tdata i] else []) ++ s3_beats_in mem (s3_step mem s i) r
  end.
Fixpoint s3_beats_out (mem : list Z) (s : s3_st) (l : list s3_in) : list (Z * bool) :=
  match l with
  | [] => []
  | i :: r => (if s3_mvalid s && s3_mready i then [(s3_mdata s, s3_mlast s)] else []) ++ s3_beats_out mem (s3_step mem s i) r
  end.

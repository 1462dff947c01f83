(* micro_integration.py: the one-pixel core, cycle accurate, including the automatic reset.
   micro_integration_axistream.py wires the same core behind AXI-stream ports; core_axi_lite's
   width, height and allowed_cycles registers are inputs here.  The registers are those of the beta
   core (M_Beta.bt_st); what differs is the wiring between the stages. *)
From Verif Require Import Bits M_Config M_Encode M_I1 M_Fifo M_I3 M_Fix M_Markers M_Beta.

(* micro_integration.py:93-97; i3, fix_0xff and the inputs are connected as in the beta core *)
Definition mc_i3_in := bt_i3_in.
(* micro_integration.py:115-121: markers, connected as in the beta core *)
Definition mc_mk_in := bt_mk_in.
(* micro_integration.py:99-112: fix_0xff.end_in and fix_0xff2.end_in are not connected (an
   unconnected nMigen input is 0), and fix_0xff2.i_busy is the consumer's busy_in, not
   markers.o_busy *)
Definition mc_in1 (s : bt_st) (i : bt_in) : f1_in :=
  {| f1i_valid := i3_valid_out (b_i3 s); f1i_data := i3_data_out (b_i3 s); f1i_end := false;
     f1i_busy := f2_obusy (b_f2 s) |}.
Definition mc_in2 (s : bt_st) (i : bt_in) : f2_in :=
  {| f2i_valid := f1_vout (b_f1 s); f2i_data := f1_dout (b_f1 s); f2i_ctr := f1_ctr (b_f1 s);
     f2i_end := false; f2i_busy := bi_busy i |}.
(* micro_integration.py:124-129 *)
Definition mc_out (s : bt_st) (i : bt_in) : mk_out := mk_comb (b_mk s) (mc_mk_in s i).

Definition mc_next (c : config) (mem : list Z) (s : bt_st) (i : bt_in) : bt_st :=
  {| b_i3 := i3_step c mem (b_i3 s) (mc_i3_in s i);
     b_fe := fe_step (b_fe s) (bt_accept s i) (bi_allowed i);
     b_f1 := f1_step (b_f1 s) (mc_in1 s i); b_f2 := f2_step (b_f2 s) (mc_in2 s i);
     b_mk := mk_step (b_mk s) (mc_mk_in s i);
     (* micro_integration.py:71-75 *)
     b_rst := ar_step (b_rst s) (mko_end (mc_out s i)) (mko_valid (mc_out s i)) (negb (bi_busy i)) |}.
(* micro_integration.py:66-68 *)
Definition mc_step (c : config) (mem : list Z) (s : bt_st) (i : bt_in) : bt_st :=
  if b_rst s then bt_reset_with (i3_keep_reset c (b_i3 (mc_next c mem s i))) else mc_next c mem s i.
Fixpoint mc_run (c : config) (mem : list Z) (s : bt_st) (l : list bt_in) : bt_st :=
  match l with [] => s | i :: r => mc_run c mem (mc_step c mem s i) r end.
(* words handed over (valid_out=1, busy_in=0), with end_out *)
Definition mc_gave (s : bt_st) (i : bt_in) : list (Z * bool) :=
  if mko_valid (mc_out s i) && negb (bi_busy i) then [(mko_data (mc_out s i), mko_end (mc_out s i))] else [].
Fixpoint mc_outs (c : config) (mem : list Z) (s : bt_st) (l : list bt_in) : list (Z * bool) :=
  match l with [] => [] | i :: r => mc_gave s i ++ mc_outs c mem (mc_step c mem s i) r end.
(* pixels accepted (valid_in=1, nready=0) *)
Fixpoint mc_accepted (c : config) (mem : list Z) (s : bt_st) (l : list bt_in) : list (list Z) :=
  match l with [] => [] | i :: r => bt_took s i ++ mc_accepted c mem (mc_step c mem s i) r end.

(* micro_integration.py:14-27 *)
Definition micro_cfg : config :=
  {| bd := 12; ps := 1; ljd := 512; conv := 15; cfd := 1024; outb := 16; bufs := 41 |}.

(* ---------- micro_integration_axistream.py ---------- *)

(* the pins in a cycle: slave tvalid, tdata (32 bits), tlast; master tready; and core_axi_lite's registers *)
Record ma_in := { ma_tvalid : bool; ma_tdata : Z; ma_tlast : bool; ma_mready : bool; ma_w : Z; ma_h : Z; ma_allowed : Z }.
(* micro_integration_axistream.py:44-57: what the core sees; s_tlast only drives the unused signal s_end *)
Definition ma_bt (i : ma_in) : bt_in :=
  {| bi_valid := ma_tvalid i; bi_px := [slice 0 12 (ma_tdata i)]; bi_busy := negb (ma_mready i);
     bi_w := ma_w i; bi_h := ma_h i; bi_allowed := ma_allowed i |}.
(* lines 44-49, 54: m_tvalid, m_tdata, m_tlast, s_tready *)
Record ma_out := { mao_tvalid : bool; mao_tdata : Z; mao_tlast : bool; mao_sready : bool }.
Definition ma_pins (s : bt_st) (i : ma_in) : ma_out :=
  let o := mc_out s (ma_bt i) in
  {| mao_tvalid := mko_valid o; mao_tdata := mko_data o; mao_tlast := mko_end o; mao_sready := negb (bt_nready s) |}.
Definition ma_step (mem : list Z) (s : bt_st) (i : ma_in) : bt_st := mc_step micro_cfg mem s (ma_bt i).
(* everything that happens on the output pins *)
Fixpoint ma_trace (mem : list Z) (s : bt_st) (l : list ma_in) : list ma_out :=
  match l with [] => [] | i :: r => ma_pins s i :: ma_trace mem (ma_step mem s i) r end.

(* axi_lite.py: the converter from the Zynq's AXI3 general purpose port to AXI-lite, and its connection to core_axi_lite.py and
   dma_axi_lite.py.  Clock and reset outputs (lines 107-110) are wires and are left out; so are arprot, awprot, arburst, arsize,
   awburst, awsize, which no slave here looks at. *)
From Verif Require Import Bits M_AxiLite.

(* axi3m_read_out_r, axi3m_write_out_r (axi3_pkg.py:16-29): what the processor drives *)
Record zb_in := { zb_bus : ax_in; zb_arid : Z; zb_awid : Z; zb_arlen : Z; zb_awlen : Z; zb_wid : Z; zb_wlast : bool }.
(* axi3m_read_in_r, axi3m_write_in_r (axi3_pkg.py:11-13, 21-24): what the processor sees *)
Record zb_out := { zo_bus : ax_out; zo_rid : Z; zo_bid : Z; zo_rlast : bool }.
(* registers: rwid (line 91), and rid, bid, which are assigned in m.d.sync (lines 99-102) *)
Record zb_st := { zb_rwid : Z; zb_rid : Z; zb_bid : Z }.
Definition zb_init : zb_st := {| zb_rwid := 0; zb_rid := 0; zb_bid := 0 |}.

(* one clock edge, lines 93-102: of the two assignments to rwid the later one, for the write address, wins *)
Definition zb_step (s : zb_st) (i : zb_in) : zb_st :=
  {| zb_rwid := if ai_awvalid (zb_bus i) then zb_awid i else if ai_arvalid (zb_bus i) then zb_arid i else zb_rwid s;
     zb_rid := zb_rwid s; zb_bid := zb_rwid s |}.
(* lines 126-130, 133-135, 148-164: the request signals go through unchanged, the burst and ID signals go nowhere *)
Definition zb_down (i : zb_in) : ax_in := zb_bus i.
(* lines 112-123, 137-146: the answers go through unchanged; rlast is the constant 1 *)
Definition zb_up (s : zb_st) (o : ax_out) : zb_out := {| zo_bus := o; zo_rid := zb_rid s; zo_bid := zb_bid s; zo_rlast := true |}.

(* the bridge in front of core_axi_lite: inputs per cycle: processor, debug counters, auto reset (of the slave's state machine) *)
Fixpoint zc_trace (bd : Z) (dbg : bool) (b : zb_st) (s : al_st) (l : list (zb_in * list Z * bool)) : list (zb_in * zb_out) :=
  match l with
  | [] => []
  | (i, dr, rst) :: r => (i, zb_up b (al_out s)) :: zc_trace bd dbg (zb_step b i) (al_step bd dbg s (zb_down i) dr rst) r
  end.
(* the bridge in front of dma_axi_lite *)
Fixpoint zd_trace (b : zb_st) (s : dl_st) (l : list (zb_in * list Z)) : list (zb_in * zb_out) :=
  match l with
  | [] => []
  | (i, ins) :: r => (i, zb_up b (dl_out s)) :: zd_trace (zb_step b i) (dl_step s (zb_down i) ins) r
  end.

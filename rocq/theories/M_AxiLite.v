(* core_axi_lite.py (with the memory ports of encode.py it drives) and dma_axi_lite.py, cycle
   accurate.  Addresses are 32 bits, data 32 bits, strobes 4 bits, responses 2 bits
   (axi3_lite_pkg.py). *)
From Verif Require Import Bits M_Encode.

Record ax_in := {
  ai_arvalid : bool; ai_araddr : Z; ai_rready : bool;
  ai_awvalid : bool; ai_awaddr : Z; ai_wvalid : bool; ai_wdata : Z; ai_wstrb : Z; ai_bready : bool
}.
Record ax_out := {
  ao_arready : bool; ao_rvalid : bool; ao_rdata : Z; ao_rresp : Z;
  ao_awready : bool; ao_wready : bool; ao_bvalid : bool; ao_bresp : Z
}.

(* core_axi_lite.py:297-402; dma_axi_lite.py has no *_DELAY* states *)
Inductive al_fsm := AL_IDLE | AL_READ_ADDRESS | AL_READ_DATA_DELAY1 | AL_READ_DATA_DELAY2 | AL_READ_DATA
  | AL_WRITE_ADDRESS | AL_WRITE_DATA_DELAY1 | AL_WRITE_DATA_DELAY2 | AL_WRITE_DATA | AL_WRITE_RESPONSE.

(* the bytes i of d for which strobe bit i is set, the others from old: the loops over
   range(4) in core_axi_lite.py:220-229, 248-255 and dma_axi_lite.py:181-190 *)
Definition al_byte (st old d i : Z) : Z :=
  (if Z.testbit st i then slice (8 * i) (8 * i + 8) d else slice (8 * i) (8 * i + 8) old) * 2 ^ (8 * i).
Definition al_merge (st old d : Z) : Z := al_byte st old d 0 + al_byte st old d 1 + al_byte st old d 2 + al_byte st old d 3.
(* the same loop for allowed_cycles, core_axi_lite.py:226-228: only bytes with end <= 24 *)
Definition al_merge24 (st old d : Z) : Z := al_byte st old d 0 + al_byte st old d 1 + al_byte st old d 2.
(* core_axi_lite.py:257-264, the upper half: wdata_v[32+8i:40+8i] is a slice beyond the 32 bits of
   wdata_v, which is empty and gives 0 (verilog_src/core_axi_lite.v:554 assigns it an empty
   string); verilog_src/core_axi_lite.v:728-752 *)
Definition al_byte_hi (st old i : Z) : Z :=
  (if Z.testbit st i then 0 else slice (32 + 8 * i) (32 + 8 * i + 8) old) * 2 ^ (32 + 8 * i).
Definition al_merge_hi (st old : Z) : Z := al_byte_hi st old 0 + al_byte_hi st old 1 + al_byte_hi st old 2 + al_byte_hi st old 3.

Record al_st := {
  al_fsm_st : al_fsm;
  al_addr : Z;                                                       (* addr_v *)
  al_arready : bool; al_rvalid : bool; al_awready : bool; al_wready : bool; al_bvalid : bool;
  al_rdata : Z; al_rresp : Z; al_bresp : Z;
  al_hw : Z; al_allowed : Z;                                         (* height_width, allowed_cycles *)
  al_wp_addr : Z; al_wp_data : Z; al_wp_en : bool; al_rp_addr : Z;
  al_mem : list Z;        (* encode.py:195, the memory *)
  al_raddr : Z            (* address latch of extern_r_port (encode.py:201, transparent read port) *)
}.
(* core_axi_lite.py:161-178; the memory starts with init_huff_table (encode.py:195) *)
Definition al_init (bd : Z) : al_st :=
  {| al_fsm_st := AL_IDLE; al_addr := 0; al_arready := false; al_rvalid := false; al_awready := false;
     al_wready := false; al_bvalid := false; al_rdata := 0; al_rresp := 0; al_bresp := 0;
     al_hw := 0; al_allowed := 0; al_wp_addr := 0; al_wp_data := 0; al_wp_en := false; al_rp_addr := 0;
     al_mem := init_huff_table bd; al_raddr := 0 |}.

Definition al_out (s : al_st) : ax_out :=
  {| ao_arready := al_arready s; ao_rvalid := al_rvalid s; ao_rdata := al_rdata s; ao_rresp := al_rresp s;
     ao_awready := al_awready s; ao_wready := al_wready s; ao_bvalid := al_bvalid s; ao_bresp := al_bresp s |}.

(* core_axi_lite.py:186-201 *)
Definition al_ssss_en (bd a : Z) : bool := Z.testbit a 10 && (trunc 6 a <? 2 * (bd + 1)).
Definition al_hw_en (a : Z) : bool := Z.testbit a 11.
Definition al_dbg_en (a : Z) : bool := Z.testbit a 12.

(* a write to the memory port *)
Fixpoint set_nth (n : nat) (v : Z) (l : list Z) : list Z :=
  match l, n with
  | [], _ => []
  | _ :: r, O => v :: r
  | x :: r, S k => x :: set_nth k v r
  end.

(* One clock edge.  dbg: config['axi_lite_debug']; dr: the eight debug counters.  rst: the reset of
   the "sync" domain, which holds the FSM state (m.FSM() without a domain argument,
   core_axi_lite.py:297); everything else is in domain "full" and keeps its value. *)
Definition al_step (bd : Z) (dbg : bool) (s : al_st) (i : ax_in) (dr : list Z) (rst : bool) : al_st :=
  let a := al_addr s in
  (* rp_data = memory at the latched address (transparent read port) *)
  let rp64 := nth (Z.to_nat (al_raddr s)) (al_mem s) 0 in
  let even := negb (Z.testbit a 0) in
  let fire := (match al_fsm_st s with AL_WRITE_DATA => true | _ => false end) && ai_wvalid i in
  let st := if fire then ai_wstrb i else 0 in
  let d := if fire then ai_wdata i else 0 in
  {| al_fsm_st :=
       if rst then AL_IDLE else
       match al_fsm_st s with
       | AL_IDLE => if ai_arvalid i then AL_READ_ADDRESS else if ai_awvalid i then AL_WRITE_ADDRESS else AL_IDLE
       | AL_READ_ADDRESS => AL_READ_DATA_DELAY1
       | AL_READ_DATA_DELAY1 => AL_READ_DATA_DELAY2
       | AL_READ_DATA_DELAY2 => AL_READ_DATA
       | AL_READ_DATA => if ai_rready i then AL_IDLE else AL_READ_DATA
       | AL_WRITE_ADDRESS => AL_WRITE_DATA_DELAY1
       | AL_WRITE_DATA_DELAY1 => AL_WRITE_DATA_DELAY2
       | AL_WRITE_DATA_DELAY2 => AL_WRITE_DATA
       | AL_WRITE_DATA => if ai_wvalid i then AL_WRITE_RESPONSE else AL_WRITE_DATA
       | AL_WRITE_RESPONSE => if ai_bready i then AL_IDLE else AL_WRITE_RESPONSE
       end;
     (* lines 314, 355 *)
     al_addr := match al_fsm_st s with
                | AL_READ_ADDRESS => ai_araddr i / 4 | AL_WRITE_ADDRESS => ai_awaddr i / 4 | _ => a end;
     (* lines 316, 323 *)
     al_arready := match al_fsm_st s with AL_READ_ADDRESS => true | AL_READ_DATA_DELAY1 => false | _ => al_arready s end;
     (* lines 302, 347 *)
     al_rvalid := match al_fsm_st s with AL_IDLE => false | AL_READ_DATA => ai_rready i || al_rvalid s | _ => al_rvalid s end;
     (* lines 357, 363 *)
     al_awready := match al_fsm_st s with AL_WRITE_ADDRESS => true | AL_WRITE_DATA_DELAY1 => false | _ => al_awready s end;
     (* lines 372, 397 *)
     al_wready := match al_fsm_st s with AL_WRITE_DATA => true | AL_WRITE_RESPONSE => false | _ => al_wready s end;
     (* lines 303, 399 *)
     al_bvalid := match al_fsm_st s with AL_IDLE => false | AL_WRITE_RESPONSE => ai_bready i || al_bvalid s | _ => al_bvalid s end;
     (* lines 331-344 *)
     al_rdata := match al_fsm_st s with
                 | AL_READ_DATA =>
                     if al_ssss_en bd a then (if even then slice 0 32 rp64 else slice 32 64 rp64)
                     else if al_hw_en a then (if even then al_hw s else al_allowed s)
                     else if dbg && al_dbg_en a then nth (Z.to_nat (trunc 3 a)) dr 0
                     else al_rdata s
                 | _ => al_rdata s
                 end;
     al_rresp := match al_fsm_st s with
                 | AL_READ_DATA => if al_ssss_en bd a || al_hw_en a || (dbg && al_dbg_en a) then 0 else 3
                 | _ => al_rresp s
                 end;
     (* lines 379-391 *)
     al_bresp := if fire then
                   if al_ssss_en bd a then 0 else if al_hw_en a then 0 else if dbg && al_dbg_en a then 2 else 3
                 else al_bresp s;
     (* lines 219-229 *)
     al_hw := if fire && negb (al_ssss_en bd a) && al_hw_en a && even then al_merge st (al_hw s) d else al_hw s;
     al_allowed := if fire && negb (al_ssss_en bd a) && al_hw_en a && negb even then al_merge24 st (al_allowed s) d else al_allowed s;
     (* lines 245-271, 273-274, 396 *)
     al_wp_addr := if fire && al_ssss_en bd a then trunc 6 a / 2 else al_wp_addr s;
     al_wp_data := if fire && al_ssss_en bd a then
                     trunc (bd + 21) (if even then al_merge st rp64 d else al_merge_hi st rp64)
                   else al_wp_data s;
     al_wp_en := match al_fsm_st s with
                 | AL_WRITE_RESPONSE => false
                 | _ => if fire && al_ssss_en bd a then true else al_wp_en s
                 end;
     (* lines 315, 356 *)
     al_rp_addr := match al_fsm_st s with
                   | AL_READ_ADDRESS => trunc 5 (ai_araddr i / 8) | AL_WRITE_ADDRESS => trunc 5 (ai_awaddr i / 8)
                   | _ => al_rp_addr s end;
     (* encode.py:200-201, integration_1.py:136-140 *)
     al_mem := if al_wp_en s then set_nth (Z.to_nat (trunc (clog2 (bd + 1)) (al_wp_addr s))) (al_wp_data s) (al_mem s) else al_mem s;
     al_raddr := trunc (clog2 (bd + 1)) (al_rp_addr s) |}.

(* core_axi_lite.py:424-427 *)
Definition al_height (s : al_st) : Z := slice 0 16 (al_hw s).
Definition al_width (s : al_st) : Z := slice 16 32 (al_hw s).

(* a run: inputs of each cycle: bus, debug counters, auto reset *)
Fixpoint al_run (bd : Z) (dbg : bool) (s : al_st) (l : list (ax_in * list Z * bool)) : al_st :=
  match l with [] => s | (i, dr, rst) :: r => al_run bd dbg (al_step bd dbg s i dr rst) r end.
(* the bus as seen in each cycle *)
Fixpoint al_trace (bd : Z) (dbg : bool) (s : al_st) (l : list (ax_in * list Z * bool)) : list (ax_in * ax_out) :=
  match l with [] => [] | (i, dr, rst) :: r => (i, al_out s) :: al_trace bd dbg (al_step bd dbg s i dr rst) r end.

(* ---------------------------------------------------------------- dma_axi_lite.py *)

Inductive dl_fsm := DL_IDLE | DL_READ_ADDRESS | DL_READ_DATA | DL_WRITE_ADDRESS | DL_WRITE_DATA | DL_WRITE_RESPONSE.
Record dl_st := {
  dl_fsm_st : dl_fsm;
  dl_addr : Z;
  dl_arready : bool; dl_rvalid : bool; dl_awready : bool; dl_wready : bool; dl_bvalid : bool;
  dl_rdata : Z; dl_rresp : Z; dl_bresp : Z;
  dl_read_addr : Z; dl_write_addr : Z; dl_start : Z
}.
Definition dl_init : dl_st :=
  {| dl_fsm_st := DL_IDLE; dl_addr := 0; dl_arready := false; dl_rvalid := false; dl_awready := false;
     dl_wready := false; dl_bvalid := false; dl_rdata := 0; dl_rresp := 0; dl_bresp := 0;
     dl_read_addr := 0; dl_write_addr := 0; dl_start := 0 |}.
Definition dl_out (s : dl_st) : ax_out :=
  {| ao_arready := dl_arready s; ao_rvalid := dl_rvalid s; ao_rdata := dl_rdata s; ao_rresp := dl_rresp s;
     ao_awready := dl_awready s; ao_wready := dl_wready s; ao_bvalid := dl_bvalid s; ao_bresp := dl_bresp s |}.
(* dma_axi_lite.py:107-283; ins: the inputs in1 .. in9 in this cycle.  The whole block is in one
   clock domain. *)
Definition dl_step (s : dl_st) (i : ax_in) (ins : list Z) : dl_st :=
  let a := dl_addr s in
  let en := Z.testbit a 10 in                      (* basic_enable *)
  let ix := trunc 4 a in                           (* basic_index *)
  let fire := (match dl_fsm_st s with DL_WRITE_DATA => true | _ => false end) && ai_wvalid i in
  let st := if fire then ai_wstrb i else 0 in
  let d := if fire then ai_wdata i else 0 in
  {| dl_fsm_st :=
       match dl_fsm_st s with
       | DL_IDLE => if ai_arvalid i then DL_READ_ADDRESS else if ai_awvalid i then DL_WRITE_ADDRESS else DL_IDLE
       | DL_READ_ADDRESS => DL_READ_DATA
       | DL_READ_DATA => if ai_rready i then DL_IDLE else DL_READ_DATA
       | DL_WRITE_ADDRESS => DL_WRITE_DATA
       | DL_WRITE_DATA => if ai_wvalid i then DL_WRITE_RESPONSE else DL_WRITE_DATA
       | DL_WRITE_RESPONSE => if ai_bready i then DL_IDLE else DL_WRITE_RESPONSE
       end;
     dl_addr := match dl_fsm_st s with
                | DL_READ_ADDRESS => ai_araddr i / 4 | DL_WRITE_ADDRESS => ai_awaddr i / 4 | _ => a end;
     dl_arready := match dl_fsm_st s with DL_READ_ADDRESS => true | DL_READ_DATA => false | _ => dl_arready s end;
     dl_rvalid := match dl_fsm_st s with DL_IDLE => false | DL_READ_DATA => ai_rready i || dl_rvalid s | _ => dl_rvalid s end;
     dl_awready := match dl_fsm_st s with DL_WRITE_ADDRESS => true | DL_WRITE_DATA => false | _ => dl_awready s end;
     dl_wready := match dl_fsm_st s with DL_WRITE_DATA => true | DL_WRITE_RESPONSE => false | _ => dl_wready s end;
     dl_bvalid := match dl_fsm_st s with DL_IDLE => false | DL_WRITE_RESPONSE => ai_bready i || dl_bvalid s | _ => dl_bvalid s end;
     (* lines 144-173, 235-241: indices 12..15 match no case *)
     dl_rdata := match dl_fsm_st s with
                 | DL_READ_DATA =>
                     if en then
                       if ix =? 0 then dl_read_addr s else if ix =? 1 then dl_write_addr s
                       else if ix =? 2 then dl_start s else if ix <=? 11 then nth (Z.to_nat (ix - 3)) ins 0
                       else dl_rdata s
                     else dl_rdata s
                 | _ => dl_rdata s
                 end;
     dl_rresp := match dl_fsm_st s with DL_READ_DATA => if en then 0 else 3 | _ => dl_rresp s end;
     (* lines 175-209, 262-269: code 2 is only given when at least one strobe is set *)
     dl_bresp := if fire then
                   if en then (if (3 <=? ix) && (ix <=? 11) && (negb (trunc 4 st =? 0)) then 2 else 0) else 3
                 else dl_bresp s;
     dl_read_addr := if fire && en && (ix =? 0) then al_merge st (dl_read_addr s) d else dl_read_addr s;
     dl_write_addr := if fire && en && (ix =? 1) then al_merge st (dl_write_addr s) d else dl_write_addr s;
     dl_start := if fire && en && (ix =? 2) then al_merge st (dl_start s) d else dl_start s |}.
Fixpoint dl_run (s : dl_st) (l : list (ax_in * list Z)) : dl_st :=
  match l with [] => s | (i, ins) :: r => dl_run (dl_step s i ins) r end.
Fixpoint dl_trace (s : dl_st) (l : list (ax_in * list Z)) : list (ax_in * ax_out) :=
  match l with [] => [] | (i, ins) :: r => (i, dl_out s) :: dl_trace (dl_step s i ins) r end.

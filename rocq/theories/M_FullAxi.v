(* beta_integration_fullaxi.py: the whole DMA design, cycle accurate, with the automatic reset:
   axihp_reader -> axihp_fifo -> b64_b32 -> beta core -> b16_b64 -> axihp_fifo -> axihp_writer, two
   address generators and dma_axi_lite.
   Clock domains: beta_integration.py:68 (clk_domains.load_clk) defines the domain "sync" and its
   reset inside the submodule top; nMigen propagates it to the parent, so every module of this design
   uses that domain and is reset by auto_reset (verilog_src/beta_integration_fullaxi.v: module top
   takes clk and rst from the outputs of submodule \top$1 and passes them to every other
   submodule).  Only register_file.py is in the domain "full". *)
From Verif Require Import Bits M_Config M_Encode M_I3 M_Fix M_Markers M_Beta M_Predictor M_Width M_SyncFifo M_AxiHP M_AxiLite.
Ltac Zify.zify_post_hook ::= idtac.

Record fa_st := {
  fa_bt : bt_st;         (* top: the beta core *)
  fa_rf : rf_st;         (* register_file, domain "full" *)
  fa_b32 : b32_st;       (* b64_b32 *)
  fa_p64 : p64_st;       (* b16_b64 *)
  fa_rs : rs_st;         (* axihp_reader, reader_fifo, address_gen_read, counter_read *)
  fa_ws : ws_st;         (* axihp_writer, writer_fifo, address_gen_write, counter_write *)
  fa_dl : dl_st          (* dma_axi_lite *)
}.
(* inputs of a cycle: the AXI-lite bus and the slave sides of the two AXI HP ports *)
Record fa_in := {
  fai_lite : ax_in;
  fai_arready : bool; fai_rvalid : bool; fai_rlast : bool; fai_rdata : Z; fai_rresp : Z;
  fai_awready : bool; fai_wready : bool; fai_bvalid : bool; fai_bresp : Z
}.

(* beta_integration_fullaxi.py:140-145 (pixel_in1, pixel_in2 from the low 24 bits) *)
Definition fa_px (d : Z) : list Z := [slice 0 12 d; slice 12 24 d].
(* valid_in, pixels, busy_in of the core: lines 139-145 *)
Definition fa_x (s : fa_st) : bool * list Z * bool := (b32_valid (fa_b32 s), fa_px (b32_data (fa_b32 s)), p64_busy (fa_p64 s)).
(* with the registers of register_file.py *)
Definition fa_bt_in (s : fa_st) : bt_in :=
  {| M_Beta.bi_valid := b32_valid (fa_b32 s); bi_px := fa_px (b32_data (fa_b32 s)); M_Beta.bi_busy := p64_busy (fa_p64 s);
     bi_w := rf_width (fa_rf s); bi_h := rf_height (fa_rf s); bi_allowed := rf_allowed (fa_rf s) |}.
(* lines 147-153; data_in is 16 bits wide *)
Definition fa_p64_in (s : fa_st) : pk_in :=
  {| pi_valid := mko_valid (bt_out (fa_bt s) (fa_bt_in s)); pi_data := trunc 16 (mko_data (bt_out (fa_bt s) (fa_bt_in s)));
     pi_end := mko_end (bt_out (fa_bt s) (fa_bt_in s)); pi_busy := negb (af_writable (ws_f (fa_ws s))) |}.
(* lines 132-137 *)
Definition fa_b32_in (s : fa_st) : b32_in :=
  {| bi_valid := af_valid_out (rs_f (fa_rs s)); bi_data := af_data_out (rs_f (fa_rs s)); bi_busy := bt_nready (fa_bt s) |}.
(* dma_axi_lite.start == 0xFFFFFFFF, lines 116 and 165 *)
Definition fa_go (s : fa_st) : bool := dl_start (fa_dl s) =? 0xFFFFFFFF.
(* lines 102-106, 114-130 *)
Definition fa_rs_in (s : fa_st) (i : fa_in) : rs_in :=
  {| rsi_enable := fa_go s; rsi_start := dl_read_addr (fa_dl s); rsi_pop := negb (b32_busy (fa_b32 s));
     rsi_arready := fai_arready i; rsi_rvalid := fai_rvalid i; rsi_rlast := fai_rlast i; rsi_rdata := fai_rdata i; rsi_rresp := fai_rresp i |}.
(* lines 108-112, 155-173 *)
Definition fa_ws_in (s : fa_st) (i : fa_in) : ws_in :=
  {| wsi_enable := fa_go s; wsi_start := dl_write_addr (fa_dl s);
     wsi_push := p64_valid (fa_p64 s); wsi_data := p64_data (fa_p64 s); wsi_end := p64_end (fa_p64 s);
     wsi_awready := fai_awready i; wsi_wready := fai_wready i; wsi_bvalid := fai_bvalid i; wsi_bresp := fai_bresp i |}.
(* Cat of one-bit signals, first one least significant *)
Fixpoint cat1 (l : list bool) : Z := match l with [] => 0 | b :: r => b2z b + 2 * cat1 r end.
(* lines 89-100: in1 .. in9 *)
Definition fa_ins (s : fa_st) (i : fa_in) : list Z :=
  let r := fa_rs s in let w := fa_ws s in let ri := fa_rs_in s i in let wi := fa_ws_in s i in
  [ cat1 [p64_end (fa_p64 s); p64_valid (fa_p64 s); af_end_out (ws_f w); af_valid_out (ws_f w); ws_data_en w wi;
          rs_end r ri; ws_end w wi; hr_inactive (rs_r r); hw_inactive (ws_w w);
          hw_error (ws_w w) (ws_hw true w wi); hr_error (rs_r r) (rs_hr true r ri)]
    + 2 ^ 11 * hw_active (ws_w w) + 2 ^ 15 * hr_active (rs_r r) + 2 ^ 19 * hw_unconf (ws_w w);
    ag_addr (rs_a r); ag_addr (ws_a w); rs_c r; ws_c w;
    mko_data (bt_out (fa_bt s) (fa_bt_in s));
    slice 0 32 (p64_data (fa_p64 s)); slice 32 64 (p64_data (fa_p64 s)); b32_data (fa_b32 s) ].

(* register_file.py:50-64: constants, one clock after power on; the values are a parameter here, rf_shipped
   are the ones in the source *)
Definition rf_shipped : rf_st := {| rf_width := 4096; rf_height := 3072; rf_allowed := 6666000 |}.
(* The next state if the domain is not being reset (bt_step is bt_next then) *)
Definition fa_next (R : rf_st) (s : fa_st) (i : fa_in) : fa_st :=
  {| fa_bt := bt_step beta_cfg (init_huff_table 12) (fa_bt s) (fa_bt_in s);
     fa_rf := R;
     fa_b32 := b32_step (fa_b32 s) (fa_b32_in s);
     fa_p64 := p64_step (fa_p64 s) (fa_p64_in s);
     fa_rs := rs_step true (fa_rs s) (fa_rs_in s i);
     fa_ws := ws_step true (fa_ws s) (fa_ws_in s i);
     fa_dl := dl_step (fa_dl s) (fai_lite i) (fa_ins s i) |}.
(* After a reset every register of the domain has its reset value, RAM contents stay. *)
Definition fa_keep_reset (s : fa_st) : fa_st :=
  {| fa_bt := fa_bt s;                                                    (* bt_step has reset it *)
     fa_rf := fa_rf s;
     fa_b32 := b32_init (sf_stor (b32_f64 (fa_b32 s))) (sf_stor (b32_f32 (fa_b32 s)));
     fa_p64 := p64_init;
     fa_rs := rs_init (sf_stor (rs_f (fa_rs s)));
     fa_ws := ws_init (sf_stor (ws_f (fa_ws s)));
     fa_dl := dl_init |}.
(* One clock edge: auto_reset.reset_out=1 resets the domain at this edge. *)
Definition fa_step (R : rf_st) (s : fa_st) (i : fa_in) : fa_st :=
  if b_rst (fa_bt s) then fa_keep_reset (fa_next R s i) else fa_next R s i.
(* power on *)
Definition fa_init : fa_st :=
  {| fa_bt := bt_init beta_cfg; fa_rf := rf_init; fa_b32 := b32_init (repeat 0 2) (repeat 0 4); fa_p64 := p64_init;
     fa_rs := rs_init (repeat 0 32); fa_ws := ws_init (repeat 0 32); fa_dl := dl_init |}.
Fixpoint fa_run (R : rf_st) (s : fa_st) (l : list fa_in) : fa_st := match l with [] => s | i :: r => fa_run R (fa_step R s i) r end.

(* what happens in a cycle: pixel groups taken by the core, words given by the core to b16_b64, beats on the AXI write
   channel (data, wlast, whether the FIFO had a word), beats on the AXI read channel, burst addresses *)
Record fa_ev := {
  ev_took : list (list Z); ev_gave : list (Z * bool);
  ev_wbeats : list (Z * bool * bool); ev_rbeats : list Z;
  ev_waddrs : list Z; ev_raddrs : list Z
}.
Definition fa_event (s : fa_st) (i : fa_in) : fa_ev :=
  let w := fa_ws s in let r := fa_rs s in
  {| ev_took := bt_took (fa_bt s) (fa_bt_in s);
     ev_gave := bt_gave (fa_bt s) (fa_bt_in s);
     ev_wbeats := if ws_data_en w (fa_ws_in s i) then [(af_data_out (ws_f w), hw_wlast (ws_w w), af_readable (ws_f w))] else [];
     ev_rbeats := if rs_data_en r (fa_rs_in s i) then [fai_rdata i] else [];
     ev_waddrs := if ws_addr_en w (fa_ws_in s i) then [ag_addr (ws_a w)] else [];
     ev_raddrs := if rs_addr_en r (fa_rs_in s i) then [ag_addr (rs_a r)] else [] |}.
Definition ev0 : fa_ev := {| ev_took := []; ev_gave := []; ev_wbeats := []; ev_rbeats := []; ev_waddrs := []; ev_raddrs := [] |}.
Definition ev_app (a b : fa_ev) : fa_ev :=
  {| ev_took := ev_took a ++ ev_took b; ev_gave := ev_gave a ++ ev_gave b; ev_wbeats := ev_wbeats a ++ ev_wbeats b;
     ev_rbeats := ev_rbeats a ++ ev_rbeats b; ev_waddrs := ev_waddrs a ++ ev_waddrs b; ev_raddrs := ev_raddrs a ++ ev_raddrs b |}.
Fixpoint fa_events (R : rf_st) (s : fa_st) (l : list fa_in) : fa_ev :=
  match l with [] => ev0 | i :: r => ev_app (fa_event s i) (fa_events R (fa_step R s i) r) end.
(* the run, frame by frame: everything that happened between two resets; the last entry is the frame in progress *)
Fixpoint fa_log (R : rf_st) (cur : fa_ev) (s : fa_st) (l : list fa_in) : list fa_ev :=
  match l with
  | [] => [cur]
  | i :: r => if b_rst (fa_bt s) then ev_app cur (fa_event s i) :: fa_log R ev0 (fa_step R s i) r
              else fa_log R (ev_app cur (fa_event s i)) (fa_step R s i) r
  end.

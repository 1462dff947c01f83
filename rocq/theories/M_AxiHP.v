(* The AXI HP masters and their address generators: axihp_writer.py, axihp_reader.py, address_generator.py, and
   their wiring in beta_integration_fullaxi.py, cycle accurate. *)
From Verif Require Import Bits M_Predictor M_SyncFifo.

(* ------------------------------------------------------------------ address_generator.py *)

Record ag_st := { ag_loop : bool; ag_addr : Z; ag_valid : bool }.      (* FSM state LOOP, address_o, address_valid *)
Definition ag_init : ag_st := {| ag_loop := false; ag_addr := 0; ag_valid := false |}.
(* address_generator.py:50-64 *)
Definition ag_step (shift : Z) (s : ag_st) (start : Z) (latch : bool) : ag_st :=
  if ag_loop s then
    {| ag_loop := true; ag_addr := if latch then trunc 32 (ag_addr s + shift) else ag_addr s; ag_valid := ag_valid s |}
  else
    {| ag_loop := latch; ag_addr := if latch then trunc 32 (ag_addr s + shift) else trunc 32 start; ag_valid := true |}.

(* ------------------------------------------------------------------ axihp_writer.py *)

Record hw_st := {
  hw_awvalid : bool; hw_wvalid : bool; hw_wlast : bool; hw_ctr : Z; hw_bready : bool;
  hw_active : Z; hw_unconf : Z          (* 4-bit counters *)
}.
Definition hw_init : hw_st :=
  {| hw_awvalid := false; hw_wvalid := false; hw_wlast := false; hw_ctr := 0; hw_bready := false; hw_active := 0; hw_unconf := 0 |}.
Record hw_in := {
  hwi_enable : bool; hwi_addr_empty : bool; hwi_data_empty : bool;
  hwi_awready : bool; hwi_wready : bool; hwi_bvalid : bool; hwi_bresp : Z
}.
Definition hw_addr_en (s : hw_st) (i : hw_in) : bool := hw_awvalid s && hwi_awready i.       (* line 96 *)
Definition hw_data_en (s : hw_st) (i : hw_in) : bool := hw_wvalid s && hwi_wready i.         (* line 134 *)
Definition hw_resp_en (s : hw_st) (i : hw_in) : bool := hw_bready s && hwi_bvalid i.         (* line 159 *)
Definition hw_error (s : hw_st) (i : hw_in) : bool := hw_resp_en s i && negb (hwi_bresp i =? 0).   (* line 174 *)
(* active[3] == 0 *)
Definition below_max (a : Z) : bool := a <? 8.
(* axihp_writer.py:76-198 with data_c = C *)
Definition hw_step (C : Z) (s : hw_st) (i : hw_in) : hw_st :=
  let addr_en := hw_addr_en s i in
  let data_en := hw_data_en s i in
  let resp_en := hw_resp_en s i in
  {| hw_awvalid := if hw_awvalid s then negb (hwi_awready i)
                   else hwi_enable i && negb (hwi_addr_empty i) && below_max (hw_active s);                    (* lines 98-107 *)
     hw_wvalid := if hw_wvalid s then negb (hw_wlast s)
                  else negb (hwi_data_empty i) && negb (hw_active s =? 0);                                     (* lines 136-145 *)
     hw_wlast := if data_en then hw_ctr s =? C - 1 else hw_wlast s;                                            (* lines 120-132 *)
     hw_ctr := if data_en then (if hw_ctr s =? C - 1 then 0 else trunc 4 (hw_ctr s + 1)) else hw_ctr s;
     hw_bready := if hw_bready s then negb (hw_unconf s =? 0) else hwi_enable i;                               (* lines 161-170 *)
     hw_active := if addr_en && negb (hw_wlast s) then trunc 4 (hw_active s + 1)
                  else if negb addr_en && hw_wlast s then trunc 4 (hw_active s - 1) else hw_active s;          (* lines 182-189 *)
     hw_unconf := if addr_en && negb resp_en then trunc 4 (hw_unconf s + 1)
                  else if negb addr_en && resp_en then trunc 4 (hw_unconf s - 1) else hw_unconf s |}.          (* lines 191-198 *)
Definition hw_awlen (C : Z) : Z := trunc 4 (C - 1).                                                            (* line 76 *)
Definition hw_inactive (s : hw_st) : bool := (hw_active s =? 0) && (hw_unconf s =? 0).                          (* line 200 *)
Fixpoint hw_run (C : Z) (s : hw_st) (l : list hw_in) : hw_st := match l with [] => s | i :: r => hw_run C (hw_step C s i) r end.
(* the wlast flags of the data beats transferred in a run *)
Fixpoint hw_beats (C : Z) (s : hw_st) (l : list hw_in) : list bool :=
  match l with [] => [] | i :: r => (if hw_data_en s i then [hw_wlast s] else []) ++ hw_beats C (hw_step C s i) r end.
(* address handshakes in a run *)
Fixpoint hw_addrs (C : Z) (s : hw_st) (l : list hw_in) : nat :=
  match l with [] => 0 | i :: r => (if hw_addr_en s i then 1 else 0) + hw_addrs C (hw_step C s i) r end%nat.
(* accepted write responses in a run *)
Fixpoint hw_resps (C : Z) (s : hw_st) (l : list hw_in) : nat :=
  match l with [] => 0 | i :: r => (if hw_resp_en s i then 1 else 0) + hw_resps C (hw_step C s i) r end%nat.

(* ------------------------------------------------------------------ axihp_reader.py *)

Record hr_st := { hr_arvalid : bool; hr_rready : bool; hr_active : Z }.
Definition hr_init : hr_st := {| hr_arvalid := false; hr_rready := false; hr_active := 0 |}.
Record hr_in := {
  hri_enable : bool; hri_addr_empty : bool; hri_data_full : bool;
  hri_arready : bool; hri_rvalid : bool; hri_rlast : bool; hri_rdata : Z; hri_rresp : Z
}.
Definition hr_addr_en (s : hr_st) (i : hr_in) : bool := hr_arvalid s && hri_arready i.       (* line 83 *)
Definition hr_data_en (s : hr_st) (i : hr_in) : bool := hr_rready s && hri_rvalid i.         (* line 107 *)
Definition hr_error (s : hr_st) (i : hr_in) : bool := hr_data_en s i && negb (hri_rresp i =? 0).
(* axihp_reader.py:85-138 *)
Definition hr_step (s : hr_st) (i : hr_in) : hr_st :=
  let addr_en := hr_addr_en s i in
  {| hr_arvalid := if hr_arvalid s then negb (hri_arready i)
                   else hri_enable i && negb (hri_addr_empty i) && below_max (hr_active s);
     hr_rready := if hr_rready s then negb (hri_rlast i)
                  else negb (hri_data_full i) && negb (hr_active s =? 0);
     hr_active := if addr_en && negb (hri_rlast i) then trunc 4 (hr_active s + 1)
                  else if negb addr_en && hri_rlast i then trunc 4 (hr_active s - 1) else hr_active s |}.
Definition hr_inactive (s : hr_st) : bool := hr_active s =? 0.

(* ------------------------------------------------------------------ beta_integration_fullaxi.py: the writer side *)

(* writer_fifo, axihp_writer, address_gen_write and counter_write; the fifo is filled by the environment (in the design by
   b16_b64) *)
Record ws_st := { ws_w : hw_st; ws_f : sf_st; ws_a : ag_st; ws_c : Z }.
Definition ws_init (stor : list Z) : ws_st := {| ws_w := hw_init; ws_f := sf_reset stor; ws_a := ag_init; ws_c := 0 |}.
Record ws_in := {
  wsi_enable : bool;                     (* dma_axi_lite.start == 0xFFFFFFFF *)
  wsi_start : Z;                         (* dma_axi_lite.write_addr *)
  wsi_push : bool; wsi_data : Z; wsi_end : bool;
  wsi_awready : bool; wsi_wready : bool; wsi_bvalid : bool; wsi_bresp : Z
}.
(* write_end, lines 83-87: it depends on addr_enable, which does not depend on addr_empty *)
Definition ws_addr_en (s : ws_st) (i : ws_in) : bool := hw_awvalid (ws_w s) && wsi_awready i.
Definition ws_end (s : ws_st) (i : ws_in) : bool := ag_valid (ws_a s) && ws_addr_en s i && (ws_c s =? 131072).
(* lines 163-173 *)
Definition ws_hw (limit : bool) (s : ws_st) (i : ws_in) : hw_in :=
  {| hwi_enable := wsi_enable i;
     hwi_addr_empty := negb (ag_valid (ws_a s)) || (limit && ws_end s i);
     hwi_data_empty := negb (af_readable16 (ws_f s));
     hwi_awready := wsi_awready i; hwi_wready := wsi_wready i; hwi_bvalid := wsi_bvalid i; hwi_bresp := wsi_bresp i |}.
Definition ws_data_en (s : ws_st) (i : ws_in) : bool := hw_wvalid (ws_w s) && wsi_wready i.
(* limit = true: the design; limit = false: the same design without the write_end term in addr_empty *)
Definition ws_step (limit : bool) (s : ws_st) (i : ws_in) : ws_st :=
  {| ws_w := hw_step 16 (ws_w s) (ws_hw limit s i);
     ws_f := af_step (ws_f s) {| af_data_in := wsi_data i; af_end_in := wsi_end i; af_valid_in := wsi_push i; af_read := ws_data_en s i |};
     ws_a := ag_step 128 (ws_a s) (wsi_start i) (ws_addr_en s i);
     ws_c := if ag_valid (ws_a s) && ws_addr_en s i && negb (ws_c s =? 131072) then trunc 32 (ws_c s + 1) else ws_c s |}.
Fixpoint ws_run (limit : bool) (s : ws_st) (l : list ws_in) : ws_st := match l with [] => s | i :: r => ws_run limit (ws_step limit s i) r end.
(* the beats transferred: data, wlast, and whether the fifo had a word to give *)
Fixpoint ws_beats (limit : bool) (s : ws_st) (l : list ws_in) : list (Z * bool * bool) :=
  match l with
  | [] => []
  | i :: r => (if ws_data_en s i then [(af_data_out (ws_f s), hw_wlast (ws_w s), af_readable (ws_f s))] else []) ++ ws_beats limit (ws_step limit s i) r
  end.
(* the burst addresses handed over *)
Fixpoint ws_addrs (limit : bool) (s : ws_st) (l : list ws_in) : list Z :=
  match l with [] => [] | i :: r => (if ws_addr_en s i then [ag_addr (ws_a s)] else []) ++ ws_addrs limit (ws_step limit s i) r end.

(* ------------------------------------------------------------------ beta_integration_fullaxi.py: the reader side *)

Record rs_st := { rs_r : hr_st; rs_f : sf_st; rs_a : ag_st; rs_c : Z }.
Definition rs_init (stor : list Z) : rs_st := {| rs_r := hr_init; rs_f := sf_reset stor; rs_a := ag_init; rs_c := 0 |}.
Record rs_in := {
  rsi_enable : bool; rsi_start : Z;
  rsi_pop : bool;                        (* b64_b32.o_busy == 0 *)
  rsi_arready : bool; rsi_rvalid : bool; rsi_rlast : bool; rsi_rdata : Z; rsi_rresp : Z
}.
Definition rs_addr_en (s : rs_st) (i : rs_in) : bool := hr_arvalid (rs_r s) && rsi_arready i.
Definition rs_data_en (s : rs_st) (i : rs_in) : bool := hr_rready (rs_r s) && rsi_rvalid i.
Definition rs_end (s : rs_st) (i : rs_in) : bool := ag_valid (rs_a s) && rs_addr_en s i && (rs_c s =? 196608).     (* lines 77-81 *)
(* lines 114-122 *)
Definition rs_hr (limit : bool) (s : rs_st) (i : rs_in) : hr_in :=
  {| hri_enable := rsi_enable i;
     hri_addr_empty := negb (ag_valid (rs_a s)) || (limit && rs_end s i);
     hri_data_full := negb (af_writable16 (rs_f s));
     hri_arready := rsi_arready i; hri_rvalid := rsi_rvalid i; hri_rlast := rsi_rlast i; hri_rdata := rsi_rdata i; hri_rresp := rsi_rresp i |}.
Definition rs_step (limit : bool) (s : rs_st) (i : rs_in) : rs_st :=
  {| rs_r := hr_step (rs_r s) (rs_hr limit s i);
     rs_f := af_step (rs_f s) {| af_data_in := rsi_rdata i; af_end_in := false; af_valid_in := rs_data_en s i; af_read := rsi_pop i |};
     rs_a := ag_step 128 (rs_a s) (rsi_start i) (rs_addr_en s i);
     rs_c := if ag_valid (rs_a s) && rs_addr_en s i && negb (rs_c s =? 196608) then trunc 32 (rs_c s + 1) else rs_c s |}.
Fixpoint rs_run (limit : bool) (s : rs_st) (l : list rs_in) : rs_st := match l with [] => s | i :: r => rs_run limit (rs_step limit s i) r end.
Fixpoint rs_addrs (limit : bool) (s : rs_st) (l : list rs_in) : list Z :=
  match l with [] => [] | i :: r => (if rs_addr_en s i then [ag_addr (rs_a s)] else []) ++ rs_addrs limit (rs_step limit s i) r end.
(* data beats transferred on the bus, and words delivered to the consumer *)
Fixpoint rs_beats (limit : bool) (s : rs_st) (l : list rs_in) : list Z :=
  match l with [] => [] | i :: r => (if rs_data_en s i then [rsi_rdata i] else []) ++ rs_beats limit (rs_step limit s i) r end.
Fixpoint rs_out (limit : bool) (s : rs_st) (l : list rs_in) : list Z :=
  match l with [] => [] | i :: r => (if rsi_pop i && af_valid_out (rs_f s) then [af_data_out (rs_f s)] else []) ++ rs_out limit (rs_step limit s i) r end.

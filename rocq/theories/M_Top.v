(* The AXI-stream top levels around the beta core (beta_integration_axistream.py and
   beta_integration_fifo_axistream.py, with register_file.py as shipped: support_axi_lite is False),
   and the sample packing of the test program (software/src/xilinx_test.cpp). *)
From Verif Require Import Bits Spec M_Config M_I3 M_Markers M_Beta M_Width.
Ltac Zify.zify_post_hook ::= idtac.

(* inputs of a cycle: s_tvalid, s_tdata, m_tready *)
Record ts_in := { ts_valid : bool; ts_data : Z; ts_mready : bool }.

(* ---------- beta_integration_axistream.py: 32-bit words ---------- *)

(* beta_integration_axistream.py:48-55: pixel_in1, pixel_in2 *)
Definition tp32 (d : Z) : list Z := [slice 20 32 d; slice 8 20 d].
(* beta_integration_axistream.py:40-55, what the core sees (m_tready==0 is busy_in) *)
Definition t32_sched (l : list ts_in) : list (bool * list Z * bool) :=
  map (fun i => (ts_valid i, tp32 (ts_data i), negb (ts_mready i))) l.
Definition rf_bt (rf : rf_st) (x : bool * list Z * bool) : bt_in :=
  {| bi_valid := fst (fst x); bi_px := snd (fst x); bi_busy := snd x; bi_w := rf_width rf; bi_h := rf_height rf; bi_allowed := rf_allowed rf |}.
(* the slave side of the wire, cycle by cycle: (s_tvalid, s_tdata, s_tready); s_tready = not nready *)
Fixpoint t32_wire (bt : bt_st) (rf : rf_st) (l : list ts_in) : list (bool * Z * bool) :=
  match l with
  | [] => []
  | i :: r => (ts_valid i, ts_data i, negb (bt_nready bt)) ::
      t32_wire (bt_step beta_cfg (M_Encode.init_huff_table 12) bt (rf_bt rf (ts_valid i, tp32 (ts_data i), negb (ts_mready i)))) (rf_step rf) r
  end.
(* beta_integration_axistream.py:40-47, the master side of the wire: (m_tvalid, m_tdata, m_tlast, m_tready) *)
Definition ts_mpins (bt : bt_st) (x : bt_in) (i : ts_in) : bool * Z * bool * bool :=
  (mko_valid (bt_out bt x), mko_data (bt_out bt x), mko_end (bt_out bt x), ts_mready i).
Fixpoint t32_mwire (bt : bt_st) (rf : rf_st) (l : list ts_in) : list (bool * Z * bool * bool) :=
  match l with
  | [] => []
  | i :: r => let x := rf_bt rf (ts_valid i, tp32 (ts_data i), negb (ts_mready i)) in
      ts_mpins bt x i :: t32_mwire (bt_step beta_cfg (M_Encode.init_huff_table 12) bt x) (rf_step rf) r
  end.

(* ---------- beta_integration_fifo_axistream.py: 64-bit words through b64_b32_2 ---------- *)

(* beta_integration_fifo_axistream.py:56-58: pixel_in1, pixel_in2 *)
Definition tp24 (d : Z) : list Z := [slice 12 24 d; slice 0 12 d].
(* beta_integration_fifo_axistream.py:48-53, 59: what b64_b32_2 sees; i_busy = nready *)
Definition t64_pk (bt : bt_st) (i : ts_in) : pk_in :=
  {| pi_valid := ts_valid i; pi_data := ts_data i; pi_end := false; pi_busy := bt_nready bt |}.
(* beta_integration_fifo_axistream.py:40-45, 56-61: what the core sees *)
Definition t64_x (s : s24_st) (i : ts_in) : bool * list Z * bool := (s24_valid s, tp24 (s24_data s), negb (ts_mready i)).
Fixpoint t64_sched (s : s24_st) (bt : bt_st) (rf : rf_st) (l : list ts_in) : list (bool * list Z * bool) :=
  match l with
  | [] => []
  | i :: r => t64_x s i :: t64_sched (s24_step s (t64_pk bt i)) (bt_step beta_cfg (M_Encode.init_huff_table 12) bt (rf_bt rf (t64_x s i))) (rf_step rf) r
  end.
Fixpoint t64_pks (s : s24_st) (bt : bt_st) (rf : rf_st) (l : list ts_in) : list pk_in :=
  match l with
  | [] => []
  | i :: r => t64_pk bt i :: t64_pks (s24_step s (t64_pk bt i)) (bt_step beta_cfg (M_Encode.init_huff_table 12) bt (rf_bt rf (t64_x s i))) (rf_step rf) r
  end.
(* the slave side of the wire: (s_tvalid, s_tdata, s_tready); s_tready = not o_busy *)
Fixpoint t64_wire (s : s24_st) (bt : bt_st) (rf : rf_st) (l : list ts_in) : list (bool * Z * bool) :=
  match l with
  | [] => []
  | i :: r => (ts_valid i, ts_data i, negb (s24_busy s)) ::
      t64_wire (s24_step s (t64_pk bt i)) (bt_step beta_cfg (M_Encode.init_huff_table 12) bt (rf_bt rf (t64_x s i))) (rf_step rf) r
  end.
(* beta_integration_fifo_axistream.py:39-45: the master side *)
Fixpoint t64_mwire (s : s24_st) (bt : bt_st) (rf : rf_st) (l : list ts_in) : list (bool * Z * bool * bool) :=
  match l with
  | [] => []
  | i :: r => ts_mpins bt (rf_bt rf (t64_x s i)) i ::
      t64_mwire (s24_step s (t64_pk bt i)) (bt_step beta_cfg (M_Encode.init_huff_table 12) bt (rf_bt rf (t64_x s i))) (rf_step rf) r
  end.

(* ---------- xilinx_test.cpp: RAW12 bytes to stream words ---------- *)

(* xilinx_test.cpp:171-176, 199-200: two samples from three bytes *)
Definition raw_p1 (b0 b1 : Z) : Z := Z.lor (Z.shiftl b0 4) (Z.shiftr (Z.land b1 0xF0) 4).
Definition raw_p2 (b1 b2 : Z) : Z := Z.lor (Z.shiftl (Z.land b1 0x0F) 8) b2.
(* re_order_set_raw12_64bits, xilinx_test.cpp:162-183; one recursive step is one iteration of the loop.
   (The loop runs 4096*3072/4 times; here it runs to the end of the file contents given.) *)
Fixpoint raw_words64 (l : list Z) : list Z :=
  match l with
  | b0 :: b1 :: b2 :: b3 :: b4 :: b5 :: r =>
      Z.lor (Z.lor (Z.lor (Z.shiftl (raw_p1 b0 b1) 52) (Z.shiftl (raw_p2 b1 b2) 40)) (Z.shiftl (raw_p1 b3 b4) 28)) (Z.shiftl (raw_p2 b4 b5) 16)
      :: raw_words64 r
  | _ => []
  end.
(* re_order_set_raw12_32bits, xilinx_test.cpp:185-203 *)
Fixpoint raw_words32 (l : list Z) : list Z :=
  match l with
  | b0 :: b1 :: b2 :: r => Z.lor (Z.shiftl (raw_p1 b0 b1) 20) (Z.shiftl (raw_p2 b1 b2) 8) :: raw_words32 r
  | _ => []
  end.

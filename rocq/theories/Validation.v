(* GENERATED by tools/vcd2coq.py from the waveforms in /repo/simulations, which the project's test benches recorded.
   The models reproduce them cycle by cycle.  These are tests of the model, not properties. *)
From Verif Require Import Bits M_Signals M_Predictor M_Difference M_Normalize M_Encode M_Merge M_Markers M_AxiLite M_Fifo M_Misc.

Fixpoint lz_eqb (a b : list Z) : bool := match a, b with [], [] => true | x :: a', y :: b' => (x =? y) && lz_eqb a' b' | _, _ => false end.
Fixpoint pairs_flat (l : list (Z * Z)) : list Z := match l with [] => [] | (a, b) :: r => a :: b :: pairs_flat r end.
(* step, output of a state in a cycle; trace of inputs and recorded outputs *)
Fixpoint agrees {S I : Type} (step : S -> I -> S) (out : S -> I -> list Z) (s : S) (l : list (I * list Z)) : bool :=
  match l with [] => true | (i, o) :: r => lz_eqb (out s i) o && agrees step out (step s i) r end.

(* markers_test_1.vcd: o_busy, valid_out, end_out, data_out, counter, end_cond *)
Example markers_vcd : agrees mk_step (fun s i => let o := mk_comb s i in [b2z (mko_busy o); b2z (mko_valid o); b2z (mko_end o); mko_data o; mk_ctr s; b2z (mk_end_cond s)]) mk_init
  [({| mki_valid := false; mki_data := 0; mki_end := false; mki_force := false; mki_busy := false |}, [1; 0; 0; 0; 0; 0]); ({| mki_valid := false; mki_data := 0; mki_end := false; mki_force := false; mki_busy := false |}, [1; 0; 0; 0; 8; 0]); ({| mki_valid := false; mki_data := 0; mki_end := false; mki_force := false; mki_busy := false |}, [1; 0; 0; 0; 8; 0]); ({| mki_valid := false; mki_data := 0; mki_end := false; mki_force := false; mki_busy := false |}, [1; 0; 0; 0; 8; 0]); ({| mki_valid := false; mki_data := 0; mki_end := false; mki_force := false; mki_busy := false |}, [1; 0; 0; 0; 8; 0]); ({| mki_valid := false; mki_data := 0; mki_end := false; mki_force := false; mki_busy := false |}, [1; 0; 0; 0; 8; 0]); ({| mki_valid := false; mki_data := 0; mki_end := false; mki_force := false; mki_busy := false |}, [1; 0; 0; 0; 8; 0]); ({| mki_valid := false; mki_data := 0; mki_end := false; mki_force := false; mki_busy := false |}, [1; 0; 0; 0; 8; 0]); ({| mki_valid := false; mki_data := 0; mki_end := false; mki_force := false; mki_busy := false |}, [1; 0; 0; 0; 8; 0]); ({| mki_valid := false; mki_data := 0; mki_end := false; mki_force := false; mki_busy := false |}, [1; 0; 0; 0; 8; 0]); ({| mki_valid := false; mki_data := 0; mki_end := false; mki_force := false; mki_busy := false |}, [1; 0; 0; 0; 8; 0]); ({| mki_valid := true; mki_data := 291; mki_end := false; mki_force := false; mki_busy := false |}, [1; 0; 0; 0; 8; 0]); ({| mki_valid := true; mki_data := 291; mki_end := false; mki_force := false; mki_busy := false |}, [1; 1; 0; 65535; 8; 0]); ({| mki_valid := true; mki_data := 291; mki_end := false; mki_force := false; mki_busy := false |}, [1; 1; 0; 65535; 7; 0]); ({| mki_valid := true; mki_data := 291; mki_end := false; mki_force := false; mki_busy := false |}, [1; 1; 0; 65535; 6; 0]); ({| mki_valid := true; mki_data := 291; mki_end := false; mki_force := false; mki_busy := false |}, [1; 1; 0; 65535; 5; 0]); ({| mki_valid := true; mki_data := 291; mki_end := false; mki_force := false; mki_busy := false |}, [1; 1; 0; 65535; 4; 0]); ({| mki_valid := true; mki_data := 291; mki_end := false; mki_force := false; mki_busy := false |}, [1; 1; 0; 65535; 3; 0]); ({| mki_valid := true; mki_data := 291; mki_end := false; mki_force := false; mki_busy := false |}, [1; 1; 0; 65535; 2; 0]); ({| mki_valid := true; mki_data := 291; mki_end := false; mki_force := false; mki_busy := false |}, [1; 1; 0; 65535; 1; 0]); ({| mki_valid := true; mki_data := 291; mki_end := false; mki_force := false; mki_busy := false |}, [1; 0; 0; 0; 0; 0]); ({| mki_valid := true; mki_data := 291; mki_end := false; mki_force := false; mki_busy := false |}, [0; 1; 0; 291; 8; 0]); ({| mki_valid := true; mki_data := 291; mki_end := false; mki_force := false; mki_busy := false |}, [0; 1; 0; 291; 8; 0]); ({| mki_valid := true; mki_data := 291; mki_end := false; mki_force := false; mki_busy := false |}, [0; 1; 0; 291; 8; 0]); ({| mki_valid := true; mki_data := 291; mki_end := false; mki_force := false; mki_busy := false |}, [0; 1; 0; 291; 8; 0]); ({| mki_valid := true; mki_data := 291; mki_end := false; mki_force := false; mki_busy := false |}, [0; 1; 0; 291; 8; 0]); ({| mki_valid := true; mki_data := 291; mki_end := false; mki_force := false; mki_busy := false |}, [0; 1; 0; 291; 8; 0]); ({| mki_valid := true; mki_data := 291; mki_end := false; mki_force := false; mki_busy := false |}, [0; 1; 0; 291; 8; 0]); ({| mki_valid := true; mki_data := 291; mki_end := false; mki_force := false; mki_busy := false |}, [0; 1; 0; 291; 8; 0]); ({| mki_valid := true; mki_data := 291; mki_end := false; mki_force := false; mki_busy := false |}, [0; 1; 0; 291; 8; 0]); ({| mki_valid := true; mki_data := 291; mki_end := false; mki_force := false; mki_busy := false |}, [0; 1; 0; 291; 8; 0]); ({| mki_valid := true; mki_data := 291; mki_end := true; mki_force := false; mki_busy := false |}, [0; 1; 0; 291; 8; 0]); ({| mki_valid := true; mki_data := 291; mki_end := true; mki_force := false; mki_busy := false |}, [1; 0; 0; 0; 8; 1]); ({| mki_valid := true; mki_data := 291; mki_end := true; mki_force := false; mki_busy := false |}, [1; 1; 0; 65535; 8; 1]); ({| mki_valid := true; mki_data := 291; mki_end := true; mki_force := false; mki_busy := false |}, [1; 1; 0; 65535; 7; 1]); ({| mki_valid := true; mki_data := 291; mki_end := true; mki_force := false; mki_busy := false |}, [1; 1; 0; 65535; 6; 1]); ({| mki_valid := true; mki_data := 291; mki_end := true; mki_force := false; mki_busy := false |}, [1; 1; 0; 65535; 5; 1]); ({| mki_valid := true; mki_data := 291; mki_end := true; mki_force := false; mki_busy := false |}, [1; 1; 0; 65535; 4; 1]); ({| mki_valid := true; mki_data := 291; mki_end := true; mki_force := false; mki_busy := false |}, [1; 1; 0; 65535; 3; 1]); ({| mki_valid := true; mki_data := 291; mki_end := true; mki_force := false; mki_busy := false |}, [1; 1; 0; 65535; 2; 1]); ({| mki_valid := true; mki_data := 291; mki_end := true; mki_force := false; mki_busy := false |}, [1; 1; 1; 65535; 1; 1]); ({| mki_valid := true; mki_data := 291; mki_end := true; mki_force := false; mki_busy := false |}, [1; 1; 1; 65535; 0; 1]); ({| mki_valid := true; mki_data := 291; mki_end := true; mki_force := false; mki_busy := false |}, [1; 1; 1; 65535; 0; 1]); ({| mki_valid := true; mki_data := 291; mki_end := true; mki_force := false; mki_busy := false |}, [1; 1; 1; 65535; 0; 1]); ({| mki_valid := true; mki_data := 291; mki_end := true; mki_force := false; mki_busy := false |}, [1; 1; 1; 65535; 0; 1]); ({| mki_valid := true; mki_data := 291; mki_end := true; mki_force := false; mki_busy := false |}, [1; 1; 1; 65535; 0; 1]); ({| mki_valid := true; mki_data := 291; mki_end := true; mki_force := false; mki_busy := false |}, [1; 1; 1; 65535; 0; 1]); ({| mki_valid := true; mki_data := 291; mki_end := true; mki_force := false; mki_busy := false |}, [1; 1; 1; 65535; 0; 1]); ({| mki_valid := true; mki_data := 291; mki_end := true; mki_force := false; mki_busy := false |}, [1; 1; 1; 65535; 0; 1]); ({| mki_valid := true; mki_data := 291; mki_end := true; mki_force := false; mki_busy := false |}, [1; 1; 1; 65535; 0; 1]); ({| mki_valid := true; mki_data := 291; mki_end := true; mki_force := false; mki_busy := false |}, [1; 1; 1; 65535; 0; 1])] = true.
Proof. vm_compute. reflexivity. Qed.

(* signals_test_1.vcd: new_row, end_of_frame, width_temp, height_temp *)
Example signals_vcd : agrees (fun s '(v, w, h) => sig_step 4 s v w h) (fun s _ => [b2z (sg_new_row s); b2z (sg_end_of_frame s); sg_width s; sg_height s]) sig_init
  [((false, 0, 0), [1; 0; 0; 0]); ((false, 0, 0), [1; 0; 0; 0]); ((true, 12, 4), [1; 0; 0; 0]); ((true, 12, 4), [0; 0; 8; 3]); ((true, 12, 4), [0; 0; 4; 3]); ((true, 12, 4), [1; 0; 12; 2]); ((true, 12, 4), [0; 0; 8; 2]); ((true, 12, 4), [0; 0; 4; 2]); ((true, 12, 4), [1; 0; 12; 1]); ((true, 12, 4), [0; 0; 8; 1]); ((true, 12, 4), [0; 0; 4; 1]); ((true, 12, 4), [1; 0; 12; 0]); ((true, 12, 4), [0; 0; 8; 0]); ((true, 12, 4), [0; 1; 4; 0]); ((false, 12, 4), [0; 1; 4; 0])] = true.
Proof. vm_compute. reflexivity. Qed.

(* diff_test_1.vcd: vals_out, vals_out_mns, valid_out, end_out *)
Example difference_vcd : agrees (fun s '(v, e, p, q) => diff_step 16 s v e p q) (fun s _ => df_vals s ++ df_mns s ++ [b2z (df_valid s); b2z (df_end s)]) (diff_init 4)
  [((false, false, [0; 0; 0; 0], [0; 0; 0; 0]), [0; 0; 0; 0; 0; 0; 0; 0; 0; 0]); ((true, false, [100; 1000; 500; 900], [100; 1000; 500; 900]), [0; 0; 0; 0; 0; 0; 0; 0; 0; 0]); ((true, false, [200; 2000; 700; 800], [100; 1000; 500; 900]), [0; 0; 0; 0; 131071; 131071; 131071; 131071; 1; 0]); ((false, false, [200; 2000; 700; 800], [100; 1000; 500; 900]), [100; 1000; 200; 130972; 99; 999; 199; 130971; 1; 0]); ((false, false, [200; 2000; 700; 800], [100; 1000; 500; 900]), [100; 1000; 200; 130972; 99; 999; 199; 130971; 0; 0])] = true.
Proof. vm_compute. reflexivity. Qed.

(* predictor_test_1.vcd: pixels_out, predics_out, valid_out, end_out *)
Example predictor_vcd : agrees (fun s '(v, n, e, p) => p4_step s v n e p) (fun s _ => p4_pixels_out s ++ p4_predics_out s ++ [b2z (p4_valid_out s); b2z (p4_end_out s)]) (p4_init 12)
  [((false, false, false, [0; 0; 0; 0]), [0; 0; 0; 0; 0; 0; 0; 0; 0; 0]); ((true, true, false, [100; 1000; 500; 900]), [0; 0; 0; 0; 0; 0; 0; 0; 0; 0]); ((true, false, false, [200; 2000; 700; 800]), [100; 1000; 500; 900; 2048; 2048; 2048; 2048; 1; 0]); ((true, true, false, [300; 3000; 300; 350]), [200; 2000; 700; 800; 100; 1000; 500; 900; 1; 0]); ((true, false, false, [700; 3955; 700; 750]), [300; 3000; 300; 350; 100; 1000; 500; 900; 1; 0]); ((true, false, false, [700; 3955; 700; 750]), [700; 3955; 700; 750; 300; 3000; 300; 350; 1; 0])] = true.
Proof. vm_compute. reflexivity. Qed.

(* normalize_test_1.vcd: val_out and ssss of the four pixels, valid_out, end_out *)
Example normalize_vcd : agrees (fun s '(v, e, p, q) => norm_step 16 s v e p q) (fun s _ => pairs_flat (nm_out s) ++ [b2z (nm_valid s); b2z (nm_end s)]) (norm_init 4)
  [((false, false, [0; 0; 0; 0], [0; 0; 0; 0]), [0; 0; 0; 0; 0; 0; 0; 0; 0; 0]); ((true, false, [0; 1; 2; 3], [131071; 0; 1; 2]), [0; 0; 0; 0; 0; 0; 0; 0; 0; 0]); ((true, false, [131071; 131070; 131069; 131068], [131070; 131069; 131068; 131067]), [0; 0; 1; 1; 2; 2; 3; 2; 1; 0]); ((true, false, [10; 200; 3000; 65535], [9; 199; 2999; 65534]), [0; 1; 1; 2; 0; 2; 3; 3; 1; 0]); ((true, false, [131062; 130872; 128072; 65537], [131061; 130871; 128071; 65536]), [10; 4; 200; 8; 3000; 12; 65535; 16; 1; 0]); ((false, false, [131062; 130872; 128072; 65537], [131061; 130871; 128071; 65536]), [5; 4; 55; 8; 1095; 12; 0; 16; 1; 0]); ((false, false, [131062; 130872; 128072; 65537], [131061; 130871; 128071; 65536]), [5; 4; 55; 8; 1095; 12; 0; 16; 0; 0])] = true.
Proof. vm_compute. reflexivity. Qed.

(* encode_test_1.vcd: enc_out and enc_ctr of the four pixels, valid_out, end_out.  The initial value of the memory's read register is
   not visible before the first valid input. *)
Example encode_vcd : agrees (fun s '(v, e, p) => enc_step 16 (init_huff_table 16) s v e p) (fun s _ => pairs_flat (enc_outs s) ++ [b2z (en_valid_out s); b2z (en_end_out s)]) (enc_init 4)
  [((false, false, [(0, 0); (0, 0); (0, 0); (0, 0)]), [0; 0; 0; 0; 0; 0; 0; 0; 0; 0]); ((true, false, [(0, 0); (1, 1); (2, 2); (3, 2)]), [0; 0; 0; 0; 0; 0; 0; 0; 0; 0]); ((true, false, [(0, 1); (1, 2); (0, 2); (3, 3)]), [0; 0; 0; 0; 0; 0; 0; 0; 0; 0]); ((true, false, [(10, 4); (200, 8); (3000, 12); (65535, 16)]), [14; 4; 1; 4; 6; 5; 7; 5; 1; 0]); ((true, false, [(5, 4); (55, 8); (1095, 12); (0, 16)]), [0; 4; 5; 5; 4; 5; 19; 6; 1; 0]); ((false, false, [(5, 4); (55, 8); (1095, 12); (0, 16)]), [58; 7; 7880; 13; 2091960; 21; 8190; 13; 1; 0]); ((false, false, [(5, 4); (55, 8); (1095, 12); (0, 16)]), [53; 7; 7735; 13; 2090055; 21; 8190; 13; 1; 0]); ((false, false, [(5, 4); (55, 8); (1095, 12); (0, 16)]), [53; 7; 7735; 13; 2090055; 21; 8190; 13; 0; 0])] = true.
Proof. vm_compute. reflexivity. Qed.

(* merge_test_1.vcd: enc_out, enc_out_ctr, valid_out, end_out *)
Example merge_vcd : agrees (fun s '(v, e, p) => merge_step 4 31 s v e p)
  (fun s _ => [fst (merge_out 4 31 s); snd (merge_out 4 31 s); b2z (mg_valid (merge_top s)); b2z (mg_end (merge_top s))]) (merge_init 4)
  [((false, false, [(0, 0); (0, 0); (0, 0); (0, 0)]), [0; 0; 0; 0]); ((true, false, [(207, 8); (0, 1); (1431656106, 31); (30, 9)]), [0; 0; 0; 0]); ((true, false, [(12, 4); (0, 5); (2, 2); (0, 1)]), [0; 0; 0; 0]); ((true, false, [(1505200811, 31); (131510260, 31); (1431656106, 31); (126446250, 31)]), [455930821825566; 49; 1; 0]); ((false, false, [(1505200811, 31); (131510260, 31); (1431656106, 31); (126446250, 31)]), [3076; 12; 1; 0]); ((false, false, [(1505200811, 31); (131510260, 31); (1431656106, 31); (126446250, 31)]), [14906786809420294032168726452933061290; 124; 1; 0]); ((false, false, [(1505200811, 31); (131510260, 31); (1431656106, 31); (126446250, 31)]), [14906786809420294032168726452933061290; 124; 0; 0])] = true.
Proof. vm_compute. reflexivity. Qed.

(* core_axi_lite_test_1.vcd: the bus outputs, addr_v, height_width, height, width, wp_en *)
Example core_axi_lite_vcd : agrees (fun s i => al_step 12 true s i (repeat 0 8) false)
  (fun s _ => let o := al_out s in [b2z (ao_arready o); b2z (ao_rvalid o); b2z (ao_awready o); b2z (ao_wready o); b2z (ao_bvalid o); ao_rdata o; ao_rresp o; ao_bresp o; al_addr s; al_hw s; al_height s; al_width s; b2z (al_wp_en s)]) (al_init 12)
  [({| ai_arvalid := false; ai_araddr := 0; ai_rready := false; ai_awvalid := false; ai_awaddr := 0; ai_wvalid := false; ai_wdata := 0; ai_wstrb := 0; ai_bready := false |}, [0; 0; 0; 0; 0; 0; 0; 0; 0; 0; 0; 0; 0]); ({| ai_arvalid := true; ai_araddr := 260; ai_rready := true; ai_awvalid := false; ai_awaddr := 0; ai_wvalid := false; ai_wdata := 0; ai_wstrb := 0; ai_bready := false |}, [0; 0; 0; 0; 0; 0; 0; 0; 0; 0; 0; 0; 0]); ({| ai_arvalid := false; ai_araddr := 260; ai_rready := true; ai_awvalid := false; ai_awaddr := 0; ai_wvalid := false; ai_wdata := 0; ai_wstrb := 0; ai_bready := false |}, [0; 0; 0; 0; 0; 0; 0; 0; 0; 0; 0; 0; 0]); ({| ai_arvalid := false; ai_araddr := 260; ai_rready := true; ai_awvalid := false; ai_awaddr := 0; ai_wvalid := false; ai_wdata := 0; ai_wstrb := 0; ai_bready := false |}, [1; 0; 0; 0; 0; 0; 0; 0; 65; 0; 0; 0; 0]); ({| ai_arvalid := false; ai_araddr := 260; ai_rready := true; ai_awvalid := false; ai_awaddr := 0; ai_wvalid := false; ai_wdata := 0; ai_wstrb := 0; ai_bready := false |}, [0; 0; 0; 0; 0; 0; 0; 0; 65; 0; 0; 0; 0]); ({| ai_arvalid := false; ai_araddr := 260; ai_rready := true; ai_awvalid := false; ai_awaddr := 0; ai_wvalid := false; ai_wdata := 0; ai_wstrb := 0; ai_bready := false |}, [0; 0; 0; 0; 0; 0; 0; 0; 65; 0; 0; 0; 0]); ({| ai_arvalid := false; ai_araddr := 260; ai_rready := true; ai_awvalid := false; ai_awaddr := 0; ai_wvalid := false; ai_wdata := 0; ai_wstrb := 0; ai_bready := false |}, [0; 1; 0; 0; 0; 0; 3; 0; 65; 0; 0; 0; 0]); ({| ai_arvalid := false; ai_araddr := 260; ai_rready := true; ai_awvalid := false; ai_awaddr := 0; ai_wvalid := false; ai_wdata := 0; ai_wstrb := 0; ai_bready := false |}, [0; 0; 0; 0; 0; 0; 3; 0; 65; 0; 0; 0; 0]); ({| ai_arvalid := false; ai_araddr := 260; ai_rready := true; ai_awvalid := false; ai_awaddr := 0; ai_wvalid := false; ai_wdata := 0; ai_wstrb := 0; ai_bready := false |}, [0; 0; 0; 0; 0; 0; 3; 0; 65; 0; 0; 0; 0]); ({| ai_arvalid := false; ai_araddr := 260; ai_rready := true; ai_awvalid := false; ai_awaddr := 0; ai_wvalid := false; ai_wdata := 0; ai_wstrb := 0; ai_bready := false |}, [0; 0; 0; 0; 0; 0; 3; 0; 65; 0; 0; 0; 0]); ({| ai_arvalid := false; ai_araddr := 260; ai_rready := true; ai_awvalid := false; ai_awaddr := 0; ai_wvalid := false; ai_wdata := 0; ai_wstrb := 0; ai_bready := false |}, [0; 0; 0; 0; 0; 0; 3; 0; 65; 0; 0; 0; 0]); ({| ai_arvalid := false; ai_araddr := 260; ai_rready := true; ai_awvalid := false; ai_awaddr := 0; ai_wvalid := false; ai_wdata := 0; ai_wstrb := 0; ai_bready := false |}, [0; 0; 0; 0; 0; 0; 3; 0; 65; 0; 0; 0; 0])] = true.
Proof. vm_compute. reflexivity. Qed.

(* lj92_pipeline_fifo_test_1.vcd (depth 100): dout, readable, level, writable *)
Example fifo_vcd : agrees (fun s '(w, d, r) => fifo_step 100 s w d r) (fun s _ => [ff_dout s; b2z (ff_rd s); fifo_level s; b2z (fifo_writable 100 s)]) (fifo_init 100)
  [((false, 0, false), [0; 0; 0; 1]); ((false, 0, false), [0; 0; 0; 1]); ((true, 871973565234904812624897433151604136447, false), [0; 0; 0; 1]); ((true, 5380643295984102798120634617049581241112, false), [0; 0; 1; 1]); ((false, 5380643295984102798120634617049581241112, false), [871973565234904812624897433151604136447; 1; 2; 1]); ((false, 5380643295984102798120634617049581241112, true), [871973565234904812624897433151604136447; 1; 2; 1]); ((false, 5380643295984102798120634617049581241112, false), [5380643295984102798120634617049581241112; 1; 1; 1]); ((false, 5380643295984102798120634617049581241112, true), [5380643295984102798120634617049581241112; 1; 1; 1]); ((false, 5380643295984102798120634617049581241112, false), [5380643295984102798120634617049581241112; 0; 0; 1]); ((false, 5380643295984102798120634617049581241112, false), [5380643295984102798120634617049581241112; 0; 0; 1]); ((true, 871973565234904812624897433151604136447, false), [5380643295984102798120634617049581241112; 0; 0; 1]); ((true, 871973565234904812624897433151604136447, false), [5380643295984102798120634617049581241112; 0; 1; 1]); ((true, 871973565234904812624897433151604136447, false), [871973565234904812624897433151604136447; 1; 2; 1]); ((true, 871973565234904812624897433151604136447, false), [871973565234904812624897433151604136447; 1; 3; 1]); ((true, 871973565234904812624897433151604136447, false), [871973565234904812624897433151604136447; 1; 4; 1]); ((true, 871973565234904812624897433151604136447, false), [871973565234904812624897433151604136447; 1; 5; 1]); ((true, 871973565234904812624897433151604136447, false), [871973565234904812624897433151604136447; 1; 6; 1]); ((true, 871973565234904812624897433151604136447, false), [871973565234904812624897433151604136447; 1; 7; 1]); ((true, 871973565234904812624897433151604136447, false), [871973565234904812624897433151604136447; 1; 8; 1]); ((true, 871973565234904812624897433151604136447, false), [871973565234904812624897433151604136447; 1; 9; 1]); ((true, 871973565234904812624897433151604136447, false), [871973565234904812624897433151604136447; 1; 10; 1]); ((true, 871973565234904812624897433151604136447, false), [871973565234904812624897433151604136447; 1; 11; 1]); ((true, 871973565234904812624897433151604136447, false), [871973565234904812624897433151604136447; 1; 12; 1]); ((true, 871973565234904812624897433151604136447, false), [871973565234904812624897433151604136447; 1; 13; 1]); ((true, 871973565234904812624897433151604136447, false), [871973565234904812624897433151604136447; 1; 14; 1]); ((true, 871973565234904812624897433151604136447, false), [871973565234904812624897433151604136447; 1; 15; 1]); ((true, 871973565234904812624897433151604136447, false), [871973565234904812624897433151604136447; 1; 16; 1]); ((true, 871973565234904812624897433151604136447, false), [871973565234904812624897433151604136447; 1; 17; 1]); ((true, 871973565234904812624897433151604136447, false), [871973565234904812624897433151604136447; 1; 18; 1]); ((true, 871973565234904812624897433151604136447, false), [871973565234904812624897433151604136447; 1; 19; 1]); ((true, 871973565234904812624897433151604136447, false), [871973565234904812624897433151604136447; 1; 20; 1]); ((true, 871973565234904812624897433151604136447, false), [871973565234904812624897433151604136447; 1; 21; 1]); ((true, 871973565234904812624897433151604136447, false), [871973565234904812624897433151604136447; 1; 22; 1]); ((true, 871973565234904812624897433151604136447, false), [871973565234904812624897433151604136447; 1; 23; 1]); ((true, 871973565234904812624897433151604136447, false), [871973565234904812624897433151604136447; 1; 24; 1]); ((true, 871973565234904812624897433151604136447, false), [871973565234904812624897433151604136447; 1; 25; 1]); ((true, 871973565234904812624897433151604136447, false), [871973565234904812624897433151604136447; 1; 26; 1]); ((true, 871973565234904812624897433151604136447, false), [871973565234904812624897433151604136447; 1; 27; 1]); ((true, 871973565234904812624897433151604136447, false), [871973565234904812624897433151604136447; 1; 28; 1]); ((true, 871973565234904812624897433151604136447, false), [871973565234904812624897433151604136447; 1; 29; 1]); ((true, 871973565234904812624897433151604136447, false), [871973565234904812624897433151604136447; 1; 30; 1]); ((true, 871973565234904812624897433151604136447, false), [871973565234904812624897433151604136447; 1; 31; 1]); ((true, 871973565234904812624897433151604136447, false), [871973565234904812624897433151604136447; 1; 32; 1]); ((true, 871973565234904812624897433151604136447, false), [871973565234904812624897433151604136447; 1; 33; 1]); ((true, 871973565234904812624897433151604136447, false), [871973565234904812624897433151604136447; 1; 34; 1]); ((true, 871973565234904812624897433151604136447, false), [871973565234904812624897433151604136447; 1; 35; 1]); ((true, 871973565234904812624897433151604136447, false), [871973565234904812624897433151604136447; 1; 36; 1]); ((true, 871973565234904812624897433151604136447, false), [871973565234904812624897433151604136447; 1; 37; 1]); ((true, 871973565234904812624897433151604136447, false), [871973565234904812624897433151604136447; 1; 38; 1]); ((true, 871973565234904812624897433151604136447, false), [871973565234904812624897433151604136447; 1; 39; 1]); ((true, 871973565234904812624897433151604136447, false), [871973565234904812624897433151604136447; 1; 40; 1]); ((true, 871973565234904812624897433151604136447, false), [871973565234904812624897433151604136447; 1; 41; 1]); ((true, 871973565234904812624897433151604136447, false), [871973565234904812624897433151604136447; 1; 42; 1]); ((true, 871973565234904812624897433151604136447, false), [871973565234904812624897433151604136447; 1; 43; 1]); ((true, 871973565234904812624897433151604136447, false), [871973565234904812624897433151604136447; 1; 44; 1]); ((true, 871973565234904812624897433151604136447, false), [871973565234904812624897433151604136447; 1; 45; 1]); ((true, 871973565234904812624897433151604136447, false), [871973565234904812624897433151604136447; 1; 46; 1]); ((true, 871973565234904812624897433151604136447, false), [871973565234904812624897433151604136447; 1; 47; 1]); ((true, 871973565234904812624897433151604136447, false), [871973565234904812624897433151604136447; 1; 48; 1]); ((true, 871973565234904812624897433151604136447, false), [871973565234904812624897433151604136447; 1; 49; 1]); ((true, 871973565234904812624897433151604136447, false), [871973565234904812624897433151604136447; 1; 50; 1]); ((true, 871973565234904812624897433151604136447, false), [871973565234904812624897433151604136447; 1; 51; 1]); ((true, 871973565234904812624897433151604136447, false), [871973565234904812624897433151604136447; 1; 52; 1]); ((true, 871973565234904812624897433151604136447, false), [871973565234904812624897433151604136447; 1; 53; 1]); ((true, 871973565234904812624897433151604136447, false), [871973565234904812624897433151604136447; 1; 54; 1]); ((true, 871973565234904812624897433151604136447, false), [871973565234904812624897433151604136447; 1; 55; 1]); ((true, 871973565234904812624897433151604136447, false), [871973565234904812624897433151604136447; 1; 56; 1]); ((true, 871973565234904812624897433151604136447, false), [871973565234904812624897433151604136447; 1; 57; 1]); ((true, 871973565234904812624897433151604136447, false), [871973565234904812624897433151604136447; 1; 58; 1]); ((true, 871973565234904812624897433151604136447, false), [871973565234904812624897433151604136447; 1; 59; 1]); ((true, 871973565234904812624897433151604136447, false), [871973565234904812624897433151604136447; 1; 60; 1]); ((true, 871973565234904812624897433151604136447, false), [871973565234904812624897433151604136447; 1; 61; 1]); ((true, 871973565234904812624897433151604136447, false), [871973565234904812624897433151604136447; 1; 62; 1]); ((true, 871973565234904812624897433151604136447, false), [871973565234904812624897433151604136447; 1; 63; 1]); ((true, 871973565234904812624897433151604136447, false), [871973565234904812624897433151604136447; 1; 64; 1]); ((true, 871973565234904812624897433151604136447, false), [871973565234904812624897433151604136447; 1; 65; 1]); ((true, 871973565234904812624897433151604136447, false), [871973565234904812624897433151604136447; 1; 66; 1]); ((true, 871973565234904812624897433151604136447, false), [871973565234904812624897433151604136447; 1; 67; 1]); ((true, 871973565234904812624897433151604136447, false), [871973565234904812624897433151604136447; 1; 68; 1]); ((true, 871973565234904812624897433151604136447, false), [871973565234904812624897433151604136447; 1; 69; 1]); ((true, 871973565234904812624897433151604136447, false), [871973565234904812624897433151604136447; 1; 70; 1]); ((true, 871973565234904812624897433151604136447, false), [871973565234904812624897433151604136447; 1; 71; 1]); ((true, 871973565234904812624897433151604136447, false), [871973565234904812624897433151604136447; 1; 72; 1]); ((true, 871973565234904812624897433151604136447, false), [871973565234904812624897433151604136447; 1; 73; 1]); ((true, 871973565234904812624897433151604136447, false), [871973565234904812624897433151604136447; 1; 74; 1]); ((true, 871973565234904812624897433151604136447, false), [871973565234904812624897433151604136447; 1; 75; 1]); ((true, 871973565234904812624897433151604136447, false), [871973565234904812624897433151604136447; 1; 76; 1]); ((true, 871973565234904812624897433151604136447, false), [871973565234904812624897433151604136447; 1; 77; 1]); ((true, 871973565234904812624897433151604136447, false), [871973565234904812624897433151604136447; 1; 78; 1]); ((true, 871973565234904812624897433151604136447, false), [871973565234904812624897433151604136447; 1; 79; 1]); ((true, 871973565234904812624897433151604136447, false), [871973565234904812624897433151604136447; 1; 80; 1]); ((true, 871973565234904812624897433151604136447, false), [871973565234904812624897433151604136447; 1; 81; 1]); ((true, 871973565234904812624897433151604136447, false), [871973565234904812624897433151604136447; 1; 82; 1]); ((true, 871973565234904812624897433151604136447, false), [871973565234904812624897433151604136447; 1; 83; 1]); ((true, 871973565234904812624897433151604136447, false), [871973565234904812624897433151604136447; 1; 84; 1]); ((true, 871973565234904812624897433151604136447, false), [871973565234904812624897433151604136447; 1; 85; 1]); ((true, 871973565234904812624897433151604136447, false), [871973565234904812624897433151604136447; 1; 86; 1]); ((true, 871973565234904812624897433151604136447, false), [871973565234904812624897433151604136447; 1; 87; 1]); ((true, 871973565234904812624897433151604136447, false), [871973565234904812624897433151604136447; 1; 88; 1]); ((true, 871973565234904812624897433151604136447, false), [871973565234904812624897433151604136447; 1; 89; 1]); ((false, 871973565234904812624897433151604136447, false), [871973565234904812624897433151604136447; 1; 90; 1]); ((false, 871973565234904812624897433151604136447, false), [871973565234904812624897433151604136447; 1; 90; 1]); ((false, 871973565234904812624897433151604136447, true), [871973565234904812624897433151604136447; 1; 90; 1]); ((false, 871973565234904812624897433151604136447, false), [871973565234904812624897433151604136447; 1; 89; 1]); ((false, 871973565234904812624897433151604136447, false), [871973565234904812624897433151604136447; 1; 89; 1])] = true.
Proof. vm_compute. reflexivity. Qed.

(* delayer_test_1.vcd (delay 8): timer, timer_start, out_val *)
Example delayer_vcd : agrees (dly_step 3) (fun s _ => [dy_timer s; b2z (dy_start s); b2z (dy_out s)]) (dly_init 3 8)
  [(false, [6; 0; 0]); (true, [6; 0; 0]); (true, [6; 1; 0]); (true, [5; 1; 0]); (true, [4; 1; 0]); (true, [3; 1; 0]); (true, [2; 1; 0]); (true, [1; 1; 0]); (true, [0; 1; 0]); (true, [7; 1; 1]); (true, [6; 1; 1]); (true, [5; 1; 1]); (true, [4; 1; 1]); (true, [3; 1; 1]); (true, [2; 1; 1]); (true, [1; 1; 1]); (true, [0; 1; 1]); (true, [7; 1; 1]); (true, [6; 1; 1]); (true, [5; 1; 1])] = true.
Proof. vm_compute. reflexivity. Qed.

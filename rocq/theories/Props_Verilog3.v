(* C90, continued: the shipped Verilog of dma_axi_lite. *)
From Verif Require Import Bits V_Gen2 M_AxiLite Spec_Axi Spec_Verilog P_Verilog Spec_Verilog3 P_Verilog3 Props_Dma.
Ltac Zify.zify_post_hook ::= idtac.

Theorem C90_dma_axi_lite : forall l : list vdm_in, trace vdm_step vdm_pins vdm_init l = trace dl_clock dl_pins dl_init l.
Proof. intros l. apply (trace_sim _ _ _ _ _ _ dma_axi_lite_sim); [apply dma_axi_lite_R0|apply Forall_T]. Qed.

(* a write of 0x11223344 with byte strobes 0101 to the second register (address 0x1004), read back; then a write to a status word is answered with code 2 *)
Definition C90_indm (wr rd : bool) (ad : Z) : vdm_in :=
  {| vdm_i_in1 := 101; vdm_i_in2 := 102; vdm_i_in3 := 103; vdm_i_in4 := 104; vdm_i_in5 := 105; vdm_i_in6 := 106; vdm_i_in7 := 107; vdm_i_in8 := 108; vdm_i_in9 := 109; vdm_i_rst := false;
     vdm_i_s_axi_ri___araddr := ad; vdm_i_s_axi_ri___arvalid := rd; vdm_i_s_axi_ri___rready := true; vdm_i_s_axi_wi___awaddr := ad; vdm_i_s_axi_wi___awvalid := wr; vdm_i_s_axi_wi___bready := true;
     vdm_i_s_axi_wi___wdata := 0x11223344; vdm_i_s_axi_wi___wstrb := 5; vdm_i_s_axi_wi___wvalid := true |}.
Example C90_dma_axi_lite_example :
  let t := trace vdm_step vdm_pins vdm_init (repeat (C90_indm true false 0x1004) 4 ++ repeat (C90_indm false true 0x1004) 3 ++ repeat (C90_indm true false 0x100C) 4 ++ repeat (C90_indm false true 0x102C) 4) in
  map snd (firstn 5 t) = [(0, 0, 0); (0, 0, 0); (0, 0, 0); (0, 0x00220044, 0); (0, 0x00220044, 0)] /\
  option_map (fun o => (ao_rvalid (fst o), ao_rdata (fst o), ao_rresp (fst o))) (nth_error t 7) = Some (true, 0x00220044, 0) /\
  option_map (fun o => (ao_bvalid (fst o), ao_bresp (fst o), snd o)) (nth_error t 11) = Some (true, 2, (0, 0x00220044, 0)) /\
  option_map (fun o => (ao_rvalid (fst o), ao_rdata (fst o))) (nth_error t 14) = Some (true, 109).
Proof. vm_compute. repeat split. Qed.

(* C47 at the pins of the shipped Verilog: after power-on without a reset, for every protocol-obeying master and any status words, nothing unasked is answered, the completed transactions are
   explained in order by the register bank, and whenever no write is in progress the three output registers are those of the bank. *)
Lemma vdm_run l : (forall i, In i l -> vdm_i_rst i = false) -> forall s m, dma_axi_lite_R s m ->
  combine (map vdm_bus l) (map fst (trace vdm_step vdm_pins s l)) = dl_trace m (map (fun i => (vdm_bus i, vdm_ins i)) l) /\
  dma_axi_lite_R (fold_left vdm_step l s) (dl_run m (map (fun i => (vdm_bus i, vdm_ins i)) l)).
Proof.
  induction l as [|i l IH]; intros N s m R; [split; [reflexivity|exact R]|]. destruct (dma_axi_lite_sim s m i I R) as [O R'].
  unfold dl_clock, clocked in R'. rewrite (N i (or_introl eq_refl)) in R'. destruct (IH (fun j H => N j (or_intror H)) _ _ R') as [A B].
  cbn [map trace combine fold_left dl_trace dl_run]. rewrite A, O. split; [reflexivity|exact B].
Qed.
Theorem C47_verilog : forall l : list vdm_in, (forall i, In i l -> vdm_i_rst i = false) ->
  let tr := combine (map vdm_bus l) (map fst (trace vdm_step vdm_pins vdm_init l)) in
  m_all_ok ms_init tr ->
  m_all_sane ms_init tr /\
  exists B, explained (dbank_rd (status_of (map (fun i => (vdm_bus i, vdm_ins i)) l))) dbank_wr dbank0 (m_log ms_init tr) B /\
    (m_aw (m_run ms_init tr) = PNot -> forall i, snd (vdm_pins (fold_left vdm_step l vdm_init) i) = (g_read B, g_write B, g_start B)).
Proof.
  intros l N tr Hok. destruct (vdm_run l N vdm_init dl_init dma_axi_lite_R0) as [A R]. unfold tr in *. rewrite A in *.
  destruct (C47_sequential _ Hok) as (S & B & X & Y). split; [exact S|]. exists B. split; [exact X|]. intros P i. destruct (Y P) as (<- & <- & <-).
  destruct R as [-> _]. reflexivity.
Qed.
(* a protocol-obeying master: a write of 0x11223344 with strobes 0101 to the second register, then a read of it *)
Definition C47_q (wa wd rd : bool) : vdm_in :=
  {| vdm_i_in1 := 101; vdm_i_in2 := 102; vdm_i_in3 := 103; vdm_i_in4 := 104; vdm_i_in5 := 105; vdm_i_in6 := 106; vdm_i_in7 := 107; vdm_i_in8 := 108; vdm_i_in9 := 109; vdm_i_rst := false;
     vdm_i_s_axi_ri___araddr := 0x1004; vdm_i_s_axi_ri___arvalid := rd; vdm_i_s_axi_ri___rready := true; vdm_i_s_axi_wi___awaddr := 0x1004; vdm_i_s_axi_wi___awvalid := wa; vdm_i_s_axi_wi___bready := true;
     vdm_i_s_axi_wi___wdata := 0x11223344; vdm_i_s_axi_wi___wstrb := 5; vdm_i_s_axi_wi___wvalid := wd |}.
Example C47_verilog_example :
  let l := [C47_q true true false; C47_q true true false; C47_q true true false; C47_q false true false; C47_q false false false; C47_q false false false;
            C47_q false false true; C47_q false false true; C47_q false false true; C47_q false false false; C47_q false false false] in
  let tr := combine (map vdm_bus l) (map fst (trace vdm_step vdm_pins vdm_init l)) in
  (forall i, In i l -> vdm_i_rst i = false) /\ m_all_ok ms_init tr /\ m_aw (m_run ms_init tr) = PNot /\ length (m_log ms_init tr) = 2%nat.
Proof. cbv zeta. split; [intros i H; repeat (destruct H as [<-|H]; [reflexivity|]); destruct H|]. vm_compute. repeat split; try discriminate; try reflexivity. Qed.

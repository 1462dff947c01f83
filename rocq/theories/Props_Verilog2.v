(* C90, continued: the shipped Verilog of b16_b64, b16_b40, b64_b32_2, axihp_writer, axihp_reader, axi_lite. *)
From Verif Require Import Bits V_Gen2 M_Width M_Lvds M_AxiHP M_AxiLite M_Bridge Spec_Verilog P_Verilog Spec_Verilog2 P_Verilog2.
Ltac Zify.zify_post_hook ::= idtac.

Theorem C90_b16_b64 : forall l : list vb6_in, Forall (fun i => wide 16 (vb6_i_data_in i)) l ->
  trace vb6_step vb6_pins vb6_init l = trace p64_clock p64_pins p64_init l.
Proof. intros l F. apply (trace_sim _ _ _ _ _ _ b16_b64_sim); [apply b16_b64_R0|exact F]. Qed.
Theorem C90_b16_b40 : forall l : list vb4_in, Forall (fun i => wide 16 (vb4_i_data_in i)) l ->
  trace vb4_step vb4_pins vb4_init l = trace p40_clock p40_pins p40_init l.
Proof. intros l F. apply (trace_sim _ _ _ _ _ _ b16_b40_sim); [apply b16_b40_R0|exact F]. Qed.

(* the words 1, 2, 3, ... under pauses on both sides; a reset in cycle 40 *)
Definition C90_in6 (k : nat) : vb6_in :=
  {| vb6_i_data_in := Z.of_nat k + 1; vb6_i_end_in := Nat.eqb k 30; vb6_i_i_busy := Nat.eqb (Nat.modulo k 3) 0; vb6_i_rst := Nat.eqb k 40; vb6_i_valid_in := negb (Nat.eqb (Nat.modulo k 4) 3) |}.
Example C90_b16_b64_example : let l := map C90_in6 (seq 0 60) in let t := trace vb6_step vb6_pins vb6_init l in
  Forall (fun i => wide 16 (vb6_i_data_in i)) l /\
  nth_error t 7 = Some (true, 0x0002000300050006, false, false) /\ nth_error t 12 = Some (true, 0x00070009000A000B, false, false) /\
  nth_error t 40 = Some (true, 9570299534442534, false, false) /\ nth_error t 41 = Some (false, 0, false, false).
Proof.
  intros l t. split; [|vm_compute; repeat split]. apply Forall_forall. intros x Hx. apply in_map_iff in Hx. destruct Hx as (n & <- & Hn). apply in_seq in Hn.
  unfold wide. cbn [vb6_i_data_in C90_in6]. change (2 ^ 16) with 65536. lia.
Qed.
(* the second buffer starts with the low byte of the third word if it is free, and with its lowest bit alone if it is not: here 0x0FF shrinks to 1 *)
Definition C90_in4 (busy : nat -> bool) (k : nat) : vb4_in :=
  {| vb4_i_data_in := 0xAB00 + 0xFF; vb4_i_full_rst := Nat.eqb k 50; vb4_i_i_busy := busy k; vb4_i_rst := Nat.eqb k 50; vb4_i_valid_in := true |}.
Example C90_b16_b40_example :
  let words busy := map (fun o => snd (fst o)) (filter (fun o => fst (fst o)) (trace vb4_step vb4_pins vb4_init (map (C90_in4 busy) (seq 0 40)))) in
  Forall (fun i => wide 16 (vb4_i_data_in i)) (map (C90_in4 (fun _ => false)) (seq 0 40)) /\
  firstn 4 (words (fun _ => false)) = [0xABFFABFFAB; 0xFFABFFABFF; 0xABFFABFFAB; 0xFFABFFABFF] /\ existsb (Z.eqb 0x01ABFFABFF) (words (fun k => andb (Nat.ltb k 20) (negb (Nat.eqb k 10)))) = true.
Proof.
  intros words. split; [|vm_compute; repeat split]. apply Forall_forall. intros x Hx. apply in_map_iff in Hx. destruct Hx as (n & <- & Hn). split; [discriminate|reflexivity].
Qed.

Theorem C90_b64_b32_2 : forall l : list vb2_in, Forall (fun i => wide 64 (vb2_i_data_in i)) l ->
  trace vb2_step vb2_pins vb2_init l = trace s24_clock s24_pins s24_init l.
Proof. intros l F. apply (trace_sim _ _ _ _ _ _ b64_b32_2_sim); [apply b64_b32_2_R0|exact F]. Qed.
Theorem C90_axihp_writer : forall l : list vhw_in, trace vhw_step vhw_pins vhw_init l = trace hw_clock hw_pins hw_init l.
Proof. intros l. apply (trace_sim _ _ _ _ _ _ axihp_writer_sim); [apply axihp_writer_R0|apply Forall_T]. Qed.
Theorem C90_axihp_reader : forall l : list vhr_in, trace vhr_step vhr_pins vhr_init l = trace hr_clock hr_pins hr_init l.
Proof. intros l. apply (trace_sim _ _ _ _ _ _ axihp_reader_sim); [apply axihp_reader_R0|apply Forall_T]. Qed.
Theorem C90_axi_lite : forall l : list val_in, trace val_step val_pins val_init l = trace zb_clock zb_pins zb_init l.
Proof. intros l. apply (trace_sim _ _ _ _ _ _ axi_lite_sim); [apply axi_lite_R0|apply Forall_T]. Qed.

(* a word of 64 bits gives two of 24, its low 16 bits none *)
Example C90_b64_b32_2_example :
  let l := map (fun k => {| vb2_i_data_in := 0x1122334455667788; vb2_i_full_rst := Nat.eqb k 9; vb2_i_i_busy := Nat.eqb k 3; vb2_i_valid_in := Nat.ltb k 2 |}) (seq 0 12) in
  Forall (fun i => wide 64 (vb2_i_data_in i)) l /\
  trace vb2_step vb2_pins vb2_init l = [(false, 0, true); (false, 0, false); (true, 0x112233, true); (true, 0x445566, true); (true, 0x445566, true)] ++ skipn 5 (trace vb2_step vb2_pins vb2_init l) /\
  In (false, 0, true) (skipn 10 (trace vb2_step vb2_pins vb2_init l)).
Proof.
  intros l. split; [|vm_compute; repeat split; left; reflexivity]. apply Forall_forall. intros x Hx. apply in_map_iff in Hx. destruct Hx as (n & <- & Hn). split; [discriminate|reflexivity].
Qed.
(* a burst: one address, 16 beats, the last of them marked, one response (an error) *)
Example C90_axihp_writer_example :
  let l := map (fun k => {| vhw_i_addr_empty := Nat.ltb 2 k; vhw_i_addr_in := 0x1000; vhw_i_data_empty := false; vhw_i_data_in := Z.of_nat k; vhw_i_enable := true; vhw_i_m_axi_aclk := false;
    vhw_i_m_axi_wi__awready := true; vhw_i_m_axi_wi__bresp := 2; vhw_i_m_axi_wi__bvalid := Nat.eqb k 25; vhw_i_m_axi_wi__wready := true; vhw_i_rst := Nat.eqb k 30; vhw_i_write_strobe := 255 |}) (seq 0 32) in
  let t := trace vhw_step vhw_pins vhw_init l in
  map (fun o => let '((av, _, _, _, _, _, _), _, _, _) := o in av) (firstn 3 t) = [false; true; false] /\
  existsb (fun o => let '(_, (wv, wl, _, _, _), _, _) := o in wv && wl)%bool t = true /\
  existsb (fun o => let '(_, _, b, (_, _, _, _, _, err)) := o in err)%bool t = true.
Proof. vm_compute. repeat split. Qed.
Example C90_axihp_reader_example :
  let l := map (fun k => {| vhr_i_addr_empty := Nat.ltb 2 k; vhr_i_addr_in := 0x1000; vhr_i_data_full := false; vhr_i_enable := true; vhr_i_m_axi_aclk_ := false; vhr_i_m_axi_ri__arready := true;
    vhr_i_m_axi_ri__rdata := Z.of_nat k; vhr_i_m_axi_ri__rlast := Nat.eqb k 20; vhr_i_m_axi_ri__rresp := 0; vhr_i_m_axi_ri__rvalid := true; vhr_i_rst := Nat.eqb k 30 |}) (seq 0 32) in
  map (fun o => let '(_, r, _) := o in r) (firstn 4 (trace vhr_step vhr_pins vhr_init l)) = [false; false; false; true].
Proof. vm_compute. repeat split. Qed.
(* the ID of a read comes back two cycles after its address *)
Example C90_axi_lite_example :
  let q v := {| val_i_m_axi_ri__arready := true; val_i_m_axi_ri__rdata := 7; val_i_m_axi_ri__rresp := 0; val_i_m_axi_ri__rvalid := true; val_i_m_axi_wi__awready := false; val_i_m_axi_wi__bresp := 0;
    val_i_m_axi_wi__bvalid := false; val_i_m_axi_wi__wready := false; val_i_rst := false; val_i_s_axi_aclk := false; val_i_s_axi_areset_n := false; val_i_s_axi_ri__araddr := 64; val_i_s_axi_ri__arid := 5;
    val_i_s_axi_ri__arprot := 0; val_i_s_axi_ri__arvalid := v; val_i_s_axi_ri__rready := true; val_i_s_axi_wi__awaddr := 0; val_i_s_axi_wi__awid := 9; val_i_s_axi_wi__awprot := 0; val_i_s_axi_wi__awvalid := false;
    val_i_s_axi_wi__bready := false; val_i_s_axi_wi__wdata := 0; val_i_s_axi_wi__wstrb := 0; val_i_s_axi_wi__wvalid := false |} in
  map (fun o => zo_rid (snd o)) (trace val_step val_pins val_init [q true; q false; q false; q false]) = [0; 0; 5; 5].
Proof. reflexivity. Qed.

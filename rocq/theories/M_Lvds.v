(* beta_integration_fifo_lvds.py: 64-bit stream -> b64_b32_2 -> beta core -> b16_b40 -> 40-bit words,
   cycle accurate, with the automatic reset.
   Clock domains: b64_b32_2.py and the data registers of b16_b40.py are in the domain "full", which
   is not reset between frames; the FSM of b16_b40.py (m.FSM without a domain) is in "sync", which
   auto_reset resets after every frame (verilog_src/beta_integration_fifo_lvds.v, module b16_b40:
   fsm_state is cleared by rst, everything else only by full_rst). *)
From Verif Require Import Bits M_Config M_Encode M_I3 M_Fix M_Markers M_Beta M_Width M_Top.
Ltac Zify.zify_post_hook ::= idtac.

Record lv_st := { lv_bt : bt_st; lv_rf : rf_st; lv_s24 : s24_st; lv_p40 : p40_st }.
(* beta_integration_fifo_lvds.py:64-69: what the core sees; busy_in = b16_b40.o_busy (line 53) *)
Definition lv_bt_in (s : lv_st) : bt_in :=
  {| bi_valid := s24_valid (lv_s24 s); bi_px := tp24 (s24_data (lv_s24 s)); bi_busy := p40_busy (lv_p40 s);
     bi_w := rf_width (lv_rf s); bi_h := rf_height (lv_rf s); bi_allowed := rf_allowed (lv_rf s) |}.
(* lines 44-55: what b16_b40 sees *)
Definition lv_p40_in (s : lv_st) (i : ts_in) : pk_in :=
  {| pi_valid := mko_valid (bt_out (lv_bt s) (lv_bt_in s)); pi_data := trunc 16 (mko_data (bt_out (lv_bt s) (lv_bt_in s)));
     pi_end := false; pi_busy := negb (ts_mready i) |}.
(* b16_b40.py:92 m.FSM(): the state register alone is reset *)
Definition p40_fsm_reset (s : p40_st) : p40_st :=
  {| p40_fsm_st := P40_1I; p40_b1 := p40_b1 s; p40_v1 := p40_v1 s; p40_b2 := p40_b2 s; p40_v2 := p40_v2 s;
     p40_chs := p40_chs s; p40_temp := p40_temp s; p40_valid := p40_valid s; p40_busy := p40_busy s |}.
(* One clock edge; R: the constants of register_file.py (M_Markers.rf_step has the shipped ones) *)
Definition lv_step (R : rf_st) (s : lv_st) (i : ts_in) : lv_st :=
  let p := p40_step (lv_p40 s) (lv_p40_in s i) in
  {| lv_bt := bt_step beta_cfg (init_huff_table 12) (lv_bt s) (lv_bt_in s);
     lv_rf := R;
     lv_s24 := s24_step (lv_s24 s) (t64_pk (lv_bt s) i);                       (* lines 57-62, 68 *)
     lv_p40 := if b_rst (lv_bt s) then p40_fsm_reset p else p |}.
Definition lv_init : lv_st := {| lv_bt := bt_init beta_cfg; lv_rf := rf_init; lv_s24 := s24_init; lv_p40 := p40_init |}.
Fixpoint lv_run (R : rf_st) (s : lv_st) (l : list ts_in) : lv_st := match l with [] => s | i :: r => lv_run R (lv_step R s i) r end.

(* 40-bit words handed over on the m_ side (m_tvalid and m_tready) *)
Fixpoint lv_delivered (R : rf_st) (s : lv_st) (l : list ts_in) : list Z :=
  match l with [] => [] | i :: r => p40_del (lv_p40 s) (lv_p40_in s i) ++ lv_delivered R (lv_step R s i) r end.
(* frame by frame: pixel groups taken by the core, words handed by the core to b16_b40 (the reset cycle is the last
   one of its frame; the last entry is the frame in progress) *)
Fixpoint lv_log (R : rf_st) (A : list (list Z)) (O : list (Z * bool)) (s : lv_st) (l : list ts_in) : list (list (list Z) * list (Z * bool)) :=
  match l with
  | [] => [(A, O)]
  | i :: r =>
      if b_rst (lv_bt s) then (A ++ bt_took (lv_bt s) (lv_bt_in s), O ++ bt_gave (lv_bt s) (lv_bt_in s)) :: lv_log R [] [] (lv_step R s i) r
      else lv_log R (A ++ bt_took (lv_bt s) (lv_bt_in s)) (O ++ bt_gave (lv_bt s) (lv_bt_in s)) (lv_step R s i) r
  end.

(* beta_integration.py: the complete beta core, cycle accurate, including the automatic reset.
   beta_integration_axistream.py, beta_integration_fifo_axistream.py and
   beta_integration_fullaxi.py wire the same core (with core_axi_lite instead of
   register_file); the width, height and allowed_cycles registers are therefore inputs here,
   and the register_file variant is obtained by feeding them from rf_step (bt_rf_ins below). *)
From Verif Require Import Bits M_Config M_Encode M_I1 M_Fifo M_I3 M_Fix M_Markers.

Record bt_st := {
  b_i3 : i3_st;
  b_fe : fe_st;          (* integration_1.py:52, force_end *)
  b_f1 : f1_st;
  b_f2 : f2_st;
  b_mk : mk_st;
  b_rst : bool           (* auto_reset.reset_out *)
}.

Record bt_in := {
  bi_valid : bool;
  bi_px : list Z;
  bi_busy : bool;
  bi_w : Z; bi_h : Z; bi_allowed : Z      (* configuration registers *)
}.

(* State of the "sync" domain after a reset: every register has its reset value except block RAM
   contents and block RAM read registers (see M_Fifo.fifo_reset, M_Encode.enc_reset), which keep
   what they hold in state s. *)
Definition i3_keep_reset (c : config) (s : i3_st) : i3_st :=
  i3_reset c (ff_stor (s_ljf s)) (ff_dout (s_ljf s)) (ff_stor (s_cf s)) (ff_dout (s_cf s))
    (map e1_rp_data (en_px (i1_enc (s_i1 s)))).
Definition bt_reset_with (i3 : i3_st) : bt_st :=
  {| b_i3 := i3; b_fe := fe_init; b_f1 := f1_init; b_f2 := f2_init; b_mk := mk_init; b_rst := false |}.
Definition bt_init (c : config) : bt_st := bt_reset_with (i3_init c).

(* beta_integration.py:95-100 *)
Definition bt_i3_in (s : bt_st) (i : bt_in) : i3_in :=
  {| in_valid := bi_valid i; in_px := bi_px i; in_busy := f1_obusy (b_f1 s);
     in_w := bi_w i; in_h := bi_h i |}.
(* beta_integration.py:119-125 *)
Definition bt_mk_in (s : bt_st) (i : bt_in) : mk_in :=
  {| mki_valid := f2_vout (b_f2 s); mki_data := f2_dout (b_f2 s); mki_end := f2_eout (b_f2 s);
     mki_force := fe_fend (b_fe s); mki_busy := bi_busy i |}.
(* beta_integration.py:103-116 *)
Definition bt_fx_in (s : bt_st) (i : bt_in) : fx_in :=
  {| fxi_valid := i3_valid_out (b_i3 s); fxi_data := i3_data_out (b_i3 s); fxi_end := i3_end_out (b_i3 s);
     fxi_busy := mko_busy (mk_comb (b_mk s) (bt_mk_in s i)) |}.
(* beta_integration.py:128-133: data_out, valid_out, end_out, nready *)
Definition bt_out (s : bt_st) (i : bt_in) : mk_out := mk_comb (b_mk s) (bt_mk_in s i).
Definition bt_nready (s : bt_st) : bool := i3_nready (b_i3 s).
Definition bt_accept (s : bt_st) (i : bt_in) : bool := bi_valid i && negb (bt_nready s).

(* the next state if the domain is not being reset *)
Definition bt_next (c : config) (mem : list Z) (s : bt_st) (i : bt_in) : bt_st :=
  let fx := fx_step (b_f1 s, b_f2 s) (bt_fx_in s i) in
  {| b_i3 := i3_step c mem (b_i3 s) (bt_i3_in s i);
     (* integration_1.py:92-95: force_end sees the gated valid of integration_2.py:79 *)
     b_fe := fe_step (b_fe s) (bt_accept s i) (bi_allowed i);
     b_f1 := fst fx; b_f2 := snd fx;
     b_mk := mk_step (b_mk s) (bt_mk_in s i);
     (* beta_integration.py:73-77 *)
     b_rst := ar_step (b_rst s) (mko_end (bt_out s i)) (mko_valid (bt_out s i)) (negb (bi_busy i)) |}.

(* One clock edge.  beta_integration.py:68-70: reset_out=1 resets the domain at this edge, which
   is also the domain of auto_reset itself. *)
Definition bt_step (c : config) (mem : list Z) (s : bt_st) (i : bt_in) : bt_st :=
  if b_rst s then bt_reset_with (i3_keep_reset c (b_i3 (bt_next c mem s i))) else bt_next c mem s i.

Fixpoint bt_run (c : config) (mem : list Z) (s : bt_st) (l : list bt_in) : bt_st :=
  match l with [] => s | i :: r => bt_run c mem (bt_step c mem s i) r end.

(* pixel groups accepted in a cycle (valid_in=1 and nready=0) *)
Definition bt_took (s : bt_st) (i : bt_in) : list (list Z) := if bt_accept s i then [bi_px i] else [].
(* words handed over in a cycle (valid_out=1 and busy_in=0), with end_out *)
Definition bt_gave (s : bt_st) (i : bt_in) : list (Z * bool) :=
  if mko_valid (bt_out s i) && negb (bi_busy i) then [(mko_data (bt_out s i), mko_end (bt_out s i))] else [].
Fixpoint bt_accepted (c : config) (mem : list Z) (s : bt_st) (l : list bt_in) : list (list Z) :=
  match l with [] => [] | i :: r => bt_took s i ++ bt_accepted c mem (bt_step c mem s i) r end.
Fixpoint bt_outs (c : config) (mem : list Z) (s : bt_st) (l : list bt_in) : list (Z * bool) :=
  match l with [] => [] | i :: r => bt_gave s i ++ bt_outs c mem (bt_step c mem s i) r end.

(* beta_integration.py:16-28 *)
Definition beta_cfg : config :=
  {| bd := 12; ps := 2; ljd := 512; conv := 30; cfd := 512; outb := 16; bufs := 77 |}.

(* the register_file variant: cycle by cycle inputs valid_in, pixels, busy_in; the registers come
   from register_file.py, whose domain "full" is not reset between frames *)
Fixpoint bt_rf_ins (rf : rf_st) (l : list (bool * list Z * bool)) : list bt_in :=
  match l with
  | [] => []
  | (v, px, b) :: r =>
      {| bi_valid := v; bi_px := px; bi_busy := b;
         bi_w := rf_width rf; bi_h := rf_height rf; bi_allowed := rf_allowed rf |} :: bt_rf_ins (rf_step rf) r
  end.

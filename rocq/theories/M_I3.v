(* integration_2.py and integration_3.py: the complete core, cycle accurate *)
From Verif Require Import Bits M_Config M_Signals M_I1 M_Fifo M_Converter M_VBits M_Encode.

Record i3_st := {
  s_i1 : i1_st;
  s_ljf : fifo_st;            (* lj92_pipeline_fifo.fifo *)
  s_lj_cf : bool;             (* lj92_pipeline_fifo.close_full *)
  s_cv : cv_st;
  s_cf : fifo_st;             (* converter_fifo.fifo *)
  s_cf_cf : bool;             (* converter_fifo.close_full *)
  s_nready_end : bool;        (* integration_2.py:59 *)
  s_nready_end_reg : bool;    (* integration_2.py:56 *)
  s_nready_reset : bool;      (* integration_2.py:66 *)
  s_nready_ctr : Z;           (* integration_2.py:67, 3 bits *)
  s_vb : vb_st
}.

(* inputs of one clock cycle *)
Record i3_in := {
  in_valid : bool;
  in_px : list Z;      (* pixels_in *)
  in_busy : bool;      (* busy_in *)
  in_w : Z;            (* width register (register_file / core_axi_lite) *)
  in_h : Z             (* height register *)
}.

(* widths of the packed fifo words: lj92_pipeline_fifo.py:46-49, converter_fifo.py:51-53 *)
Definition lj_db (c : config) := total_ctr c.
Definition lj_cb (c : config) := clog2 (total_ctr c + 1).
Definition cf_db (c : config) := conv c.
Definition cf_cb (c : config) := clog2 (conv c + 1).

(* State after reset.  Block-RAM contents and read registers keep whatever they held
   (see M_Fifo.fifo_reset); at power-on they are zero. *)
Definition i3_reset (c : config) (stor1 : list Z) (dout1 : Z) (stor2 : list Z) (dout2 : Z)
    (rps : list Z) : i3_st :=
  {| s_i1 := i1_reset c rps; s_ljf := fifo_reset stor1 dout1; s_lj_cf := false; s_cv := cv_init;
     s_cf := fifo_reset stor2 dout2; s_cf_cf := false;
     s_nready_end := false; s_nready_end_reg := false; s_nready_reset := false; s_nready_ctr := 0;
     s_vb := vb_init |}.

Definition i3_init (c : config) : i3_st :=
  i3_reset c (repeat 0 (Z.to_nat (ljd c - 1))) 0 (repeat 0 (Z.to_nat (cfd c - 1))) 0
    (repeat 0 (Z.to_nat (ps c))).

(* integration_2.py:72-74, integration_3.py:75 *)
Definition i3_nready (s : i3_st) : bool :=
  s_lj_cf s || s_nready_end s || negb (s_nready_reset s).

(* integration_3.py:68-70 *)
Definition i3_valid_out (s : i3_st) : bool := vo_valid (vb_out (s_vb s)).
Definition i3_data_out (s : i3_st) : Z := vo_data (vb_out (s_vb s)).
Definition i3_end_out (s : i3_st) : bool := vo_end (vb_out (s_vb s)).

(* integration_2.py:79 *)
Definition i3_accept (s : i3_st) (i : i3_in) : bool := in_valid i && negb (i3_nready s).

(* One clock edge of the core; mem = Huffman memory contents. *)
Definition i3_step (c : config) (mem : list Z) (s : i3_st) (i : i3_in) : i3_st :=
  let acc := i3_accept s i in
  let '(l_enc, l_ctr) := i1_out c (s_i1 s) in
  let lq := ff_dout (s_ljf s) in
  let cq := ff_dout (s_cf s) in
  let eof := sg_end_of_frame (i1_sig (s_i1 s)) && in_valid i && negb (i3_nready s) in  (* line 61 *)
  {| s_i1 := i1_step c mem (s_i1 s) acc (in_px i) (in_w i) (in_h i);
     (* lj92_pipeline_fifo.py:84-95, integration_2.py:83-93 *)
     s_ljf := fifo_step (ljd c) (s_ljf s) (i1_valid_out c (s_i1 s))
                (item_pack (lj_db c) (lj_cb c) l_enc l_ctr (i1_end_out c (s_i1 s)))
                (cv_latch_output (s_cv s));
     (* lj92_pipeline_fifo.py:98-100 *)
     s_lj_cf := ljd c - 10 <=? fifo_level (s_ljf s);
     (* integration_2.py:92-107 *)
     s_cv := cv_step c (s_cv s) (item_enc (lj_db c) (lj_cb c) lq) (item_ctr (lj_db c) (lj_cb c) lq)
               (item_end (lj_db c) (lj_cb c) lq) (ff_rd (s_ljf s)) (s_cf_cf s);
     (* converter_fifo.py:84-96 *)
     s_cf := fifo_step (cfd c) (s_cf s) (cv_valid_in (s_cv s))
               (item_pack (cf_db c) (cf_cb c) (cv_enc_in (s_cv s)) (cv_enc_in_ctr (s_cv s))
                  (cv_in_end (s_cv s)))
               (vi_latch_input (vb_in (s_vb s)));
     (* converter_fifo.py:99-101 *)
     s_cf_cf := cfd c - cf_steps c <=? fifo_level (s_cf s);
     (* integration_2.py:56-63 *)
     s_nready_end := eof || s_nready_end_reg s;
     s_nready_end_reg := eof || s_nready_end_reg s;
     (* integration_2.py:66-70 *)
     s_nready_reset := if s_nready_ctr s =? 7 then true else s_nready_reset s;
     s_nready_ctr := trunc 3 (s_nready_ctr s + 1);
     (* integration_3.py:56-64 *)
     s_vb := vb_step c (s_vb s) (item_enc (cf_db c) (cf_cb c) cq) (item_ctr (cf_db c) (cf_cb c) cq)
               (item_end (cf_db c) (cf_cb c) cq) (ff_rd (s_cf s)) (in_busy i) |}.

(* Runs *)
Fixpoint i3_run (c : config) (mem : list Z) (s : i3_st) (ins : list i3_in) : i3_st :=
  match ins with [] => s | i :: r => i3_run c mem (i3_step c mem s i) r end.

(* groups of pixels accepted during a run (valid_in=1 and nready=0) *)
Fixpoint i3_accepted (c : config) (mem : list Z) (s : i3_st) (ins : list i3_in) : list (list Z) :=
  match ins with
  | [] => []
  | i :: r => (if in_valid i && negb (i3_nready s) then [in_px i] else [])
              ++ i3_accepted c mem (i3_step c mem s i) r
  end.

(* words transferred during a run (valid_out=1 and busy_in=0), with their end flag *)
Fixpoint i3_transfers (c : config) (mem : list Z) (s : i3_st) (ins : list i3_in) : list (Z * bool) :=
  match ins with
  | [] => []
  | i :: r => (if i3_valid_out s && negb (in_busy i) then [(i3_data_out s, i3_end_out s)] else [])
              ++ i3_transfers c mem (i3_step c mem s i) r
  end.

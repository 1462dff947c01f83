(* nmigen.lib.fifo.SyncFIFOBuffered, as instantiated by lj92_pipeline_fifo.py:75 and
   converter_fifo.py:75.  The library source is not in the repository; the model is
   taken from the Verilog generated from it, verilog_src/lj92_pipeline_fifo.v
   (modules "fifo" and "unbuffered"; depth 128 there, any depth here). *)
From Verif Require Import Bits M_Predictor.

Record fifo_st := {
  ff_stor : list Z;     (* storage, depth-1 words *)
  ff_prod : Z;          (* produce *)
  ff_cons : Z;          (* consume *)
  ff_lvl : Z;           (* level of the unbuffered fifo *)
  ff_rd : bool;         (* readable, registered *)
  ff_dout : Z           (* read port register *)
}.

(* State after a reset: the storage and the read register are not reset
   (lj92_pipeline_fifo.v: _0_ and storage have no rst), so they are parameters. *)
Definition fifo_reset (stor : list Z) (dout : Z) : fifo_st :=
  {| ff_stor := stor; ff_prod := 0; ff_cons := 0; ff_lvl := 0; ff_rd := false; ff_dout := dout |}.
Definition fifo_init (D : Z) : fifo_st := fifo_reset (repeat 0 (Z.to_nat (D - 1))) 0.

(* lj92_pipeline_fifo.v:  writable = level != depth-1 ($2), readable = level != 0 ($4) *)
Definition fifo_writable (D : Z) (s : fifo_st) : bool := negb (ff_lvl s =? D - 1).
Definition fifo_level (s : fifo_st) : Z := ff_lvl s + b2z (ff_rd s).       (* $7 *)

(* $26 / $35 : pointers wrap at depth-2 *)
Definition fifo_incr (D p : Z) : Z := if p =? D - 2 then 0 else p + 1.

Definition fifo_step (D : Z) (s : fifo_st) (we : bool) (din : Z) (re : bool) : fifo_st :=
  let u_readable := negb (ff_lvl s =? 0) in
  let u_re := u_readable && (negb (ff_rd s) || re) in                      (* $5 *)
  let do_write := fifo_writable D s && we in                               (* $15, $21 (replace = 0) *)
  {| ff_stor := if do_write then upd (Z.to_nat (ff_prod s)) din (ff_stor s) else ff_stor s;
     ff_prod := if do_write then fifo_incr D (ff_prod s) else ff_prod s;
     ff_cons := if u_re then fifo_incr D (ff_cons s) else ff_cons s;
     ff_lvl := if do_write && negb u_re then ff_lvl s + 1
               else if u_re && negb do_write then ff_lvl s - 1 else ff_lvl s;   (* $49, $64 *)
     ff_rd := if u_re then true else if re then false else ff_rd s;
     ff_dout := if u_re then nth (Z.to_nat (ff_cons s)) (ff_stor s) 0 else ff_dout s |}.

(* Cat(enc, ctr, end) with enc of db bits and ctr of cb bits
   (lj92_pipeline_fifo.py:86, converter_fifo.py:86) and its slices (lines 91-93) *)
Definition item_pack (db cb enc ctr : Z) (e : bool) : Z :=
  trunc db enc + 2 ^ db * (trunc cb ctr + 2 ^ cb * b2z e).
Definition item_enc (db cb x : Z) : Z := slice 0 db x.
Definition item_ctr (db cb x : Z) : Z := slice db (db + cb) x.
Definition item_end (db cb x : Z) : bool := slice (db + cb) (db + cb + 1) x =? 1.

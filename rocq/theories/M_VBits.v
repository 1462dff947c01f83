(* vbits_to_cbits.py *)
From Verif Require Import Bits M_Config.

(* vbits_to_cbits.py:104-125 *)
Inductive vo_fsm := VO_OUTPUT | VO_BURST | VO_END.
(* vbits_to_cbits.py:238-286 *)
Inductive vi_fsm := VI_INPUT | VI_CLEAN | VI_REGISTER | VI_BURST.

(* OutputHandler registers, vbits_to_cbits.py:52-54 *)
Record vo_st := { vo_state : vo_fsm; vo_data : Z; vo_valid : bool; vo_end : bool }.

(* InputHandler registers, vbits_to_cbits.py:138-189 (valid_in_late, line 176, is never read) *)
Record vi_st := {
  vi_state : vi_fsm;
  vi_latch_input : bool;
  vi_buffer : Z;          (* bufs bits *)
  vi_consum : Z;          (* clog2(bufs+1) bits *)
  vi_end : bool;          (* end_out *)
  vi_start : bool;
  vi_free : Z;
  vi_reg : Z; vi_ctr_reg : Z; vi_end_reg : bool; vi_valid_reg : bool;
  vi_buff : Z; vi_ctr_buff : Z; vi_end_buff : bool; vi_valid_buff : bool
}.

Record vb_st := { vb_in : vi_st; vb_out : vo_st }.

Definition vo_init : vo_st := {| vo_state := VO_OUTPUT; vo_data := 0; vo_valid := false; vo_end := false |}.
Definition vi_init : vi_st :=
  {| vi_state := VI_INPUT; vi_latch_input := false; vi_buffer := 0; vi_consum := 0; vi_end := false;
     vi_start := false; vi_free := 0;
     vi_reg := 0; vi_ctr_reg := 0; vi_end_reg := false; vi_valid_reg := false;
     vi_buff := 0; vi_ctr_buff := 0; vi_end_buff := false; vi_valid_buff := false |}.
Definition vb_init : vb_st := {| vb_in := vi_init; vb_out := vo_init |}.

(* conditions, vbits_to_cbits.py:86-89 *)
Definition vo_ge (c : config) (consum : Z) : bool := outb c <=? consum.
Definition vo_le (c : config) (consum : Z) : bool := consum <=? outb c.

(* does do_output() run in this cycle?  (dec_buff_out, vbits_to_cbits.py:101,106-122) *)
Definition vo_dec (c : config) (s : vo_st) (consum : Z) (end_in busy : bool) : bool :=
  match vo_state s with
  | VO_OUTPUT => vo_ge c consum || (vo_le c consum && end_in)
  | VO_BURST => negb busy && vo_ge c consum
  | VO_END => false
  end.

(* data_out in do_output, vbits_to_cbits.py:74-77,92-95 *)
Definition vo_word (c : config) (buffer consum : Z) : Z :=
  let shift_right := trunc (clog2 (bufs c - outb c + 1)) (consum - outb c) in
  let shift_left := trunc (clog2 (outb c)) (outb c - consum) in
  if vo_ge c consum then trunc (outb c) (Z.shiftr buffer shift_right)
  else trunc (outb c) (Z.shiftl buffer shift_left).

(* vbits_to_cbits.py:91-125 *)
Definition vo_step (c : config) (s : vo_st) (buffer consum : Z) (end_in busy : bool) : vo_st :=
  if vo_dec c s consum end_in busy then
    let fin := vo_le c consum && end_in in
    {| vo_state := if fin then VO_END else VO_BURST;
       vo_data := vo_word c buffer consum;
       vo_valid := true;
       vo_end := if fin then true else vo_end s |}
  else
    match vo_state s with
    | VO_BURST =>
        if busy then s
        else {| vo_state := VO_OUTPUT; vo_data := vo_data s; vo_valid := false; vo_end := vo_end s |}
    | _ => s
    end.

(* does get_input_from_reg() run?  (inc_buff, vbits_to_cbits.py:204-209,255-286) *)
Definition vi_inc (s : vi_st) : bool :=
  match vi_state s with
  | VI_CLEAN => true
  | VI_BURST => vi_valid_reg s && (vi_ctr_reg s <=? vi_free s)
  | _ => false
  end.

(* vbits_to_cbits.py:232-310; inputs enc, ctr, e, valid from the fifo, dec from the OutputHandler *)
Definition vi_step (c : config) (s : vi_st) (enc ctr : Z) (e valid dec : bool) : vi_st :=
  let inc := vi_inc s in
  let cw := clog2 (bufs c + 1) in
  (* lines 289-310 *)
  let free' :=
    if inc || dec then
      trunc cw (vi_free s + (if dec then outb c else 0) - (if inc then vi_ctr_reg s else 0))
    else if negb (vi_start s) then bufs c else vi_free s in
  let consum' :=
    if inc || dec then
      trunc cw (vi_consum s - (if dec then outb c else 0) + (if inc then vi_ctr_reg s else 0))
    else vi_consum s in
  (* get_input_from_reg, lines 204-208 *)
  let buffer' := if inc then trunc (bufs c) (Z.lor (Z.shiftl (vi_buffer s) (vi_ctr_reg s)) (vi_reg s))
                 else vi_buffer s in
  let end' := if inc then vi_end_reg s else vi_end s in
  match vi_state s with
  | VI_INPUT =>                                           (* lines 240-253 *)
      let swap := vi_valid_buff s && (vi_ctr_buff s <=? vi_free s) in
      {| vi_state := if vi_valid_buff s then (if swap then VI_CLEAN else VI_INPUT)
                     else if vi_valid_reg s then VI_BURST else VI_REGISTER;
         vi_latch_input := if vi_valid_buff s then vi_latch_input s else true;
         vi_buffer := buffer'; vi_consum := consum'; vi_end := end'; vi_start := true; vi_free := free';
         vi_reg := if swap then vi_buff s else vi_reg s;
         vi_ctr_reg := if swap then vi_ctr_buff s else vi_ctr_reg s;
         vi_end_reg := if swap then vi_end_buff s else vi_end_reg s;
         vi_valid_reg := vi_valid_reg s;
         vi_buff := if swap then vi_reg s else vi_buff s;
         vi_ctr_buff := if swap then vi_ctr_reg s else vi_ctr_buff s;
         vi_end_buff := if swap then vi_end_reg s else vi_end_buff s;
         vi_valid_buff := vi_valid_buff s |}
  | VI_CLEAN =>                                           (* lines 255-270 *)
      {| vi_state := if vi_valid_reg s then VI_BURST else VI_REGISTER;
         vi_latch_input := true;
         vi_buffer := buffer'; vi_consum := consum'; vi_end := end'; vi_start := true; vi_free := free';
         vi_reg := vi_buff s; vi_ctr_reg := vi_ctr_buff s; vi_end_reg := vi_end_buff s;
         vi_valid_reg := vi_valid_reg s;
         vi_buff := vi_reg s; vi_ctr_buff := vi_ctr_reg s; vi_end_buff := vi_end_reg s;
         vi_valid_buff := false |}
  | VI_REGISTER =>                                        (* lines 272-274 *)
      {| vi_state := VI_BURST; vi_latch_input := vi_latch_input s;
         vi_buffer := buffer'; vi_consum := consum'; vi_end := end'; vi_start := true; vi_free := free';
         vi_reg := enc; vi_ctr_reg := ctr; vi_end_reg := e; vi_valid_reg := valid;
         vi_buff := vi_buff s; vi_ctr_buff := vi_ctr_buff s; vi_end_buff := vi_end_buff s;
         vi_valid_buff := vi_valid_buff s |}
  | VI_BURST =>                                           (* lines 276-286 *)
      let stall := vi_valid_reg s && negb (vi_ctr_reg s <=? vi_free s) in
      {| vi_state := if stall then VI_INPUT else VI_BURST;
         vi_latch_input := if vi_valid_reg s then negb stall else vi_latch_input s;
         vi_buffer := buffer'; vi_consum := consum'; vi_end := end'; vi_start := true; vi_free := free';
         vi_reg := enc; vi_ctr_reg := ctr; vi_end_reg := e; vi_valid_reg := valid;
         vi_buff := vi_reg s; vi_ctr_buff := vi_ctr_reg s; vi_end_buff := vi_end_reg s;
         vi_valid_buff := vi_valid_reg s |}
  end.

(* vbits_to_cbits.py:345-378 *)
Definition vb_step (c : config) (s : vb_st) (enc ctr : Z) (e valid busy : bool) : vb_st :=
  let i := vb_in s in let o := vb_out s in
  let dec := vo_dec c o (vi_consum i) (vi_end i) busy in
  {| vb_in := vi_step c i enc ctr e valid dec;
     vb_out := vo_step c o (vi_buffer i) (vi_consum i) (vi_end i) busy |}.

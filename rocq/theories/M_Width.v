(* Width converters: b16_b64.py, b16_b40.py, b64_b32_2.py, cycle accurate (b64_b32.py, with nmigen's SyncFIFO, and
   axihp_fifo.py are in M_SyncFifo.v). *)
From Verif Require Import Bits M_Predictor.

(* ------------------------------------------------------------------ b16_b64.py *)

(* A 64-bit buffer (b16_b64.py:60-66) is only ever assigned in its four 16-bit slices; it is kept
   as these four slices, most significant first. *)
Record quad := { q3 : Z; q2 : Z; q1 : Z; q0 : Z }.
Definition quad0 : quad := {| q3 := 0; q2 := 0; q1 := 0; q0 := 0 |}.
Definition quad_word (q : quad) : Z := q3 q * 2 ^ 48 + q2 q * 2 ^ 32 + q1 q * 2 ^ 16 + q0 q.

(* BUFFn_IDLE, BUFFn_FILL_1 .. 4 *)
Inductive pk_pos := PK_IDLE | PK_F1 | PK_F2 | PK_F3 | PK_F4.
(* inputs of a cycle *)
Record pk_in := { pi_valid : bool; pi_data : Z; pi_end : bool; pi_busy : bool }.
Record p64_st := {
  p64_side : bool;          (* false: the BUFF1_* states, true: the BUFF2_* states *)
  p64_pos : pk_pos;
  p64_b1 : quad; p64_v1 : bool; p64_b2 : quad; p64_v2 : bool;
  p64_chs : bool;           (* buff_chs *)
  p64_data : Z; p64_valid : bool; p64_busy : bool;    (* data_out, valid_out, o_busy *)
  p64_rend : bool; p64_ctr : Z; p64_end : bool        (* reg_end, counter, end_out *)
}.
Definition p64_init : p64_st :=
  {| p64_side := false; p64_pos := PK_IDLE; p64_b1 := quad0; p64_v1 := false; p64_b2 := quad0; p64_v2 := false;
     p64_chs := false; p64_data := 0; p64_valid := false; p64_busy := false; p64_rend := false; p64_ctr := 0; p64_end := false |}.

(* lines 118-133, 147-171: the slice filled in a FILL state *)
Definition quad_fill (p : pk_pos) (d : Z) (q : quad) : quad :=
  match p with
  | PK_IDLE => q
  | PK_F1 => {| q3 := d; q2 := q2 q; q1 := q1 q; q0 := q0 q |}
  | PK_F2 => {| q3 := q3 q; q2 := d; q1 := q1 q; q0 := q0 q |}
  | PK_F3 => {| q3 := q3 q; q2 := q2 q; q1 := d; q0 := q0 q |}
  | PK_F4 => {| q3 := q3 q; q2 := q2 q; q1 := q1 q; q0 := d |}
  end.

(* b16_b64.py:55-182.  The BUFF1 and BUFF2 halves of the FSM are the same text with 1 and 2 swapped. *)
Definition p64_step (s : p64_st) (i : pk_in) : p64_st :=
  let tx := p64_valid s && negb (pi_busy i) in                         (* out transaction, line 94 *)
  let mine_v := if p64_side s then p64_v2 s else p64_v1 s in           (* the valid flag of the side being filled *)
  let other_v := if p64_side s then p64_v1 s else p64_v2 s in
  let done := (match p64_pos s with PK_F4 => true | _ => false end) && pi_valid i in
  {| p64_side := if done then negb (p64_side s) else p64_side s;
     p64_pos := match p64_pos s with
                | PK_IDLE => if mine_v then PK_IDLE else PK_F1
                | PK_F1 => if pi_valid i then PK_F2 else PK_F1
                | PK_F2 => if pi_valid i then PK_F3 else PK_F2
                | PK_F3 => if pi_valid i then PK_F4 else PK_F3
                | PK_F4 => if pi_valid i then (if other_v then PK_IDLE else PK_F1) else PK_F4
                end;
     p64_b1 := if negb (p64_side s) && pi_valid i then quad_fill (p64_pos s) (trunc 16 (pi_data i)) (p64_b1 s) else p64_b1 s;
     p64_v1 := if done && negb (p64_side s) then true else if tx && negb (p64_chs s) then false else p64_v1 s;
     p64_b2 := if p64_side s && pi_valid i then quad_fill (p64_pos s) (trunc 16 (pi_data i)) (p64_b2 s) else p64_b2 s;
     p64_v2 := if done && p64_side s then true else if tx && p64_chs s then false else p64_v2 s;
     p64_chs := if tx then negb (p64_chs s) else p64_chs s;
     p64_data := if p64_chs s then quad_word (p64_b2 s) else quad_word (p64_b1 s);
     p64_valid := (p64_v1 s || p64_v2 s) && negb tx;
     p64_busy := match p64_pos s with
                 | PK_IDLE => if mine_v then p64_busy s else false
                 | PK_F4 => if pi_valid i && other_v then true else p64_busy s
                 | _ => p64_busy s
                 end;
     p64_rend := if pi_valid i && negb (p64_busy s) then pi_end i else p64_rend s;
     p64_ctr := if p64_rend s && tx then trunc 3 (p64_ctr s + 1) else p64_ctr s;
     p64_end := if p64_rend s && (p64_ctr s =? 7) then true else p64_end s |}.

(* the words accepted and delivered in a cycle *)
Definition p64_acc (s : p64_st) (i : pk_in) : list Z := if pi_valid i && negb (p64_busy s) then [pi_data i] else [].
Definition p64_del (s : p64_st) (i : pk_in) : list Z := if p64_valid s && negb (pi_busy i) then [p64_data s] else [].
Fixpoint p64_run (s : p64_st) (l : list pk_in) : p64_st := match l with [] => s | i :: r => p64_run (p64_step s i) r end.
Fixpoint p64_accepted (s : p64_st) (l : list pk_in) : list Z := match l with [] => [] | i :: r => p64_acc s i ++ p64_accepted (p64_step s i) r end.
Fixpoint p64_delivered (s : p64_st) (l : list pk_in) : list Z := match l with [] => [] | i :: r => p64_del s i ++ p64_delivered (p64_step s i) r end.

(* ------------------------------------------------------------------ b16_b40.py *)

(* buffer1 is assigned in its slices 24:40, 8:24, 0:8, buffer2 in 32:40, 16:32, 0:16 *)
Record tri := { t2 : Z; t1 : Z; t0 : Z }.
Definition tri0 : tri := {| t2 := 0; t1 := 0; t0 := 0 |}.
Definition tri_word1 (t : tri) : Z := t2 t * 2 ^ 24 + t1 t * 2 ^ 8 + t0 t.
Definition tri_word2 (t : tri) : Z := t2 t * 2 ^ 32 + t1 t * 2 ^ 16 + t0 t.
Inductive p40_fsm := P40_1I | P40_1F1 | P40_1F2 | P40_1F3 | P40_2I | P40_2F1 | P40_2F2.
Record p40_st := {
  p40_fsm_st : p40_fsm;
  p40_b1 : tri; p40_v1 : bool; p40_b2 : tri; p40_v2 : bool;
  p40_chs : bool; p40_temp : Z;         (* temp_8, one bit wide (line 68) *)
  p40_valid : bool; p40_busy : bool
}.
Definition p40_init : p40_st :=
  {| p40_fsm_st := P40_1I; p40_b1 := tri0; p40_v1 := false; p40_b2 := tri0; p40_v2 := false;
     p40_chs := false; p40_temp := 0; p40_valid := false; p40_busy := false |}.
(* lines 70-74: combinational *)
Definition p40_data (s : p40_st) : Z := if p40_chs s then tri_word2 (p40_b2 s) else tri_word1 (p40_b1 s).
(* b16_b40.py:47-155.  The FSM is in domain sync, the rest in domain full: this is the behaviour
   between auto resets. *)
Definition p40_step (s : p40_st) (i : pk_in) : p40_st :=
  let tx := p40_valid s && negb (pi_busy i) in
  let d := trunc 16 (pi_data i) in
  let v := pi_valid i in
  let fill1 := (match p40_fsm_st s with P40_1F3 => true | _ => false end) && v in
  let fill2 := (match p40_fsm_st s with P40_2F2 => true | _ => false end) && v in
  {| p40_fsm_st := match p40_fsm_st s with
                   | P40_1I => if p40_v1 s then P40_1I else P40_1F1
                   | P40_1F1 => if v then P40_1F2 else P40_1F1
                   | P40_1F2 => if v then P40_1F3 else P40_1F2
                   | P40_1F3 => if v then (if p40_v2 s then P40_2I else P40_2F1) else P40_1F3
                   | P40_2I => if p40_v2 s then P40_2I else P40_2F1
                   | P40_2F1 => if v then P40_2F2 else P40_2F1
                   | P40_2F2 => if v then (if p40_v1 s then P40_1I else P40_1F1) else P40_2F2
                   end;
     p40_b1 := if v then match p40_fsm_st s with
                         | P40_1F1 => {| t2 := d; t1 := t1 (p40_b1 s); t0 := t0 (p40_b1 s) |}
                         | P40_1F2 => {| t2 := t2 (p40_b1 s); t1 := d; t0 := t0 (p40_b1 s) |}
                         | P40_1F3 => {| t2 := t2 (p40_b1 s); t1 := t1 (p40_b1 s); t0 := slice 8 16 d |}
                         | _ => p40_b1 s
                         end else p40_b1 s;
     p40_v1 := if fill1 then true else if tx && negb (p40_chs s) then false else p40_v1 s;
     p40_b2 := match p40_fsm_st s with
               | P40_1F3 => if v && negb (p40_v2 s) then {| t2 := slice 0 8 d; t1 := t1 (p40_b2 s); t0 := t0 (p40_b2 s) |} else p40_b2 s
               | P40_2I => if p40_v2 s then p40_b2 s else {| t2 := p40_temp s; t1 := t1 (p40_b2 s); t0 := t0 (p40_b2 s) |}
               | P40_2F1 => if v then {| t2 := t2 (p40_b2 s); t1 := d; t0 := t0 (p40_b2 s) |} else p40_b2 s
               | P40_2F2 => if v then {| t2 := t2 (p40_b2 s); t1 := t1 (p40_b2 s); t0 := d |} else p40_b2 s
               | _ => p40_b2 s
               end;
     p40_v2 := if fill2 then true else if tx && p40_chs s then false else p40_v2 s;
     p40_chs := if tx then negb (p40_chs s) else p40_chs s;
     p40_temp := if fill1 && p40_v2 s then trunc 1 (slice 0 8 d) else p40_temp s;
     p40_valid := (p40_v1 s || p40_v2 s) && negb tx;
     p40_busy := match p40_fsm_st s with
                 | P40_1I => if p40_v1 s then p40_busy s else false
                 | P40_1F3 => if v && p40_v2 s then true else p40_busy s
                 | P40_2I => if p40_v2 s then p40_busy s else false
                 | P40_2F2 => if v && p40_v1 s then true else p40_busy s
                 | _ => p40_busy s
                 end |}.
Definition p40_acc (s : p40_st) (i : pk_in) : list Z := if pi_valid i && negb (p40_busy s) then [pi_data i] else [].
Definition p40_del (s : p40_st) (i : pk_in) : list Z := if p40_valid s && negb (pi_busy i) then [p40_data s] else [].
Fixpoint p40_run (s : p40_st) (l : list pk_in) : p40_st := match l with [] => s | i :: r => p40_run (p40_step s i) r end.
Fixpoint p40_accepted (s : p40_st) (l : list pk_in) : list Z := match l with [] => [] | i :: r => p40_acc s i ++ p40_accepted (p40_step s i) r end.
Fixpoint p40_delivered (s : p40_st) (l : list pk_in) : list Z := match l with [] => [] | i :: r => p40_del s i ++ p40_delivered (p40_step s i) r end.

(* ------------------------------------------------------------------ b64_b32_2.py *)

Record s24_st := { s24_reg : Z; s24_rv : bool; s24_half : bool; s24_data : Z; s24_valid : bool; s24_busy : bool }.
Definition s24_init : s24_st := {| s24_reg := 0; s24_rv := false; s24_half := false; s24_data := 0; s24_valid := false; s24_busy := true |}.
(* b64_b32_2.py:62-133; pi_valid, pi_data: valid_in, data_in; pi_busy: i_busy *)
Definition s24_step (s : s24_st) (i : pk_in) : s24_st :=
  let tx := negb (pi_busy i) && s24_valid s in
  let tobe_invalid := s24_rv s && tx && s24_half s in                              (* lines 99-111 *)
  let latch := pi_valid i && (negb (s24_rv s) || tobe_invalid) in                  (* line 80 *)
  let first := s24_rv s && negb (s24_valid s) && negb (s24_half s) in              (* line 91 *)
  {| s24_reg := if latch then trunc 64 (pi_data i) else s24_reg s;
     s24_rv := if tobe_invalid && negb (pi_valid i) then false else if latch then true else s24_rv s;
     s24_half := if s24_rv s && tx then negb (s24_half s) else if first then true else s24_half s;
     s24_data := if s24_rv s && tx then (if s24_half s then slice 16 40 (s24_reg s) else slice 40 64 (s24_reg s))
                 else if first then slice 40 64 (s24_reg s) else s24_data s;
     s24_valid := if negb (s24_rv s) && tx then false
                  else if s24_rv s && tx then true else if first then true else s24_valid s;
     s24_busy := negb latch |}.
(* a word is taken from the source when o_busy is low (beta_integration_fifo_axistream.py:51: tready) *)
Definition s24_acc (s : s24_st) (i : pk_in) : list Z := if pi_valid i && negb (s24_busy s) then [pi_data i] else [].
Definition s24_del (s : s24_st) (i : pk_in) : list Z := if s24_valid s && negb (pi_busy i) then [s24_data s] else [].
Fixpoint s24_run (s : s24_st) (l : list pk_in) : s24_st := match l with [] => s | i :: r => s24_run (s24_step s i) r end.
Fixpoint s24_accepted (s : s24_st) (l : list pk_in) : list Z := match l with [] => [] | i :: r => s24_acc s i ++ s24_accepted (s24_step s i) r end.
Fixpoint s24_delivered (s : s24_st) (l : list pk_in) : list Z := match l with [] => [] | i :: r => s24_del s i ++ s24_delivered (s24_step s i) r end.

(* signals.py *)
From Verif Require Import Bits.

(* signals.py:60-90 FSM states *)
Inductive sig_fsm := SIG_IDLE | SIG_LOOP | SIG_END.

(* signals.py:45-46,56-57 (temp, line 58, is never used) *)
Record sig_st := {
  sg_fsm : sig_fsm;
  sg_width : Z;          (* width_temp, 16 bits *)
  sg_height : Z;         (* height_temp, 16 bits *)
  sg_end_of_frame : bool;
  sg_new_row : bool
}.

(* reset values; signals.py:46 new_row has reset=1 *)
Definition sig_init : sig_st :=
  {| sg_fsm := SIG_IDLE; sg_width := 0; sg_height := 0;
     sg_end_of_frame := false; sg_new_row := true |}.

(* signals.py:60-93 ; ps = pixels_per_cycle; w,h the 16-bit inputs *)
Definition sig_step (ps : Z) (s : sig_st) (new_input : bool) (w h : Z) : sig_st :=
  match sg_fsm s with
  | SIG_IDLE =>
      if new_input then
        {| sg_fsm := SIG_LOOP;
           sg_width := trunc 16 (w - ps);
           sg_height := trunc 16 (h - 1);
           sg_end_of_frame := sg_end_of_frame s;
           sg_new_row := false |}
      else s
  | SIG_LOOP =>
      if new_input then
        let fin := (sg_height s =? 0) && (sg_width s =? 2 * ps) in
        let row := sg_width s =? ps in
        {| sg_fsm := if fin then SIG_END else SIG_LOOP;
           sg_width := if row then trunc 16 w else trunc 16 (sg_width s - ps);
           sg_height := if row then trunc 16 (sg_height s - 1) else sg_height s;
           sg_end_of_frame := if fin then true else sg_end_of_frame s;
           sg_new_row := row |}
      else s
  | SIG_END =>
      {| sg_fsm := SIG_END; sg_width := sg_width s; sg_height := sg_height s;
         sg_end_of_frame := true; sg_new_row := sg_new_row s |}
  end.

(* markers.py, force_end.py, auto_reset.py, register_file.py, cycle accurate *)
From Verif Require Import Bits.

(* ---------------------------------------------------------------- markers.py *)

(* markers.py:95-179, states in source order *)
Inductive mk_fsm := MK_IDLE | MK_START | MK_ENDM | MK_FENDM | MK_FRAME | MK_DONE | MK_FDONE.
Record mk_st := {
  mk_fsm_st : mk_fsm;
  mk_ctr : Z;          (* counter, 4 bits, line 61 *)
  mk_end_cond : bool   (* end_cond, lines 75-76 *)
}.
Definition mk_init : mk_st := {| mk_fsm_st := MK_IDLE; mk_ctr := 0; mk_end_cond := false |}.

Record mk_in := { mki_valid : bool; mki_data : Z; mki_end : bool; mki_force : bool; mki_busy : bool }.

(* combinational outputs: valid_out, data_out, end_out, o_busy (defaults lines 64-68, then
   the FSM, lines 95-179) *)
Record mk_out := { mko_valid : bool; mko_data : Z; mko_end : bool; mko_busy : bool }.
Definition mk_comb (s : mk_st) (i : mk_in) : mk_out :=
  match mk_fsm_st s with
  | MK_IDLE => {| mko_valid := false; mko_data := 0; mko_end := false; mko_busy := true |}
  | MK_START =>
      if negb (mki_busy i) && (mk_ctr s =? 0)
      then {| mko_valid := false; mko_data := 0; mko_end := false; mko_busy := true |}
      else {| mko_valid := true; mko_data := 0xFFFF; mko_end := false; mko_busy := true |}
  | MK_ENDM =>
      {| mko_valid := true; mko_data := 0xFFFF;
         mko_end := negb (mki_busy i) && (mk_ctr s =? 1); mko_busy := true |}
  | MK_FENDM =>
      {| mko_valid := true; mko_data := 0xFFFE;
         mko_end := negb (mki_busy i) && (mk_ctr s =? 1); mko_busy := true |}
  | MK_FRAME =>
      if mk_end_cond s then {| mko_valid := false; mko_data := 0; mko_end := false; mko_busy := true |}
      else if mki_force i then {| mko_valid := false; mko_data := 0; mko_end := false; mko_busy := true |}
      else {| mko_valid := mki_valid i; mko_data := mki_data i; mko_end := false; mko_busy := mki_busy i |}
  | MK_DONE => {| mko_valid := true; mko_data := 0xFFFF; mko_end := true; mko_busy := true |}
  | MK_FDONE => {| mko_valid := true; mko_data := 0xFFFE; mko_end := true; mko_busy := true |}
  end.

(* one clock edge, markers.py:76, 95-154 *)
Definition mk_step (s : mk_st) (i : mk_in) : mk_st :=
  let ec := negb (mki_busy i) && mki_valid i && mki_end i in      (* line 76 *)
  let mk st c := {| mk_fsm_st := st; mk_ctr := c; mk_end_cond := ec |} in
  match mk_fsm_st s with
  | MK_IDLE => mk (if mki_valid i then MK_START else MK_IDLE) 8
  | MK_START =>
      if negb (mki_busy i) then
        if mk_ctr s =? 0 then mk MK_FRAME 8 else mk MK_START (trunc 4 (mk_ctr s - 1))
      else mk MK_START (mk_ctr s)
  | MK_ENDM =>
      if negb (mki_busy i) then
        mk (if mk_ctr s =? 1 then MK_DONE else MK_ENDM) (trunc 4 (mk_ctr s - 1))
      else mk MK_ENDM (mk_ctr s)
  | MK_FENDM =>
      if negb (mki_busy i) then
        mk (if mk_ctr s =? 1 then MK_FDONE else MK_FENDM) (trunc 4 (mk_ctr s - 1))
      else mk MK_FENDM (mk_ctr s)
  | MK_FRAME =>
      mk (if mk_end_cond s then MK_ENDM else if mki_force i then MK_FENDM else MK_FRAME) (mk_ctr s)
  | MK_DONE => mk MK_DONE (mk_ctr s)
  | MK_FDONE => mk MK_FDONE (mk_ctr s)
  end.

Fixpoint mk_run (s : mk_st) (l : list mk_in) : mk_st :=
  match l with [] => s | i :: r => mk_run (mk_step s i) r end.
(* words taken in (valid_in=1, o_busy=0) *)
Fixpoint mk_accepted (s : mk_st) (l : list mk_in) : list (Z * bool) :=
  match l with
  | [] => []
  | i :: r => (if mki_valid i && negb (mko_busy (mk_comb s i)) then [(mki_data i, mki_end i)] else [])
              ++ mk_accepted (mk_step s i) r
  end.
(* words handed over (valid_out=1, i_busy=0) *)
Fixpoint mk_outs (s : mk_st) (l : list mk_in) : list (Z * bool) :=
  match l with
  | [] => []
  | i :: r => (if mko_valid (mk_comb s i) && negb (mki_busy i)
               then [(mko_data (mk_comb s i), mko_end (mk_comb s i))] else [])
              ++ mk_outs (mk_step s i) r
  end.

(* ---------------------------------------------------------------- force_end.py *)

Inductive fe_fsm := FE_IDLE | FE_COUNTING | FE_END.
Record fe_st := { fe_fsm_st : fe_fsm; fe_ctr : Z; fe_fend : bool }.   (* counter: 25 bits *)
Definition fe_init : fe_st := {| fe_fsm_st := FE_IDLE; fe_ctr := 0; fe_fend := false |}.
(* force_end.py:51-65 *)
Definition fe_step (s : fe_st) (valid : bool) (allowed : Z) : fe_st :=
  match fe_fsm_st s with
  | FE_IDLE => {| fe_fsm_st := if valid then FE_COUNTING else FE_IDLE; fe_ctr := fe_ctr s; fe_fend := fe_fend s |}
  | FE_COUNTING =>
      {| fe_fsm_st := if fe_ctr s =? allowed then FE_END else FE_COUNTING;
         fe_ctr := trunc 25 (fe_ctr s + 1); fe_fend := fe_fend s |}
  | FE_END => {| fe_fsm_st := FE_END; fe_ctr := fe_ctr s; fe_fend := true |}
  end.
Fixpoint fe_run (s : fe_st) (l : list (bool * Z)) : fe_st :=
  match l with [] => s | (v, a) :: r => fe_run (fe_step s v a) r end.

(* ---------------------------------------------------------------- auto_reset.py *)

(* auto_reset.py:54-55: reset_out is only ever set; it is cleared by the reset it causes *)
Definition ar_step (reset_out : bool) (end_in hs1 hs2 : bool) : bool :=
  (hs1 && hs2 && end_in) || reset_out.

(* ---------------------------------------------------------------- register_file.py *)

(* register_file.py:50-64; domain "full", not touched by the automatic reset *)
Record rf_st := { rf_width : Z; rf_height : Z; rf_allowed : Z }.
Definition rf_init : rf_st := {| rf_width := 0; rf_height := 0; rf_allowed := 0 |}.
Definition rf_step (_ : rf_st) : rf_st := {| rf_width := 4096; rf_height := 3072; rf_allowed := 6666000 |}.

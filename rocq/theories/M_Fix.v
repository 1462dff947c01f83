(* fix_0xff.py and fix_0xff2.py: the two byte-stuffing stages, cycle accurate *)
From Verif Require Import Bits.

(* ---------------------------------------------------------------- fix_0xff.py *)

(* fix_0xff.py:39-62 `logic`: new (data_out, data_out_ctr) for an input word.
   The registers zeros/ones (fix_0xff.py:92-95) hold 0x00/0xFF from reset on and are modelled
   as constants.  Cat() puts its first argument in the low bits. *)
Definition f1_logic (d : Z) : Z * Z :=
  if slice 0 16 d =? 0xFFFF then (0xFF00FF00, 4)
  else if slice 0 8 d =? 0xFF then (slice 8 16 d * 2 ^ 16 + 0xFF00, 3)
  else if slice 8 16 d =? 0xFF then (0xFF0000 + slice 0 8 d, 3)
  else (d, 2).

Record f1_st := {
  f1_vout : bool; f1_dout : Z; f1_ctr : Z; f1_eout : bool;  (* valid_out data_out data_out_ctr end_out *)
  f1_obusy : bool;
  f1_dreg : Z; f1_creg : Z; f1_ereg : bool;                 (* data_out_reg data_out_ctr_reg end_out_reg *)
  f1_dval : bool                                            (* data_out_valid *)
}.
Definition f1_init : f1_st :=
  {| f1_vout := false; f1_dout := 0; f1_ctr := 0; f1_eout := false; f1_obusy := false;
     f1_dreg := 0; f1_creg := 0; f1_ereg := false; f1_dval := false |}.

Record f1_in := { f1i_valid : bool; f1i_data : Z; f1i_end : bool; f1i_busy : bool }.

(* fix_0xff.py:106-143 *)
Definition f1_step (s : f1_st) (i : f1_in) : f1_st :=
  let '(ld, lc) := f1_logic (f1i_data i) in
  (* lines 141-143 *)
  let dreg := if f1_obusy s then f1_dreg s else ld in
  let creg := if f1_obusy s then f1_creg s else lc in
  let ereg := if f1_obusy s then f1_ereg s else f1i_end i in
  if negb (f1i_busy i) then
    if negb (f1_dval s) then
      {| f1_vout := f1i_valid i; f1_dout := ld; f1_ctr := lc; f1_eout := f1i_end i; f1_obusy := false;
         f1_dreg := dreg; f1_creg := creg; f1_ereg := ereg; f1_dval := false |}
    else
      {| f1_vout := true; f1_dout := f1_dreg s; f1_ctr := f1_creg s; f1_eout := f1_ereg s; f1_obusy := false;
         f1_dreg := dreg; f1_creg := creg; f1_ereg := ereg; f1_dval := false |}
  else if negb (f1_vout s) then
    {| f1_vout := f1i_valid i; f1_dout := ld; f1_ctr := lc; f1_eout := f1i_end i; f1_obusy := false;
       f1_dreg := dreg; f1_creg := creg; f1_ereg := ereg; f1_dval := false |}
  else if f1i_valid i && negb (f1_obusy s) then
    {| f1_vout := f1_vout s; f1_dout := f1_dout s; f1_ctr := f1_ctr s; f1_eout := f1_eout s;
       f1_obusy := f1i_valid i && f1_vout s;
       f1_dreg := dreg; f1_creg := creg; f1_ereg := ereg; f1_dval := f1i_valid i && f1_vout s |}
  else
    {| f1_vout := f1_vout s; f1_dout := f1_dout s; f1_ctr := f1_ctr s; f1_eout := f1_eout s;
       f1_obusy := f1_obusy s;
       f1_dreg := dreg; f1_creg := creg; f1_ereg := ereg; f1_dval := f1_dval s |}.

Fixpoint f1_run (s : f1_st) (l : list f1_in) : f1_st :=
  match l with [] => s | i :: r => f1_run (f1_step s i) r end.
(* words taken in (valid_in=1, o_busy=0), with their end flag *)
Fixpoint f1_accepted (s : f1_st) (l : list f1_in) : list (Z * bool) :=
  match l with
  | [] => []
  | i :: r => (if f1i_valid i && negb (f1_obusy s) then [(f1i_data i, f1i_end i)] else [])
              ++ f1_accepted (f1_step s i) r
  end.
(* words handed over (valid_out=1, i_busy=0): data, byte count, end flag *)
Fixpoint f1_outs (s : f1_st) (l : list f1_in) : list (Z * Z * bool) :=
  match l with
  | [] => []
  | i :: r => (if f1_vout s && negb (f1i_busy i) then [(f1_dout s, f1_ctr s, f1_eout s)] else [])
              ++ f1_outs (f1_step s i) r
  end.

(* ---------------------------------------------------------------- fix_0xff2.py *)

Inductive f2_fsm := F2_NORMAL | F2_CLEAN | F2_PRE_END | F2_END.

Record f2_st := {
  f2_fsm_st : f2_fsm;
  f2_buf : Z;            (* buffer_data, 24 bits *)
  f2_cnt : Z;            (* buffer_count, 2 bits *)
  f2_dout : Z; f2_vout : bool; f2_eout : bool; f2_obusy : bool;
  f2_dreg : Z; f2_ereg : bool; f2_dval : bool;   (* data_out_reg, end_out_reg, data_out_valid *)
  f2_endr : bool         (* end_reg *)
}.
Definition f2_init : f2_st :=
  {| f2_fsm_st := F2_NORMAL; f2_buf := 0; f2_cnt := 0; f2_dout := 0; f2_vout := false; f2_eout := false;
     f2_obusy := false; f2_dreg := 0; f2_ereg := false; f2_dval := false; f2_endr := false |}.

Record f2_in := { f2i_valid : bool; f2i_data : Z; f2i_ctr : Z; f2i_end : bool; f2i_busy : bool }.

(* The assignments made by normal_logic (fix_0xff2.py:38-111): value for its data_out
   argument, new buffer, whether end_out / o_busy / end_reg are set to 1, next state. *)
Record nl_res := {
  nl_data : option Z; nl_buf : option Z; nl_cnt : option Z;
  nl_end : bool; nl_busy : bool; nl_endr : bool; nl_next : option f2_fsm
}.
Definition nl_none : nl_res :=
  {| nl_data := None; nl_buf := None; nl_cnt := None; nl_end := false; nl_busy := false;
     nl_endr := false; nl_next := None |}.
(* fix_0xff2.py:40-96: the Switch *)
Definition nl_switch (cnt buf d n : Z) : nl_res :=
  let mk dd bb cc cl := {| nl_data := Some dd; nl_buf := bb; nl_cnt := cc; nl_end := false; nl_busy := cl;
                           nl_endr := false; nl_next := if cl : bool then Some F2_CLEAN else None |} in
  if cnt =? 0 then
    if n =? 2 then mk (slice 0 16 d) None None false
    else if n =? 3 then mk (slice 8 24 d) (Some (slice 0 8 d)) (Some 1) false
    else if n =? 4 then mk (slice 16 32 d) (Some (slice 0 16 d)) (Some 2) true
    else nl_none
  else if cnt =? 1 then
    if n =? 2 then mk (slice 0 8 buf * 2 ^ 8 + slice 8 16 d) (Some (slice 0 8 d)) (Some 1) false
    else if n =? 3 then mk (slice 0 8 buf * 2 ^ 8 + slice 16 24 d) (Some (slice 0 16 d)) (Some 2) true
    else if n =? 4 then mk (slice 0 8 buf * 2 ^ 8 + slice 24 32 d) (Some (slice 0 24 d)) (Some 3) true
    else nl_none
  else nl_none.
(* fix_0xff2.py:39 and 101-111 *)
Definition normal_logic (s : f2_st) (i : f2_in) : nl_res :=
  if f2i_valid i then
    let r := nl_switch (f2_cnt s) (f2_buf s) (f2i_data i) (f2i_ctr i) in
    if f2i_end i then
      if (f2_cnt s =? 0) && (f2i_ctr i =? 2) then
        {| nl_data := nl_data r; nl_buf := nl_buf r; nl_cnt := nl_cnt r; nl_end := true;
           nl_busy := nl_busy r; nl_endr := nl_endr r; nl_next := Some F2_PRE_END |}
      else
        {| nl_data := nl_data r; nl_buf := nl_buf r; nl_cnt := nl_cnt r; nl_end := nl_end r;
           nl_busy := true; nl_endr := true; nl_next := Some F2_CLEAN |}
    else r
  else nl_none.

Definition oget {A} (o : option A) (d : A) : A := match o with Some x => x | None => d end.

(* state NORMAL, fix_0xff2.py:183-215.  `direct` tells whether the first call of normal_logic
   (targets data_out, end_out) is executed; the second call (targets data_out_reg,
   end_out_reg, line 215) is executed when o_busy=0.  Both make the same assignments to the
   buffer, end_reg and the FSM; of the assignments to o_busy the last one wins. *)
Definition f2_normal (s : f2_st) (i : f2_in) : f2_st :=
  let r := normal_logic s i in
  let second := negb (f2_obusy s) in
  let first := (negb (f2i_busy i) && negb (f2_dval s)) || (f2i_busy i && negb (f2_vout s)) in
  let called := first || second in
  (* lines 184-212 *)
  let '(vout, dout, eout, obusy, dval) :=
    if negb (f2i_busy i) then
      if negb (f2_dval s) then
        (f2i_valid i, oget (nl_data r) (f2_dout s), nl_end r || f2_eout s, false, false)
      else (true, f2_dreg s, f2_ereg s, false, false)
    else if negb (f2_vout s) then
      (f2i_valid i, oget (nl_data r) (f2_dout s), nl_end r || f2_eout s, nl_busy r, false)
    else if f2i_valid i && negb (f2_obusy s) then
      (f2_vout s, f2_dout s, f2_eout s, f2i_valid i && f2_vout s, f2i_valid i && f2_vout s)
    else (f2_vout s, f2_dout s, f2_eout s, f2_obusy s, f2_dval s) in
  {| f2_fsm_st := if called then oget (nl_next r) F2_NORMAL else F2_NORMAL;
     f2_buf := if called then oget (nl_buf r) (f2_buf s) else f2_buf s;
     f2_cnt := if called then oget (nl_cnt r) (f2_cnt s) else f2_cnt s;
     f2_dout := dout; f2_vout := vout; f2_eout := eout;
     f2_obusy := if second && nl_busy r then true else obusy;
     f2_dreg := if second then oget (nl_data r) (f2_dreg s) else f2_dreg s;
     f2_ereg := if second then nl_end r || f2_ereg s else f2_ereg s;
     f2_dval := dval;
     f2_endr := if called then nl_endr r || f2_endr s else f2_endr s |}.

(* state CLEAN with i_busy=0 and data_out_valid=0: clean_logic (fix_0xff2.py:117-142) and
   lines 218-224 *)
Definition f2_clean (s : f2_st) : f2_st :=
  let dout := if f2_cnt s =? 1 then slice 0 8 (f2_buf s) * 2 ^ 8
              else if f2_cnt s =? 2 then slice 0 16 (f2_buf s)
              else if f2_cnt s =? 3 then slice 8 24 (f2_buf s) else f2_dout s in
  let buf := if f2_cnt s =? 3 then slice 0 8 (f2_buf s) else f2_buf s in
  let cnt := if f2_cnt s =? 1 then 0 else if f2_cnt s =? 2 then 0
             else if f2_cnt s =? 3 then 1 else f2_cnt s in
  let fin := f2_endr s && (f2_cnt s <=? 2) in
  {| f2_fsm_st := if f2_endr s then (if f2_cnt s <=? 2 then F2_END else F2_CLEAN) else F2_NORMAL;
     f2_buf := buf; f2_cnt := cnt; f2_dout := dout; f2_vout := true;
     f2_eout := fin || f2_eout s;
     f2_obusy := if f2_endr s then f2_obusy s else false;
     f2_dreg := f2_dreg s; f2_ereg := f2_ereg s; f2_dval := f2_dval s; f2_endr := f2_endr s |}.

(* fix_0xff2.py:225-231 (data_out_valid=1 in CLEAN) and 233-241 (PRE_END); upd gives the new
   end_out, data_out_valid and state *)
Definition f2_drain (s : f2_st) (e dv : bool) (st : f2_fsm) : f2_st :=
  {| f2_fsm_st := st; f2_buf := f2_buf s; f2_cnt := f2_cnt s; f2_dout := f2_dreg s; f2_vout := true;
     f2_eout := e; f2_obusy := f2_obusy s; f2_dreg := f2_dreg s; f2_ereg := f2_ereg s; f2_dval := dv;
     f2_endr := f2_endr s |}.
Definition f2_goto (s : f2_st) (st : f2_fsm) : f2_st :=
  {| f2_fsm_st := st; f2_buf := f2_buf s; f2_cnt := f2_cnt s; f2_dout := f2_dout s; f2_vout := f2_vout s;
     f2_eout := f2_eout s; f2_obusy := f2_obusy s; f2_dreg := f2_dreg s; f2_ereg := f2_ereg s;
     f2_dval := f2_dval s; f2_endr := f2_endr s |}.

(* fix_0xff2.py:182-244 *)
Definition f2_step (s : f2_st) (i : f2_in) : f2_st :=
  match f2_fsm_st s with
  | F2_NORMAL => f2_normal s i
  | F2_CLEAN =>
      if negb (f2i_busy i) then
        if negb (f2_dval s) then f2_clean s else f2_drain s (f2_ereg s) false F2_CLEAN
      else s
  | F2_PRE_END =>
      if negb (f2i_busy i) then
        if f2_dval s then f2_drain s true (f2_dval s) F2_END else f2_goto s F2_END
      else s
  | F2_END => s
  end.

Fixpoint f2_run (s : f2_st) (l : list f2_in) : f2_st :=
  match l with [] => s | i :: r => f2_run (f2_step s i) r end.
(* words taken in (valid_in=1, o_busy=0): data, byte count, end flag *)
Fixpoint f2_accepted (s : f2_st) (l : list f2_in) : list (Z * Z * bool) :=
  match l with
  | [] => []
  | i :: r => (if f2i_valid i && negb (f2_obusy s) then [(f2i_data i, f2i_ctr i, f2i_end i)] else [])
              ++ f2_accepted (f2_step s i) r
  end.
(* words handed over (valid_out=1, i_busy=0), with their end flag *)
Fixpoint f2_outs (s : f2_st) (l : list f2_in) : list (Z * bool) :=
  match l with
  | [] => []
  | i :: r => (if f2_vout s && negb (f2i_busy i) then [(f2_dout s, f2_eout s)] else [])
              ++ f2_outs (f2_step s i) r
  end.

(* ---------------------------------------------------------------- both stages *)

(* beta_integration.py:119-133: fix_0xff feeds fix_0xff2 *)
Record fx_in := { fxi_valid : bool; fxi_data : Z; fxi_end : bool; fxi_busy : bool }.
Definition fx_in1 (s : f1_st * f2_st) (i : fx_in) : f1_in :=
  {| f1i_valid := fxi_valid i; f1i_data := fxi_data i; f1i_end := fxi_end i; f1i_busy := f2_obusy (snd s) |}.
Definition fx_in2 (s : f1_st * f2_st) (i : fx_in) : f2_in :=
  {| f2i_valid := f1_vout (fst s); f2i_data := f1_dout (fst s); f2i_ctr := f1_ctr (fst s);
     f2i_end := f1_eout (fst s); f2i_busy := fxi_busy i |}.
Definition fx_step (s : f1_st * f2_st) (i : fx_in) : f1_st * f2_st :=
  (f1_step (fst s) (fx_in1 s i), f2_step (snd s) (fx_in2 s i)).
Definition fx_init : f1_st * f2_st := (f1_init, f2_init).
Fixpoint fx_run (s : f1_st * f2_st) (l : list fx_in) : f1_st * f2_st :=
  match l with [] => s | i :: r => fx_run (fx_step s i) r end.
Fixpoint fx_accepted (s : f1_st * f2_st) (l : list fx_in) : list (Z * bool) :=
  match l with
  | [] => []
  | i :: r => (if fxi_valid i && negb (f1_obusy (fst s)) then [(fxi_data i, fxi_end i)] else [])
              ++ fx_accepted (fx_step s i) r
  end.
Fixpoint fx_outs (s : f1_st * f2_st) (l : list fx_in) : list (Z * bool) :=
  match l with
  | [] => []
  | i :: r => (if f2_vout (snd s) && negb (fxi_busy i) then [(f2_dout (snd s), f2_eout (snd s))] else [])
              ++ fx_outs (fx_step s i) r
  end.

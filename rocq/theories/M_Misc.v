(* Small stand-alone modules: delayer.py, reverser.py, debug_module.py (with the counters' wiring in
   beta_integration.py) and constraints.py. *)
From Verif Require Import Bits Spec.
Ltac Zify.zify_post_hook ::= idtac.

(* ---------- delayer.py ---------- *)

(* delayer.py:8-32.  timer has ceil(log2(delay_stages)) bits; ceil(math.log(d, 2.0)) is computed in
   floating point and may be one more than the exact value, so the width w is a parameter and the
   theorems hold for every w with d <= 2^w *)
Record dly_st := { dy_timer : Z; dy_start : bool; dy_out : bool }.
Definition dly_init (w d : Z) : dly_st := {| dy_timer := trunc w (d - 2); dy_start := false; dy_out := false |}.
Definition dly_step (w : Z) (s : dly_st) (in_sig : bool) : dly_st :=
  {| (* delayer.py:25-26 *)
     dy_timer := if dy_start s then trunc w (dy_timer s - 1) else dy_timer s;
     (* delayer.py:22-23 *)
     dy_start := in_sig || dy_start s;
     (* delayer.py:28-29 *)
     dy_out := (dy_timer s =? 0) || dy_out s |}.
(* the state in cycle n when the input in cycle t is i t *)
Fixpoint dly_at (w d : Z) (i : nat -> bool) (n : nat) : dly_st :=
  match n with O => dly_init w d | S k => dly_step w (dly_at w d i k) (i k) end.

(* ---------- reverser.py ---------- *)

(* reverser.py:45-53: bit num_bits-1-i of the output is bit i of the input *)
Definition rev_comb (n : nat) (x : Z) : Z :=
  fold_right (fun i acc => acc + b2z (Z.testbit x (Z.of_nat i)) * 2 ^ (Z.of_nat n - 1 - Z.of_nat i)) 0 (seq 0 n).
(* sync=True: data_out is a register *)
Definition rev_sync_step (n : nat) (_ : Z) (data_in : Z) : Z := rev_comb n data_in.

(* ---------- debug_module.py ---------- *)

(* debug_module.py:50-52, domain "full" (never reset between frames) *)
Fixpoint dbg_step (k : Z) (regs : list Z) (en : Z) : list Z :=
  match regs with
  | [] => []
  | r :: rest => (if Z.testbit en k then trunc 32 (r + 1) else r) :: dbg_step (k + 1) rest en
  end.
Definition dbg_regs_init : list Z := [0; 0; 0; 0; 0; 0; 0; 0].

(* beta_integration.py:79-92: what is counted.  trans_started, debug_en and core_axi_lite.debug_en
   are registers of domain "sync", which rst resets. *)
Record db_in := { di_rst : bool; di_valid_in : bool; di_end_out : bool; di_valid_out : bool; di_nready : bool; di_busy_in : bool }.
Record db_st := { ds_started : bool; ds_en1 : Z; ds_en2 : Z; ds_regs : list Z }.
Definition db_init : db_st := {| ds_started := false; ds_en1 := 0; ds_en2 := 0; ds_regs := dbg_regs_init |}.
Definition db_en (started : bool) (i : db_in) : Z :=
  let on b := b2z (started && negb (di_end_out i) && b) in
  on (negb (di_valid_in i)) + on (di_valid_in i) * 2 + on (negb (di_valid_out i)) * 4 + on (di_valid_out i) * 8
  + on (di_nready i) * 16 + on (negb (di_nready i)) * 32 + on (di_busy_in i) * 64 + on (negb (di_busy_in i)) * 128.
Definition db_step (s : db_st) (i : db_in) : db_st :=
  {| ds_started := if di_rst i then false else ds_started s || di_valid_in i;
     ds_en1 := if di_rst i then 0 else db_en (ds_started s) i;
     ds_en2 := if di_rst i then 0 else ds_en1 s;
     ds_regs := dbg_step 0 (ds_regs s) (ds_en2 s) |}.
Fixpoint db_run (s : db_st) (l : list db_in) : db_st :=
  match l with [] => s | i :: r => db_run (db_step s i) r end.

(* ---------- constraints.py ---------- *)

(* A bound is [component, value].  Components are named by integers here: 0 is "Default". *)
Record cons := {
  cn_hmin : Z * Z; cn_wmin : Z * Z; cn_bmin : Z * Z;
  cn_hmax : Z * Z; cn_wmax : Z * Z; cn_bmax : Z * Z;
  cn_hmul : Z * Z; cn_wmul : Z * Z
}.
(* constraints.py:5-16 *)
Definition cons_init : cons :=
  {| cn_hmin := (0, 1); cn_wmin := (0, 1); cn_bmin := (0, 2);
     cn_hmax := (0, 65535); cn_wmax := (0, 65535); cn_bmax := (0, 16);
     cn_hmul := (0, 1); cn_wmul := (0, 1) |}.
Definition up (b : Z * Z) (v c : Z) : Z * Z := if snd b <? v then (c, v) else b.
Definition down (b : Z * Z) (v c : Z) : Z * Z := if v <? snd b then (c, v) else b.
Inductive upd := U_height (v c : Z) | U_width (v c : Z) | U_depth (v c : Z) | U_hmul (v c : Z) | U_wmul (v c : Z).
(* constraints.py:19-56 *)
Definition cons_upd (k : cons) (u : upd) : cons :=
  match u with
  | U_height v c => {| cn_hmin := up (cn_hmin k) v c; cn_hmax := down (cn_hmax k) v c;
      cn_wmin := cn_wmin k; cn_bmin := cn_bmin k; cn_wmax := cn_wmax k; cn_bmax := cn_bmax k; cn_hmul := cn_hmul k; cn_wmul := cn_wmul k |}
  | U_width v c => {| cn_wmin := up (cn_wmin k) v c; cn_wmax := down (cn_wmax k) v c;
      cn_hmin := cn_hmin k; cn_bmin := cn_bmin k; cn_hmax := cn_hmax k; cn_bmax := cn_bmax k; cn_hmul := cn_hmul k; cn_wmul := cn_wmul k |}
  | U_depth v c => {| cn_bmin := up (cn_bmin k) v c; cn_bmax := down (cn_bmax k) v c;
      cn_hmin := cn_hmin k; cn_wmin := cn_wmin k; cn_hmax := cn_hmax k; cn_wmax := cn_wmax k; cn_hmul := cn_hmul k; cn_wmul := cn_wmul k |}
  | U_hmul v c => {| cn_hmul := up (cn_hmul k) v c;
      cn_hmin := cn_hmin k; cn_wmin := cn_wmin k; cn_bmin := cn_bmin k; cn_hmax := cn_hmax k; cn_wmax := cn_wmax k; cn_bmax := cn_bmax k; cn_wmul := cn_wmul k |}
  | U_wmul v c => {| cn_wmul := up (cn_wmul k) v c;
      cn_hmin := cn_hmin k; cn_wmin := cn_wmin k; cn_bmin := cn_bmin k; cn_hmax := cn_hmax k; cn_wmax := cn_wmax k; cn_bmax := cn_bmax k; cn_hmul := cn_hmul k |}
  end.
Definition cons_run (k : cons) (l : list upd) : cons := fold_left cons_upd l k.
(* predictor_p1_c4_pix1_2.py:55-56, predictor_p1_c4_px4.py:59-60: what building a predictor does *)
Definition predictor_updates (ps comp : Z) : list upd := [U_width ps comp; U_wmul ps comp].

(* software/src/core_axi_lite.cpp: the Linux driver of the core's registers.
   The mmap'ed registers are 32-bit words: mem[off] is the word at byte address base + 4*off, and a
   store writes all four bytes (strobes 15).  Simplified: volatile accesses are executed in program
   order, one at a time; the bus response is not seen by the program. *)
From Verif Require Import Bits Spec.
Ltac Zify.zify_post_hook ::= idtac.

(* a program that accesses registers: return / load word off / store word off *)
Inductive prog (A : Type) :=
  | Ret (a : A)
  | Load (off : Z) (k : Z -> prog A)
  | Store (off v : Z) (k : prog A).
Arguments Ret {A}. Arguments Load {A}. Arguments Store {A}.
Fixpoint bind {A B} (p : prog A) (f : A -> prog B) : prog B :=
  match p with
  | Ret a => f a
  | Load off k => Load off (fun v => bind (k v) f)
  | Store off v k => Store off v (bind k f)
  end.

(* core_axi_lite.h:7-9 *)
Definition SSSS_OFFSET := 0x400.
Definition HW_OFFSET := 0x800.
Definition DEBUG_OFFSET := 0x1000.

(* core_axi_lite.cpp:17-31; uint16_t results keep 16 bits *)
Definition get_height : prog Z := Load HW_OFFSET (fun v => Ret (trunc 16 (Z.land v (2 ^ 16 - 1)))).
Definition get_width : prog Z := Load HW_OFFSET (fun v => Ret (trunc 16 (Z.shiftr v 16))).
Definition get_allowed_cycles : prog Z := Load (HW_OFFSET + 1) (fun v => Ret v).
(* core_axi_lite.cpp:83-98 *)
Definition set_height (nheight : Z) : prog unit :=
  bind get_width (fun width => Store HW_OFFSET (Z.lor (trunc 32 (Z.shiftl width 16)) nheight) (Ret tt)).
Definition set_width (nwidth : Z) : prog unit :=
  bind get_height (fun height => Store HW_OFFSET (Z.lor (trunc 32 (Z.shiftl nwidth 16)) height) (Ret tt)).
Definition set_allowed_cycles (n : Z) : prog unit := Store (HW_OFFSET + 1) n (Ret tt).

(* core_axi_lite.cpp:34-45: the loop over i < 2*bit_depth, two steps at a time *)
Fixpoint get_codes (n : nat) (i : Z) : prog (list Z) :=
  match n with
  | O => Ret []
  | S n => Load (SSSS_OFFSET + 2 * i) (fun lo => Load (SSSS_OFFSET + 2 * i + 1) (fun hi =>
             bind (get_codes n (i + 1)) (fun r => Ret (Z.lor (Z.shiftl hi 32) lo :: r))))
  end.
(* core_axi_lite.cpp:47-58: (i, ssss_code, code_length) *)
Definition ssss_info (bd i code : Z) : Z * Z * Z :=
  let code_length := trunc 32 (Z.shiftr code (16 + bd)) in
  let mask := 2 ^ code_length - 1 in
  (i, trunc 32 (if i =? 16 then Z.land code mask else Z.land (Z.shiftr code i) mask), code_length).
Fixpoint ssss_infos (bd i : Z) (l : list Z) : list (Z * Z * Z) :=
  match l with [] => [] | c :: r => ssss_info bd i c :: ssss_infos bd (i + 1) r end.
Definition get_ssss_list (bd : Z) : prog (list (Z * Z * Z)) :=
  bind (get_codes (Z.to_nat bd) 0) (fun codes => Ret (ssss_infos bd 0 codes)).

(* core_axi_lite.cpp:62-80: the eight counters *)
Fixpoint get_debug_from (n : nat) (i : Z) : prog (list Z) :=
  match n with
  | O => Ret []
  | S n => Load (DEBUG_OFFSET + i) (fun v => bind (get_debug_from n (i + 1)) (fun r => Ret (v :: r)))
  end.
Definition get_debug : prog (list Z) := get_debug_from 8 0.

(* xilinx_test.cpp:82-91: configuring the core before a frame, with read-back *)
Definition configure (w h n : Z) : prog (Z * Z * Z) :=
  bind (set_width w) (fun _ => bind (set_height h) (fun _ =>
  bind get_width (fun w' => bind get_height (fun h' =>
  bind (set_allowed_cycles n) (fun _ => bind get_allowed_cycles (fun n' => Ret (w', h', n'))))))).

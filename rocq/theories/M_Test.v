(* software/src/xilinx_test.cpp: the checks the test program makes on the memory the DMA wrote, and
   software/src/xilinx_dma.cpp: the driver of the Xilinx DMA.
   Memory is a function from byte addresses (relative to a buffer) to bytes; the ARM is
   little-endian, and unaligned loads are allowed.  Simplified: printing (log, mem_dump) is
   represented by the value a check returns; loops get the number of iterations they can make at
   most as fuel. *)
From Verif Require Import Bits Spec M_Driver.
Ltac Zify.zify_post_hook ::= idtac.

Definition memory := Z -> Z.
(* loads of a uint16_t, uint32_t at a byte address; a store of a uint16_t *)
Definition ld16 (m : memory) (a : Z) : Z := m a + 256 * m (a + 1).
Definition ld32 (m : memory) (a : Z) : Z := m a + 256 * m (a + 1) + 65536 * m (a + 2) + 16777216 * m (a + 3).
Definition st8 (m : memory) (a v : Z) : memory := fun x => if x =? a then v mod 256 else m x.
Definition st16 (m : memory) (a v : Z) : memory := st8 (st8 m a v) (a + 1) (v / 256).
Definition st32 (m : memory) (a v : Z) : memory := st16 (st16 m a v) (a + 2) (v / 65536).
(* gcc builtins *)
Definition bswap16 (v : Z) : Z := (v mod 256) * 256 + v / 256.
Definition bswap32 (v : Z) : Z := bswap16 (v mod 65536) * 65536 + bswap16 (v / 65536).

(* divisible_4, divisible_2, xilinx_test.cpp:226-240: uint32_t arithmetic *)
Fixpoint div_loop (fuel : nat) (k num : Z) : Z :=
  match fuel with
  | O => num
  | S f => if num mod k =? 0 then num else div_loop f k (trunc 32 (num + 1))
  end.
Definition divisible_4 (num : Z) : Z := div_loop 4 4 num.
Definition divisible_2 (num : Z) : Z := div_loop 2 2 num.

(* the comparison of an int with a uint32_t: the int is converted to uint32_t *)
Definition lt_u (i n : Z) : bool := i mod 2 ^ 32 <? n.

(* re_order_lj92, xilinx_test.cpp:209-216 *)
Fixpoint reorder_loop (fuel : nat) (len2 i : Z) (m : memory) : memory :=
  match fuel with
  | O => m
  | S f => if lt_u i len2 then reorder_loop f len2 (i + 2) (st16 m (2 * (i / 2)) (bswap16 (ld16 m (2 * (i / 2))))) else m
  end.
Definition re_order_lj92 (m : memory) (length : Z) : memory :=
  let len2 := divisible_2 length in reorder_loop (Z.to_nat len2) len2 0 m.

(* zero_dest, xilinx_test.cpp:218-224 *)
Fixpoint zero_loop (fuel : nat) (i : Z) (m : memory) : memory :=
  match fuel with
  | O => m
  | S f => if i <? 0x800000 then zero_loop f (i + 1) (st32 m (4 * i) 0) else m
  end.
Definition zero_dest (m : memory) : memory := zero_loop (Z.to_nat 0x800000) 0 m.

(* check_first_marker, xilinx_test.cpp:242-255: is "marker found." printed? *)
Fixpoint first_loop (fuel : nat) (i : Z) (m : memory) : bool :=
  match fuel with
  | O => true
  | S f => if ld32 m (4 * i) =? 0xFFFFFFFF then first_loop f (i + 1) m else false
  end.
Definition check_first_marker (m : memory) : bool := first_loop 4 0 m.

(* check_last_marker, xilinx_test.cpp:257-283 *)
Inductive last_msg := NoMarker | NormalMarker (offset : Z) | ForceMarker (offset : Z).
Definition is_mark (v : Z) : bool := (v =? 0xFFFFFFFF) || (v =? bswap32 0xFFFEFFFE).
Fixpoint scan_loop (fuel : nat) (m : memory) (offset : Z) : Z :=
  match fuel with
  | O => offset
  | S f => if is_mark (ld32 m offset) then offset else scan_loop f m (offset + 1)
  end.
Fixpoint last_loop (fuel : nat) (i : Z) (m : memory) (start : Z) : bool :=
  match fuel with
  | O => true
  | S f => if negb (is_mark (ld32 m (start + 4 * i))) then false else last_loop f (i + 1) m start
  end.
Definition check_last_marker (m : memory) (size : Z) : last_msg :=
  let offset := scan_loop 128 m (size + 16) in
  if last_loop 4 0 m offset then
    if ld32 m offset =? 0xFFFFFFFF then NormalMarker (offset - size - 16) else ForceMarker (offset - size - 16)
  else NoMarker.

(* validate, xilinx_test.cpp:285-326; the loop variables are int, the length is uint32_t *)
Inductive val_msg := Succeeded | FailedWord (i : Z) | FailedByte (i : Z).
Fixpoint val_words (fuel : nat) (core lj : memory) (length i : Z) : option Z :=
  match fuel with
  | O => None
  | S f => if lt_u i (length / 4) then
             if ld32 core (4 * i) =? ld32 lj (4 * i) then val_words f core lj length (i + 1) else Some i
           else None
  end.
Fixpoint val_bytes (fuel : nat) (core lj : memory) (length i : Z) : option Z :=
  match fuel with
  | O => None
  | S f => if lt_u i length then
             if core i =? lj i then val_bytes f core lj length (i + 1) else Some i
           else None
  end.
Definition validate (dest lj : memory) (length : Z) : val_msg :=
  let core := fun a => dest (a + 16) in
  match val_words (Z.to_nat (length / 4)) core lj length 0 with
  | Some i => FailedWord i
  | None => match val_bytes 10 core lj length (length - 10) with
            | Some i => FailedByte i
            | None => Succeeded
            end
  end.

(* load_file, tools.cpp:30-43: the file, followed by 128 zero bytes (0 beyond them, too) *)
Definition load_file (file : list Z) : memory := fun a => if a <? 0 then 0 else nth (Z.to_nat a) file 0.

(* ---------- xilinx_dma.cpp ---------- *)

(* xilinx_dma.h:7-15; mem[offset>>2], xilinx_dma.cpp:107-115 *)
Definition MM2S_CONTROL := 0x00. Definition MM2S_STATUS := 0x04. Definition MM2S_START := 0x18. Definition MM2S_LENGTH := 0x28.
Definition S2MM_CONTROL := 0x30. Definition S2MM_STATUS := 0x34. Definition S2MM_DEST := 0x48. Definition S2MM_LENGTH := 0x58.
Definition dma_set (offset value : Z) (k : prog unit) : prog unit := Store (Z.shiftr offset 2) value k.
Definition reset_dma : prog unit := dma_set S2MM_CONTROL 4 (dma_set MM2S_CONTROL 4 (Ret tt)).                   (* 35-39 *)
Definition halt_dma : prog unit := dma_set S2MM_CONTROL 0 (dma_set MM2S_CONTROL 0 (Ret tt)).                    (* 41-45 *)
Definition set_dma_src_dist (src dist : Z) : prog unit := dma_set S2MM_DEST dist (dma_set MM2S_START src (Ret tt)).  (* 47-51 *)
Definition start_dma : prog unit := dma_set S2MM_CONTROL 0xf001 (dma_set MM2S_CONTROL 0xf001 (Ret tt)).         (* 53-57 *)
Definition set_dma_transfer_len (s2mm mm2s : Z) : prog unit := dma_set S2MM_LENGTH s2mm (dma_set MM2S_LENGTH mm2s (Ret tt)). (* 59-63 *)
(* __dma_sync, xilinx_dma.cpp:65-72: polls until the status has IOC_Irq (bit 12) and idle (bit 1);
   n polls at most here, the result tells whether the loop was left *)
Definition sync_more (status : Z) : bool := negb (Z.testbit status 12) || negb (Z.testbit status 1).
Fixpoint dma_sync (n : nat) (reg : Z) : prog bool :=
  Load (Z.shiftr reg 2) (fun status =>
    if sync_more status then match n with O => Ret false | S n => dma_sync n reg end else Ret true).
(* xilinx_test.cpp:109-127: programming the DMA for a frame (the status printing reads registers only and is left out) *)
Definition SOURCE_BASE := 0x10000000. Definition DEST_BASE := 0x12000000. (* config.h:5-6 *)
Definition program_dma (lj_length : Z) : prog unit :=
  bind reset_dma (fun _ => bind halt_dma (fun _ => bind (set_dma_src_dist SOURCE_BASE DEST_BASE) (fun _ =>
  bind start_dma (fun _ => set_dma_transfer_len (divisible_4 (trunc 32 (lj_length + 1024))) (4096 * 3072 * 2))))).

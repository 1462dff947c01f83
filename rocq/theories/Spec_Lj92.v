(* SPECIFICATION: a lossless JPEG file with one scan of four components and predictor 1 (ITU-T T.81, Annex B), as in
   test_files/*_pure.lj92. *)
From Verif Require Import Bits Spec.

(* big-endian 16-bit field *)
Definition be16 (x : Z) : list Z := [x / 256; x mod 256].
(* BITS (number of codes of length 1..16) and HUFFVAL of a DHT segment *)
Definition dht (bits : list nat) (vals : list Z) : list Z :=
  [255; 0xc4] ++ be16 (19 + len vals) ++ [0] ++ map Z.of_nat bits ++ vals.
Definition sof3 (bd x y : Z) : list Z :=
  [255; 0xc3] ++ be16 20 ++ [bd] ++ be16 y ++ be16 x ++ [4; 0; 0x11; 0; 1; 0x11; 0; 2; 0x11; 0; 3; 0x11; 0].
Definition sos : list Z := [255; 0xda] ++ be16 14 ++ [4; 0; 0; 1; 0; 2; 0; 3; 0; 1; 0; 0].
(* x: columns per component *)
Definition lj_header (bits : list nat) (vals : list Z) (bd x y : Z) : list Z := [255; 0xd8] ++ dht bits vals ++ sof3 bd x y ++ sos.
Definition lj_file (bits : list nat) (vals : list Z) (bd x y : Z) (scan : list Z) : list Z := lj_header bits vals bd x y ++ scan ++ [255; 0xd9].

(* a usable Huffman specification: 16 counts obeying the Kraft inequality, one value per code, at least one code *)
Definition dht_ok (bits : list nat) (vals : list Z) : Prop :=
  length bits = 16%nat /\ length vals = list_sum bits /\ vals <> [] /\ Forall (fun v => 0 <= v <= 16) vals /\
  fold_left (fun a n => 2 * a + Z.of_nat n) bits 0 <= 2 ^ 16.
(* the code table it describes: t has, for each category it lists, the Annex C code *)
Definition described_by (t : table) (bits : list nat) (vals : list Z) : Prop :=
  forall s e, nth_error t s = Some e -> In (Z.of_nat s) vals /\ e = lookup (Z.of_nat s) vals (annexC bits 1 0).

(* the memory holds the bytes l from index a on *)
Definition holds (d : Z -> Z) (a : Z) (l : list Z) : Prop := forall k, (k < length l)%nat -> d (a + Z.of_nat k) = nth k l 0.

(* no difference of the samples px (after img) is of class 16 *)
Fixpoint no_class16 (bd W : Z) (img px : list Z) : Prop :=
  match px with
  | [] => True
  | p :: r => Z.abs (p - prediction bd W img (Z.of_nat (length img))) < 2 ^ 15 /\ no_class16 bd W (img ++ [p]) r
  end.

(* SPECIFICATION: lossless JPEG (ITU-T T.81) with one component and predictor 6, as written and read by liblj92. *)
From Verif Require Import Bits Spec Spec_Lj92.

(* the code words of a Huffman specification: (category, (length, code)), Annex C; categories without a code are absent *)
Definition book := list (Z * (Z * Z)).
Definition book_of (bits : list nat) (vals : list Z) : book := combine vals (annexC bits 1 0).
Fixpoint find_code (bk : book) (s : Z) : list bool :=
  match bk with [] => [] | (c, (l, code)) :: r => if c =? s then bitsz l code else find_code r s end.
Fixpoint read_code (bk : book) (l : list bool) : option (Z * list bool) :=
  match bk with
  | [] => None
  | (c, (n, code)) :: r => match strip_prefix (bitsz n code) l with Some rest => Some (c, rest) | None => read_code r l end
  end.
Definition write_diff (bk : book) (d : Z) : list bool := find_code bk (category d) ++ extra_bits d.
Definition read_diff (bk : book) (l : list bool) : option (Z * list bool) :=
  match read_code bk l with
  | None => None
  | Some (s, rest) =>
      if s =? 0 then Some (0, rest)
      else if s =? 16 then Some (32768, rest)
      else if Z.of_nat (length rest) <? s then None
      else Some (extend s (bval (firstn (Z.to_nat s) rest)), skipn (Z.to_nat s) rest)
  end.

(* T.81 Table H.1, selection value 6: Rb + ((Ra - Rc) >> 1); H.1.2.1: the first sample is predicted by 2^(P-1), the rest of the first row by
   the sample to the left, the first sample of any other row by the one above.  img: the samples before, in raster order. *)
Definition pred6 (bd W : Z) (img : list Z) : Z :=
  let i := len img in
  let at_ k := nth (Z.to_nat k) img 0 in
  if i =? 0 then 2 ^ (bd - 1)
  else if i <? W then at_ (i - 1)
  else if i mod W =? 0 then at_ (i - W)
  else at_ (i - W) + (at_ (i - 1) - at_ (i - W - 1)) / 2.

Fixpoint write_samples (bk : book) (bd W : Z) (img px : list Z) : list bool :=
  match px with [] => [] | p :: r => write_diff bk (p - pred6 bd W img) ++ write_samples bk bd W (img ++ [p]) r end.
Fixpoint read_samples (bk : book) (bd W : Z) (n : nat) (img : list Z) (l : list bool) : option (list Z) :=
  match n with
  | O => Some img
  | S k => match read_diff bk l with None => None | Some (d, rest) => read_samples bk bd W k (img ++ [(pred6 bd W img + d) mod 2 ^ 16]) rest end
  end.
(* the differences from the prediction *)
Fixpoint diffs6 (bd W : Z) (img px : list Z) : list Z := match px with [] => [] | p :: r => (p - pred6 bd W img) :: diffs6 bd W (img ++ [p]) r end.
(* all differences are below 2^15 in size: none is of class 16 *)
Fixpoint diffs_small (bd W : Z) (img px : list Z) : Prop :=
  match px with [] => True | p :: r => Z.abs (p - pred6 bd W img) < 2 ^ 15 /\ diffs_small bd W (img ++ [p]) r end.

(* the file (Annex B) *)
Definition sof3_1 (bd x y : Z) : list Z := [255; 0xc3] ++ be16 11 ++ [bd] ++ be16 y ++ be16 x ++ [1; 0; 0x11; 0].
Definition sos_6 : list Z := [255; 0xda] ++ be16 8 ++ [1; 0; 0; 6; 0; 0].
Definition p6_file (bits : list nat) (vals : list Z) (bd x y : Z) (scan : list Z) : list Z :=
  [255; 0xd8] ++ dht bits vals ++ sof3_1 bd x y ++ sos_6 ++ scan ++ [255; 0xd9].
(* where sample k of the tile is in an image: after every run of readLength samples, skip samples are left out *)
Definition tile_pos (run skip k : Z) : Z := k + k / run * skip.

(* the samples of a tile of n samples: from image img, skip samples left out after every run *)
Definition tile (img : Z -> Z) (run skip n : Z) : list Z := map (fun k => img (tile_pos run skip (Z.of_nat k))) (seq 0 (Z.to_nat n)).

(* liblj92/lj92.c:707-1205: the encoder (predictor 6, one component).  C arrays are functions from index to value; malloc, calloc and realloc
   succeed; int is unbounded (the theorems require width*height*3+200 < 2^31, and then no int overflows); __builtin_clz(0), whose result is not used,
   is not modelled; float is IEEE binary32 (SpecFloat, round to nearest even).  Writes to the
   output buffer are sequential, so the number of bytes written tells whether they stayed inside it.  Not modelled: the DEBUG printing,
   freeing of memory. *)
From Coq Require Import Floats.SpecFloat.
From Verif Require Import Bits M_Lj92.
Ltac Zify.zify_post_hook ::= idtac.

Definition ERR_ENCODER : Z := -5.                                        (* lj92.h:33 *)

(* ------------------------------------------------------------------ the walk over the samples, shared by frequencyScan (lines 730-796)
   and writeBody (lines 1026-1151) *)
(* pixel (as an index into the image), scan, rowcache, rows[1] and rows[0] as offsets into rowcache, col, row *)
Record es_st := { e_pix : Z; e_scan : Z; e_rows : lmem; e_cur : Z; e_prev : Z; e_col : Z; e_row : Z }.
(* lines 733-746, 1029-1045 *)
Definition es_init (w rl : Z) : es_st :=
  {| e_pix := 0; e_scan := rl; e_rows := fun _ => 0; e_cur := w; e_prev := 0; e_col := 0; e_row := 0 |}.
(* rows[1][col] = p (lines 759, 1049) *)
Definition es_store (p : Z) (s : es_st) : es_st :=
  {| e_pix := e_pix s; e_scan := e_scan s; e_rows := upd (e_rows s) (e_cur s + e_col s) p; e_cur := e_cur s; e_prev := e_prev s; e_col := e_col s; e_row := e_row s |}.
(* lines 761-770, 1051-1060 *)
Definition es_diff (bd : Z) (s : es_st) : Z :=
  let r1 j := e_rows s (e_cur s + j) in
  let r0 j := e_rows s (e_prev s + j) in
  let col := e_col s in
  let px := if (e_row s =? 0) && (col =? 0) then Z.shiftl 1 (bd - 1)
            else if e_row s =? 0 then r1 (col - 1)
            else if col =? 0 then r0 col
            else r0 col + Z.shiftr (r1 (col - 1) - r0 (col - 1)) 1 in
  Z.rem (r1 col - px) 65536.
(* 32 - __builtin_clz(abs(diff)), 0 for diff = 0 (lines 771-772, 1061-1062); clz x = 31 - log2 x for 0 < x < 2^32 *)
Definition ssss_of (diff : Z) : Z := if diff =? 0 then 0 else 32 - (31 - Z.log2 (Z.abs diff)).
(* lines 775-785, 1123-1133 *)
Definition es_next (w rl sl : Z) (s : es_st) : es_st :=
  let z := e_scan s - 1 =? 0 in
  let r := e_col s + 1 =? w in
  {| e_pix := if z then e_pix s + 1 + sl else e_pix s + 1; e_scan := if z then rl else e_scan s - 1; e_rows := e_rows s;
     e_cur := if r then e_prev s else e_cur s; e_prev := if r then e_cur s else e_prev s;
     e_col := if r then 0 else e_col s + 1; e_row := if r then e_row s + 1 else e_row s |}.

(* frequencyScan: the histogram.  The linearization is commented out in the source (lines 748-758). *)
Fixpoint freq_scan (n : nat) (img : lmem) (bd w rl sl : Z) (s : es_st) (hist : lmem) : lmem :=
  match n with
  | O => hist
  | S k =>
    let s := es_store (img (e_pix s)) s in
    let c := ssss_of (es_diff bd s) in
    freq_scan k img bd w rl sl (es_next w rl sl s) (upd hist c (hist c + 1))
  end.

(* ------------------------------------------------------------------ createEncodeTable, lines 798-977 *)
Definition f32 := spec_float.
Definition f32_of_int (x : Z) : f32 := binary_normalize 24 128 x 0 false.
Definition f32_add : f32 -> f32 -> f32 := SFadd 24 128.
Definition f32_div : f32 -> f32 -> f32 := SFdiv 24 128.
Definition f32_0 : f32 := S754_zero false.
Definition f32_1 : f32 := S754_finite false 8388608 (-23).
Definition f32_3 : f32 := S754_finite false 12582912 (-22).
Definition fupd (m : Z -> f32) (a : Z) (v : f32) : Z -> f32 := fun j => if j =? a then v else m j.

(* lines 803-815 *)
Definition freq0 (hist : lmem) (pixels : Z) : Z -> f32 :=
  fun i => if i =? 17 then f32_1 else f32_div (f32_of_int (hist i)) (f32_of_int pixels).
(* lines 821-828: for i = 0 .. 17, n = 18 - i *)
Fixpoint pick1 (n : nat) (i : Z) (freq : Z -> f32) (vf : f32) (v : Z) : Z :=
  match n with
  | O => v
  | S k => if SFleb (freq i) vf && SFltb f32_0 (freq i) then pick1 k (i + 1) freq (freq i) i else pick1 k (i + 1) freq vf v
  end.
(* lines 832-840 *)
Fixpoint pick2 (n : nat) (i : Z) (freq : Z -> f32) (v1 : Z) (vf : f32) (v : Z) : Z :=
  match n with
  | O => v
  | S k => if i =? v1 then pick2 k (i + 1) freq v1 vf v
           else if SFltb (freq i) vf && SFltb f32_0 (freq i) then pick2 k (i + 1) freq v1 (freq i) i else pick2 k (i + 1) freq v1 vf v
  end.
(* lines 846-850, 852-856: (codesize, last element of the chain); a chain has at most 18 elements *)
Fixpoint chain_inc (fuel : nat) (cs others : lmem) (v : Z) : lmem * Z :=
  match fuel with
  | O => (cs, v)
  | S f => let cs := upd cs v (cs v + 1) in if others v =? -1 then (cs, v) else chain_inc f cs others (others v)
  end.
(* lines 820-857: codesize; every turn removes a positive frequency, so 18 turns are enough *)
Fixpoint huff_merge (fuel : nat) (freq : Z -> f32) (cs others : lmem) : lmem :=
  match fuel with
  | O => cs
  | S f =>
    let v1 := pick1 18 0 freq f32_3 (-1) in
    let v2 := pick2 18 0 freq v1 f32_3 (-1) in
    if v2 =? -1 then cs
    else
      let freq := fupd freq v1 (f32_add (freq v1) (freq v2)) in
      let freq := fupd freq v2 f32_0 in
      let '(cs, v1) := chain_inc 18 cs others v1 in
      let others := upd others v1 v2 in
      let '(cs, _) := chain_inc 18 cs others v2 in
      huff_merge f freq cs others
  end.
Definition code_sizes (hist : lmem) (pixels : Z) : lmem := huff_merge 19 (freq0 hist pixels) (fun _ => 0) (fun _ => -1).
(* lines 858-864 *)
Fixpoint count_bits (n : nat) (i : Z) (cs bits : lmem) : lmem :=
  match n with O => bits | S k => count_bits k (i + 1) cs (if cs i =? 0 then bits else upd bits (cs i) (bits (cs i) + 1)) end.
(* lines 875-878: do { J = J - 1; } while (bits[J] <= 0) *)
Fixpoint find_j (fuel : nat) (bits : lmem) (J : Z) : Z :=
  match fuel with O => J | S f => let J := J - 1 in if bits J <=? 0 then find_j f bits J else J end.
(* lines 888-890 *)
Fixpoint down_to (fuel : nat) (bits : lmem) (I : Z) : Z :=
  match fuel with O => I | S f => if bits I =? 0 then down_to f bits (I - 1) else I end.
(* lines 872-894 *)
Fixpoint adjust (fuel : nat) (bits : lmem) (I : Z) : lmem :=
  match fuel with
  | O => bits
  | S f =>
    if 0 <? bits I then
      let J := find_j 18 bits (I - 1) in
      let bits := upd bits I (bits I - 2) in
      let bits := upd bits (I - 1) (bits (I - 1) + 1) in
      let bits := upd bits (J + 1) (bits (J + 1) + 2) in
      adjust f (upd bits J (bits J - 1)) I
    else if negb (I - 1 =? 16) then adjust f bits (I - 1)
    else let I := down_to 18 bits (I - 1) in upd bits I (bits I - 1)
  end.
(* lines 900-914: huffval, as the list of what is stored (the rest of the array is 0) *)
Definition huff_vals (cs : lmem) : list Z :=
  flat_map (fun i => filter (fun j => cs j =? i) (map Z.of_nat (seq 0 17))) (map Z.of_nat (seq 1 32)).
(* lines 931-960: (huffbits, huffenc), as the list of what is stored *)
Fixpoint code_loop (fuel : nat) (bits : lmem) (M : Z) (acc : list (Z * Z)) (i rv vl bu : Z) : list (Z * Z) :=
  match fuel with
  | O => rev acc
  | S f =>
    if i <? 2 ^ M then
      if M <? bu then rev acc
      else if bits bu <=? vl then code_loop f bits M acc i rv 0 (bu + 1)
      else if rv =? 2 ^ (M - bu) then code_loop f bits M acc i 0 (vl + 1) bu
      else code_loop f bits M ((trunc 16 bu, trunc 16 (Z.shiftr i (M - bu))) :: acc) (i + 2 ^ (M - bu)) (2 ^ (M - bu)) vl bu
    else rev acc
  end.
(* lines 961-972: for i = 0 .. 17 *)
Fixpoint huff_syms (n : nat) (i : Z) (codes : list (Z * Z)) (vals : list Z) (sym : lmem) : lmem :=
  match n with
  | O => sym
  | S k => huff_syms k (i + 1) codes vals
             (if 0 <? fst (nth (Z.to_nat i) codes (0, 0)) then upd sym (nth (Z.to_nat i) vals 0) i else sym)
  end.
Record enc_tab := { t_bits : lmem; t_vals : list Z; t_codes : list (Z * Z); t_sym : lmem }.
Definition create_table (hist : lmem) (pixels : Z) : enc_tab :=
  let cs := code_sizes hist pixels in
  let bits := adjust 40 (count_bits 18 0 cs (fun _ => 0)) 17 in
  let vals := huff_vals cs in
  let M := max_bits 16 bits in                                              (* lines 920-924 *)
  let codes := code_loop 100 bits M [] 0 0 0 1 in
  {| t_bits := bits; t_vals := vals; t_codes := codes; t_sym := huff_syms 18 0 codes vals (fun _ => 0) |}.

(* ------------------------------------------------------------------ writeHeader, lines 979-1017: the bytes in order *)
Definition header_bytes (t : enc_tab) (bd w h : Z) : list Z :=
  let count := fold_left (fun a i => a + t_bits t (Z.of_nat i)) (seq 0 17) 0 in
  map (trunc 8)
    ([0xff; 0xd8; 0xff; 0xc4; 0; 17 + 2 + count; 0] ++ map (fun i => t_bits t (Z.of_nat i)) (seq 1 16)
     ++ map (fun i => nth i (t_vals t) 0) (seq 0 (Z.to_nat count))
     ++ [0xff; 0xc3; 0; 11; bd; Z.shiftr h 8; Z.land h 255; Z.shiftr w 8; Z.land w 255; 1; 0; 0x11; 0]
     ++ [0xff; 0xda; 0; 8; 1; 0; 0; 6; 0; 0]).
Fixpoint write_list (m : lmem) (a : Z) (l : list Z) : lmem := match l with [] => m | x :: r => write_list (upd m a x) (a + 1) r end.

(* ------------------------------------------------------------------ writeBody *)
(* out, w, next, nextbits *)
Record wb_st := { b_out : lmem; b_w : Z; b_next : Z; b_nb : Z }.
(* lines 1079-1098 and 1101-1120: while (n > 0); None: return LJ92_ERROR_ENCODER; every turn uses at least one bit, n <= 16 *)
Fixpoint put_bits (fuel : nat) (L v n : Z) (s : wb_st) : option wb_st :=
  match fuel with
  | O => Some s
  | S f =>
    if 0 <? n then
      let use := if b_nb s <? n then b_nb s else n in
      let top := Z.shiftr v (n - use) in
      let next := trunc 8 (Z.lor (b_next s) (Z.shiftl top (b_nb s - use))) in
      let nb := b_nb s - use in
      let n := n - use in
      let v := Z.land v (Z.shiftl 1 n - 1) in
      if nb =? 0 then
        if L - 1 <=? b_w s then None
        else
          let out := upd (b_out s) (b_w s) next in
          put_bits f L v n {| b_out := if next =? 255 then upd out (b_w s + 1) 0 else out; b_w := if next =? 255 then b_w s + 2 else b_w s + 1;
                              b_next := 0; b_nb := 8 |}
      else put_bits f L v n {| b_out := b_out s; b_w := b_w s; b_next := next; b_nb := nb |}
    else Some s
  end.
(* lines 1046-1134 *)
Fixpoint write_body (n : nat) (img : lmem) (delin : option lmem) (t : enc_tab) (L bd w rl sl : Z) (s : es_st) (o : wb_st) : option wb_st :=
  match n with
  | O => Some o
  | S k =>
    let p := img (e_pix s) in
    let s := es_store (match delin with None => p | Some f => f p end) s in
    let diff := es_diff bd s in
    let ssss := ssss_of diff in
    let code := nth (Z.to_nat (t_sym t ssss)) (t_codes t) (0, 0) in
    let vt := if 0 <? ssss then Z.shiftl 1 (ssss - 1) else 0 in
    let diff := if diff <? vt then diff + (Z.shiftl 1 ssss - 1) else diff in
    match put_bits 32 L (snd code) (fst code) o with
    | None => None
    | Some o => match put_bits 32 L diff ssss o with
                | None => None
                | Some o => write_body k img delin t L bd w rl sl (es_next w rl sl s) o
                end
    end
  end.
(* lines 1135-1139: flush *)
Definition flush_body (o : wb_st) : lmem * Z :=
  if b_nb o <? 8 then
    let out := upd (b_out o) (b_w o) (b_next o) in
    if b_next o =? 255 then (upd out (b_w o + 1) 0, b_w o + 2) else (out, b_w o + 1)
  else (b_out o, b_w o).

(* lj92_encode, lines 1156-1205: (ret, the buffer, *encodedLength); mem0: what malloc returned.  The buffer has width*height*3+200 bytes. *)
Definition buffer_size (w h : Z) : Z := w * h * 3 + 200.
Definition lj92_encode (img : lmem) (w h bd rl sl : Z) (delin : option lmem) (mem0 : lmem) : Z * lmem * Z :=
  let hist := freq_scan (Z.to_nat (w * h)) img bd w rl sl (es_init w rl) (fun _ => 0) in
  let t := create_table hist (w * h) in
  let hdr := header_bytes t bd w h in
  let out := write_list mem0 0 hdr in
  match write_body (Z.to_nat (w * h)) img delin t (buffer_size w h) bd w rl sl (es_init w rl)
          {| b_out := out; b_w := Z.of_nat (length hdr); b_next := 0; b_nb := 8 |} with
  | None => (ERR_ENCODER, out, 0)
  | Some o =>
    let '(out, n) := flush_body o in
    (NONE, upd (upd out n 0xff) (n + 1) 0xd9, n + 2)                          (* writePost, lines 1019-1024 *)
  end.

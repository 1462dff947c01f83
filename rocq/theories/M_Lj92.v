(* liblj92/lj92.c: the decoder shipped with the core (compiled without SLOW_HUFF, as in the source; the SLOW_HUFF build is in M_Slow.v).
   Memory: the file is a function from byte index to byte; reading past the end gives whatever the function
   says, so a theorem for every function is a theorem for every continuation of the buffer.  Ghost fields record the largest file index
   read while decoding the scan and whether an access left one of the library's own arrays (sssshist, hufflut,
   rowcache).  int arithmetic stays far below 2^31 on the ranges used (the exception, pixels in parsePred6, is wrapped in M_Pred6.v), so int is Z; u32 and u16 are truncated
   where the C code relies on it.  malloc is assumed to succeed (M_Heap.v models allocation, its failure and lj92_close); the
   DEBUG printing is not modelled; parsePred6 (predictor 6) is in M_Pred6.v, the encoder half of the file (lines 707-1205) in M_Enc92.v. *)
From Verif Require Import Bits M_Predictor.
Ltac Zify.zify_post_hook ::= idtac.

Definition lmem := Z -> Z.
Definition upd (m : lmem) (a v : Z) : lmem := fun j => if j =? a then v else m j.

(* BEH, line 86 *)
Definition beh (d : lmem) (a : Z) : Z := Z.lor (Z.shiftl (d a) 8) (d (a + 1)).
(* find, lines 74-84: (marker or -1, new ix) *)
Fixpoint find_ff (fuel : nat) (d : lmem) (dl ix : Z) : Z :=
  match fuel with
  | O => ix
  | S f => if negb (d ix =? 255) && (ix <? dl - 1) then find_ff f d dl (ix + 1) else ix
  end.
Definition lfind (d : lmem) (dl ix : Z) : Z * Z :=
  let p := find_ff (Z.to_nat dl) d dl ix + 2 in
  if dl <=? p then (-1, ix) else (d (p - 1), p).

(* ------------------------------------------------------------------ parseHuff, lines 88-95 and 216-266 *)

(* lines 220-224 *)
Fixpoint max_bits (n : nat) (bits : lmem) : Z :=
  match n with O => 0 | S k => if negb (bits (Z.of_nat n) =? 0) then Z.of_nat n else max_bits k bits end.
(* lines 230-263; the table is written at i = 0, 1, 2, ... and is kept as the reversed list of what was written, so
   that positions never written (the memory comes from malloc) are distinguishable *)
Fixpoint lut_loop (fuel : nat) (bits vals : lmem) (M : Z) (acc : list Z) (i hv rv vl bu : Z) : list Z :=
  match fuel with
  | O => rev acc
  | S f =>
    if i <? 2 ^ M then
      if M <? bu then rev acc
      else if bits bu <=? vl then lut_loop f bits vals M acc i hv rv 0 (bu + 1)
      else if rv =? 2 ^ (M - bu) then lut_loop f bits vals M acc i (hv + 1) 0 (vl + 1) bu
      else lut_loop f bits vals M (trunc 16 (Z.lor (Z.shiftl (vals hv) 8) bu) :: acc) (i + 1) hv (rv + 1) vl bu
    else rev acc
  end.
(* every iteration increases i, hv or bitsused: i <= 2^M, bitsused <= M+1, hv <= 16 * 255 *)
Definition lut_fuel (M : Z) : nat := Z.to_nat (2 ^ M + M + 4096 + 2).

(* the fields of struct _ljp set while parsing *)
Record lj_hdr := { j_x : Z; j_y : Z; j_bits : Z; j_comp : Z; j_scan : Z; j_huffbits : Z; j_lut : list Z }.
Definition hdr0 : lj_hdr := {| j_x := 0; j_y := 0; j_bits := 0; j_comp := 0; j_scan := 0; j_huffbits := 0; j_lut := [] |}.   (* calloc *)
Definition NONE : Z := 0.
Definition CORRUPT : Z := -1.
(* the file is modified: bits[0] = 0 (line 92); ix is not advanced (only the SLOW_HUFF code does that) *)
Definition parse_huff (d : lmem) (dl ix : Z) (h : lj_hdr) : Z * lmem * lj_hdr :=
  let d := upd d (ix + 2) 0 in
  let hufflen := beh d ix in
  if dl <=? ix + hufflen then (CORRUPT, d, h)
  else
    let bits := fun k => d (ix + 2 + k) in
    let M := max_bits 16 bits in
    (NONE, d, {| j_x := j_x h; j_y := j_y h; j_bits := j_bits h; j_comp := j_comp h; j_scan := j_scan h; j_huffbits := M;
                 j_lut := lut_loop (lut_fuel M) bits (fun k => d (ix + 19 + k)) M [] 0 0 0 0 1 |}).
(* lines 268-276: (ret, new ix, fields) *)
Definition parse_sof3 (d : lmem) (dl ix : Z) (h : lj_hdr) : Z * Z * lj_hdr :=
  if dl <=? ix + 6 then (CORRUPT, ix, h)
  else (NONE, ix + beh d ix,
        {| j_x := beh d (ix + 5); j_y := beh d (ix + 3); j_bits := d (ix + 2); j_comp := d (ix + 7); j_scan := j_scan h; j_huffbits := j_huffbits h; j_lut := j_lut h |}).
(* lines 278-282 *)
Definition parse_block (d : lmem) (dl ix : Z) : Z * Z := (if dl <=? ix + beh d ix then CORRUPT else NONE, ix + beh d ix).
(* lines 595-619; every turn of the loop moves ix by at least 2 *)
Fixpoint parse_image (fuel : nat) (d : lmem) (dl ix : Z) (h : lj_hdr) : Z * lmem * lj_hdr :=
  match fuel with
  | O => (CORRUPT, d, h)
  | S f =>
    let (mk, ix) := lfind d dl ix in
    if mk =? 0xc4 then let '(r, d, h) := parse_huff d dl ix h in if r =? NONE then parse_image f d dl ix h else (r, d, h)
    else if mk =? 0xc3 then let '(r, ix, h) := parse_sof3 d dl ix h in if r =? NONE then parse_image f d dl ix h else (r, d, h)
    else if mk =? 0xd9 then (NONE, d, h)
    else if mk =? 0xda then
      (NONE, d, {| j_x := j_x h; j_y := j_y h; j_bits := j_bits h; j_comp := j_comp h; j_scan := ix; j_huffbits := j_huffbits h; j_lut := j_lut h |})
    else if mk =? -1 then (CORRUPT, d, h)
    else let (r, ix) := parse_block d dl ix in if r =? NONE then parse_image f d dl ix h else (r, d, h)
  end.
(* lj92_open and findSoI, lines 621-626 and 650-684: (ret, file afterwards, handle); width, height, bitdepth, components returned
   to the caller are j_x, j_y, j_bits, j_comp of the handle *)
Definition lj92_open (d : lmem) (dl : Z) : Z * lmem * lj_hdr :=
  let (mk, ix) := lfind d dl 0 in
  if mk =? 0xd8 then parse_image (Z.to_nat dl) d dl ix hdr0 else (CORRUPT, d, hdr0).

(* ------------------------------------------------------------------ nextdiff, lines 337-397 *)

Record nd_st := { n_b : Z; n_cnt : Z; n_ix : Z; n_hi : Z; n_oob : bool }.    (* b, cnt, ix; ghost: largest index read, array overrun *)
(* lines 349-361 and 371-382: while (cnt < need); each turn adds 8 or 16 bits, need <= 16: two turns at most *)
Fixpoint refill (fuel : nat) (d : lmem) (need : Z) (s : nd_st) : nd_st :=
  match fuel with
  | O => s
  | S f =>
    if n_cnt s <? need then
      let ix := n_ix s in
      let one := d ix in
      let two := d (ix + 1) in                                        (* next = *(u16* )&data[ix], little endian *)
      let b := trunc 32 (Z.lor (Z.lor (Z.shiftl (n_b s) 16) (Z.shiftl one 8)) two) in
      let cnt := n_cnt s + 16 in
      let hi := Z.max (n_hi s) (ix + 1) in
      if one =? 255 then refill f d need {| n_b := Z.shiftr b 8; n_cnt := cnt - 8; n_ix := ix + 2; n_hi := hi; n_oob := n_oob s |}
      else if two =? 255 then refill f d need {| n_b := b; n_cnt := cnt; n_ix := ix + 3; n_hi := hi; n_oob := n_oob s |}
      else refill f d need {| n_b := b; n_cnt := cnt; n_ix := ix + 2; n_hi := hi; n_oob := n_oob s |}
    else s
  end.
(* 1 << (t-1): undefined in C for t = 0; any value, U, is allowed for it here *)
Definition shl1 (U n : Z) : Z := if n <? 0 then U else Z.shiftl 1 n.
Definition nextdiff (U : Z) (d : lmem) (huffbits : Z) (lut : list Z) (s : nd_st) : Z * nd_st :=
  let s1 := refill 4 d huffbits s in
  let index := Z.shiftr (n_b s1) (n_cnt s1 - huffbits) in
  let ssssused := nth (Z.to_nat index) lut 0 in
  let usedbits := Z.land ssssused 255 in
  let t := Z.shiftr ssssused 8 in
  let oob := n_oob s1 || (index <? 0) || (Z.of_nat (length lut) <=? index) || (16 <=? t) in       (* hufflut[index], sssshist[t] *)
  let cnt := n_cnt s1 - usedbits in
  let b := Z.land (n_b s1) (Z.shiftl 1 cnt - 1) in
  let s2 := refill 4 d t {| n_b := b; n_cnt := cnt; n_ix := n_ix s1; n_hi := n_hi s1; n_oob := oob |} in
  let cnt := n_cnt s2 - t in
  let diff := Z.shiftr (n_b s2) cnt in
  let diff := if diff <? shl1 U (t - 1) then diff + (Z.shiftl (-1) t + 1) else diff in
  (diff, {| n_b := Z.land (n_b s2) (Z.shiftl 1 cnt - 1); n_cnt := cnt; n_ix := n_ix s2; n_hi := n_hi s2; n_oob := n_oob s2 |}).

(* ------------------------------------------------------------------ parseScan, lines 507-593 *)

(* rowcache, the target image (both arrays of u16), left, the two row pointers as offsets into rowcache, the target pointer *)
Record sc_st := { s_nd : nd_st; s_rows : lmem; s_img : lmem; s_left : Z; s_this : Z; s_last : Z; s_out : Z }.
(* the arguments of lj92_decode (writeLength is not used on this path); linearize is NULL or a table *)
Record dec_arg := { da_skip : Z; da_lin : option lmem; da_linlen : Z }.
(* one sample: lines 531-580; None: return LJ92_ERROR_CORRUPT (line 573).  rowcache has 2*x*components entries (line 664). *)
Definition row_ok (h : lj_hdr) (a : Z) : bool := (0 <=? a) && (a <? 2 * j_x h * j_comp h).
(* lines 531-566: the prediction, and whether the accesses to rowcache stay inside *)
Definition sample_px (h : lj_hdr) (pred row col c : Z) (s : sc_st) : Z * bool :=
  let n := j_comp h in
  let colx := col * n in
  let prev := (col - 1) * n in
  let this j := s_rows s (s_this s + j) in
  let last j := s_rows s (s_last s + j) in
    if (col =? 0) && (row =? 0) then (Z.shiftl 1 (j_bits h - 1), true)
    else if row =? 0 then (this (prev + c), row_ok h (s_this s + prev + c))
    else if col =? 0 then (last c, row_ok h (s_last s + c))
    else
      let kc := row_ok h (s_last s + colx + c) in
      let kp := row_ok h (s_last s + prev + c) in
      if pred =? 0 then (0, true)
      else if pred =? 1 then (this (prev + c), row_ok h (s_this s + prev + c))
      else if pred =? 2 then (last (colx + c), kc)
      else if pred =? 3 then (last (prev + c), kp)
      else if pred =? 4 then (s_left s + last (colx + c) - last (prev + c), kc && kp)
      else if pred =? 5 then (s_left s + Z.shiftr (last (colx + c) - last (prev + c)) 1, kc && kp)
      else if pred =? 6 then (last (colx + c) + Z.shiftr (s_left s - last (prev + c)) 1, kc && kp)
      else (Z.shiftr (s_left s + last (colx + c)) 1, kc).
Definition sample (U : Z) (d : lmem) (h : lj_hdr) (pred : Z) (a : dec_arg) (row col c : Z) (s : sc_st) : option sc_st :=
  let colx := col * j_comp h in
  let '(px, ok) := sample_px h pred row col c s in
  let (diff, nd) := nextdiff U d (j_huffbits h) (j_lut h) (s_nd s) in
  let left := trunc 16 (Z.rem (px + diff) 65536) in
  let lin := match da_lin a with None => Some left | Some f => if da_linlen a <? left then None else Some (f left) end in
  let w := s_this s + colx + c in
  match lin with
  | None => None
  | Some v =>
    Some {| s_nd := {| n_b := n_b nd; n_cnt := n_cnt nd; n_ix := n_ix nd; n_hi := n_hi nd; n_oob := n_oob nd || negb ok || negb (row_ok h w) |};
            s_rows := upd (s_rows s) w left; s_img := upd (s_img s) (s_out s + colx + c) v;
            s_left := left; s_this := s_this s; s_last := s_last s; s_out := s_out s |}
  end.
(* the state when a sample is outside the linearization table (line 573): its difference has been read, nothing has been stored *)
Definition sample_stop (U : Z) (d : lmem) (h : lj_hdr) (pred row col c : Z) (s : sc_st) : sc_st :=
  let (diff, nd) := nextdiff U d (j_huffbits h) (j_lut h) (s_nd s) in
  {| s_nd := {| n_b := n_b nd; n_cnt := n_cnt nd; n_ix := n_ix nd; n_hi := n_hi nd; n_oob := n_oob nd || negb (snd (sample_px h pred row col c s)) |};
     s_rows := s_rows s; s_img := s_img s; s_left := s_left s; s_this := s_this s; s_last := s_last s; s_out := s_out s |}.
Fixpoint for_loop {A : Type} (n : nat) (i : Z) (body : Z -> A -> option A) (x : A) : option A :=
  match n with O => Some x | S k => match body i x with None => None | Some y => for_loop k (i + 1) body y end end.
(* where a loop that is left by return was: the state in which the body returned, as given by stop *)
Fixpoint for_stop {A : Type} (n : nat) (i : Z) (body : Z -> A -> option A) (stop : Z -> A -> A) (x : A) : A :=
  match n with O => x | S k => match body i x with None => stop i x | Some y => for_stop k (i + 1) body stop y end end.
Definition scan_cols U d h pred a row : sc_st -> option sc_st :=
  for_loop (Z.to_nat (j_x h)) 0 (fun col => for_loop (Z.to_nat (j_comp h)) 0 (fun c => sample U d h pred a row col c)).
(* lines 527-588 *)
Definition scan_row U d h pred a (row : Z) (s : sc_st) : option sc_st :=
  match scan_cols U d h pred a row s with
  | None => None
  | Some s => Some {| s_nd := s_nd s; s_rows := s_rows s; s_img := s_img s; s_left := s_left s; s_this := s_last s; s_last := s_this s;
                      s_out := s_out s + (j_x h * j_comp h + da_skip a) |}
  end.
(* the state in which parseScan returns from within its loops *)
Definition scan_stop U d h pred a : sc_st -> sc_st :=
  for_stop (Z.to_nat (j_y h)) 0 (scan_row U d h pred a)
    (fun row => for_stop (Z.to_nat (j_x h)) 0 (fun col => for_loop (Z.to_nat (j_comp h)) 0 (fun c => sample U d h pred a row col c))
       (fun col => for_stop (Z.to_nat (j_comp h)) 0 (fun c => sample U d h pred a row col c) (fun c => sample_stop U d h pred row col c))).
(* lj92_decode and parseScan: (ret, final state); outrow[0] = rowcache, outrow[1] = &rowcache[x] (lines 668-669).
   Predictor 6 (line 514) goes to parsePred6 (M_Pred6.v): None here. *)
Definition lj92_decode (U : Z) (d : lmem) (h : lj_hdr) (a : dec_arg) (rows img : lmem) : option (Z * sc_st) :=
  let scan := j_scan h in
  let compcount := d (scan + 2) in
  let pred := d (scan + 3 + 2 * compcount) in
  let s0 := {| s_nd := {| n_b := 0; n_cnt := 0; n_ix := scan + beh d scan; n_hi := 0; n_oob := false |}; s_rows := rows; s_img := img;
               s_left := 0; s_this := 0; s_last := j_x h; s_out := 0 |} in
  if 7 <? pred then Some (CORRUPT, s0)
  else if pred =? 6 then None
  else match for_loop (Z.to_nat (j_y h)) 0 (scan_row U d h pred a) s0 with
       | None => Some (CORRUPT, scan_stop U d h pred a s0)
       | Some s => Some (NONE, s)
       end.

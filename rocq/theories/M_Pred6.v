(* liblj92/lj92.c:399-505: parsePred6, the decoder for files with predictor 6, and lj92_decode for every predictor.
   Conventions as in M_Lj92.v. *)
From Verif Require Import Bits M_Lj92.
Ltac Zify.zify_post_hook ::= idtac.

(* thisrow/lastrow as offsets into rowcache; out as an offset into the target; col, c, write, left *)
Record p6_st := { q_nd : nd_st; q_rows : lmem; q_img : lmem; q_left : Z; q_this : Z; q_last : Z; q_col : Z; q_c : Z; q_out : Z; q_write : Z }.
(* continue, or return a code *)
Inductive p6_res := Go (s : p6_st) | Ret (r : Z) (s : p6_st).
(* the arguments of lj92_decode: those of M_Lj92 and writeLength *)

(* diff = nextdiff; left = (u16)((Px+diff) % 65536); linear; thisrow[col++] = left; out[c++] = linear
   (lines 425-434, 439-447, 462-474, 482-492); chk: the linearization bound is tested (not in the first row) *)
Definition p6_put (U : Z) (d : lmem) (h : lj_hdr) (a : dec_arg) (chk : bool) (px : Z) (ok : bool) (s : p6_st) : p6_res :=
  let (diff, nd) := nextdiff U d (j_huffbits h) (j_lut h) (q_nd s) in
  let left := trunc 16 (Z.rem (px + diff) 65536) in
  let w := q_this s + q_col s in
  let nd' := {| n_b := n_b nd; n_cnt := n_cnt nd; n_ix := n_ix nd; n_hi := n_hi nd; n_oob := n_oob nd || negb ok || negb (row_ok h w) |} in
  let put v := Go {| q_nd := nd'; q_rows := upd (q_rows s) w left; q_img := upd (q_img s) (q_out s + q_c s) v; q_left := left;
                     q_this := q_this s; q_last := q_last s; q_col := q_col s + 1; q_c := q_c s + 1; q_out := q_out s; q_write := q_write s |} in
  match da_lin a with
  | None => put left
  | Some f => if chk && (da_linlen a <? left)
              then Ret CORRUPT {| q_nd := {| n_b := n_b nd; n_cnt := n_cnt nd; n_ix := n_ix nd; n_hi := n_hi nd; n_oob := n_oob nd || negb ok |};
                                  q_rows := q_rows s; q_img := q_img s; q_left := left; q_this := q_this s; q_last := q_last s; q_col := q_col s; q_c := q_c s;
                                  q_out := q_out s; q_write := q_write s |}
              else put (f left)
  end.
(* --write (line 436) *)
Definition p6_dec (s : p6_st) : p6_st :=
  {| q_nd := q_nd s; q_rows := q_rows s; q_img := q_img s; q_left := q_left s; q_this := q_this s; q_last := q_last s; q_col := q_col s; q_c := q_c s;
     q_out := q_out s; q_write := q_write s - 1 |}.
(* if (--write==0) { out += skiplen; write = writelen; } (lines 450-453, 477-480, 493-496) *)
Definition p6_skip (a : dec_arg) (wl : Z) (s : p6_st) : p6_st :=
  let z := q_write s - 1 =? 0 in
  {| q_nd := q_nd s; q_rows := q_rows s; q_img := q_img s; q_left := q_left s; q_this := q_this s; q_last := q_last s; q_col := q_col s; q_c := q_c s;
     q_out := if z then q_out s + da_skip a else q_out s; q_write := if z then wl else q_write s - 1 |}.
(* temprow = lastrow; lastrow = thisrow; thisrow = temprow (lines 455-457, 498-500) *)
Definition p6_swap (s : p6_st) : p6_st :=
  {| q_nd := q_nd s; q_rows := q_rows s; q_img := q_img s; q_left := q_left s; q_this := q_last s; q_last := q_this s; q_col := q_col s; q_c := q_c s;
     q_out := q_out s; q_write := q_write s |}.
(* col = 0 (line 461) *)
Definition p6_col0 (s : p6_st) : p6_st :=
  {| q_nd := q_nd s; q_rows := q_rows s; q_img := q_img s; q_left := q_left s; q_this := q_this s; q_last := q_last s; q_col := 0; q_c := q_c s;
     q_out := q_out s; q_write := q_write s |}.
(* int pixels = self->y * self->x (line 409) as 32-bit two's complement: the product of two 16-bit numbers can exceed INT_MAX (undefined in C; the
   compilers' result is modelled).  while (rowcount--) with int rowcount = self->x - 1 (lines 437-438, 476, 481): for x = 0 the counter starts at -1 and wraps *)
Definition int32 (v : Z) : Z := (v + 2 ^ 31) mod 2 ^ 32 - 2 ^ 31.
Definition pixels (h : lj_hdr) : Z := int32 (j_y h * j_x h).
Definition rowcount (h : lj_hdr) : Z := (j_x h - 1) mod 2 ^ 32.
Definition p6_end (dl : Z) (s : p6_st) : bool := dl <=? n_ix (q_nd s).     (* self->ix >= self->datalen *)

Fixpoint p6_loop (n : nat) (body : p6_st -> p6_res) (s : p6_st) : p6_res :=
  match n with O => Go s | S k => match body s with Go s' => p6_loop k body s' | r => r end end.

(* lines 438-454: the rest of the first row *)
Definition p6_first_body U d dl h a wl (s : p6_st) : p6_res :=
  match p6_put U d h a false (q_left s) true s with
  | Go s' => if p6_end dl s' then Ret CORRUPT s' else Go (p6_skip a wl s')
  | r => r
  end.
(* lines 481-497 *)
Definition p6_row_body U d h a wl (s : p6_st) : p6_res :=
  let up := q_last s + q_col s in
  match p6_put U d h a true (q_rows s up + Z.shiftr (q_left s - q_rows s (up - 1)) 1) (row_ok h up && row_ok h (up - 1)) s with
  | Go s' => Go (p6_skip a wl s')
  | r => r
  end.
(* lines 460-501; Ret: break out of the loop (the code is decided by line 503) or return *)
Definition p6_row U d dl h a wl (s : p6_st) : p6_res :=
  let s := p6_col0 s in
  match p6_put U d h a true (q_rows s (q_last s)) (row_ok h (q_last s)) s with
  | Ret r s' => Ret r s'
  | Go s' =>
    let fin s := if pixels h <=? q_c s then NONE else CORRUPT in
    if p6_end dl s' then Ret (fin s') s'
    else match p6_loop (Z.to_nat (rowcount h)) (p6_row_body U d h a wl) (p6_skip a wl s') with
         | Ret r s'' => Ret r s''
         | Go s'' => let s'' := p6_swap s'' in if p6_end dl s'' then Ret (fin s'') s'' else Go s''
         end
  end.
Fixpoint p6_rows (fuel : nat) U d dl h a wl (s : p6_st) : Z * p6_st :=
  match fuel with
  | O => (CORRUPT, s)
  | S f => if q_c s <? pixels h then
             match p6_row U d dl h a wl s with Ret r s' => (r, s') | Go s' => p6_rows f U d dl h a wl s' end
           else (NONE, s)                                                                  (* line 503 *)
  end.
(* parsePred6.  The number of components is not looked at *)
Definition parse_pred6 U d dl h a wl rows img : Z * p6_st :=
  let s0 := {| q_nd := {| n_b := 0; n_cnt := 0; n_ix := j_scan h + beh d (j_scan h); n_hi := 0; n_oob := false |}; q_rows := rows; q_img := img; q_left := 0;
               q_this := 0; q_last := j_x h; q_col := 0; q_c := 0; q_out := 0; q_write := wl |} in
  match p6_put U d h a false (Z.shiftl 1 (j_bits h - 1)) true s0 with                       (* lines 424-434 *)
  | Ret r s => (r, s)
  | Go s =>
    if p6_end dl s then (CORRUPT, s)                                                        (* line 435 *)
    else match p6_loop (Z.to_nat (rowcount h)) (p6_first_body U d dl h a wl) (p6_dec s) with
         | Ret r s => (r, s)
         | Go s => p6_rows (S (Z.to_nat (j_y h))) U d dl h a wl (p6_swap s)
         end
  end.

(* lj92_decode for every predictor: (ret, image afterwards, state of the bit reader) *)
Definition lj92_decode_all (U : Z) (d : lmem) (dl : Z) (h : lj_hdr) (a : dec_arg) (wl : Z) (rows img : lmem) : Z * lmem * nd_st :=
  match lj92_decode U d h a rows img with
  | Some (r, s) => (r, s_img s, s_nd s)
  | None => let (r, s) := parse_pred6 U d dl h a wl rows img in (r, q_img s, q_nd s)
  end.
(* what the library does with a file: lj92_open, lj92_decode *)
Record lj_result_all := { la_open : Z; la_x : Z; la_y : Z; la_bits : Z; la_comp : Z; la_dec : Z; la_img : lmem; la_hi : Z; la_oob : bool }.
Definition lj_run_all (U : Z) (d : lmem) (dl : Z) (a : dec_arg) (wl : Z) (rows img : lmem) : lj_result_all :=
  let '(r, d', h) := lj92_open d dl in
  let '(r2, im, nd) := lj92_decode_all U d' dl h a wl rows img in
  {| la_open := r; la_x := j_x h; la_y := j_y h; la_bits := j_bits h; la_comp := j_comp h; la_dec := r2; la_img := im; la_hi := n_hi nd; la_oob := n_oob nd |}.

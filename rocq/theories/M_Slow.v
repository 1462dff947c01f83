(* liblj92/lj92.c compiled with SLOW_HUFF: the Huffman table as maxcode/mincode/valptr (lines 95-214) and the entropy decoder that reads one bit at a
   time (lines 284-342).  Conventions as in M_Lj92.v: memory a function, malloc/calloc succeed for the sizes asked for (a negative size does not), the ghost
   fields record the largest file index read and whether an access left one of the library's arrays (here huffsize, maxcode/mincode/valptr, huffval, rowcache).
   DEBUG printing is not modelled; sssshist is not used by this build. *)
From Verif Require Import Bits M_Lj92 M_Pred6.
Ltac Zify.zify_post_hook ::= idtac.

(* ------------------------------------------------------------------ parseHuff, lines 88-214 *)

(* huffval, maxcode, mincode, valptr of struct _ljp (lines 54-61) *)
Record sl_tab := { t_val : list Z; t_max : lmem; t_min : lmem; t_ptr : lmem }.
Definition tab0 : sl_tab := {| t_val := []; t_max := fun _ => 0; t_min := fun _ => 0; t_ptr := fun _ => 0 |}.   (* calloc *)
Definition NO_MEMORY : Z := -2.      (* lj92.h:30 *)

(* lines 106-140: huffsize, the lengths in order and a final 0 *)
Fixpoint sl_sizes (n : nat) (i : Z) (bits : lmem) : list Z :=
  match n with O => [0] | S k => repeat i (Z.to_nat (bits i)) ++ sl_sizes k (i + 1) bits end.
(* lines 158-181 (142-157 is the same walk without the store): huffcode; sizes is huffsize from k on.  None: huffsize[k] is read behind its end
   (an empty table, where si starts as 0).  Every turn takes an element of huffsize or increases si. *)
Fixpoint sl_codes (fuel : nat) (sizes : list Z) (code si : Z) : option (list Z) :=
  match fuel with
  | O => None
  | S f =>
    match sizes with
    | [] => None
    | z :: r =>
      if z =? si then match sl_codes f r (code + 1) si with Some l => Some (code :: l) | None => None end
      else if z =? 0 then Some []
      else sl_codes f sizes (Z.shiftl code 1) (si + 1)
    end
  end.
(* lines 183-211 *)
Fixpoint sl_tables (n : nat) (i j : Z) (bits : lmem) (codes : list Z) (t : sl_tab) : sl_tab :=
  match n with
  | O => t
  | S k =>
    if bits i =? 0 then sl_tables k (i + 1) j bits codes {| t_val := t_val t; t_max := upd (t_max t) i (-1); t_min := t_min t; t_ptr := t_ptr t |}
    else sl_tables k (i + 1) (j + bits i) bits codes
           {| t_val := t_val t; t_max := upd (t_max t) i (nth (Z.to_nat (j + bits i - 1)) codes 0); t_min := upd (t_min t) i (nth (Z.to_nat j) codes 0); t_ptr := upd (t_ptr t) i j |}
  end.
(* (ret, file, new ix, table, array overrun); this build advances ix (line 105) *)
Definition sl_parse_huff (d : lmem) (dl ix : Z) (t : sl_tab) : Z * lmem * Z * sl_tab * bool :=
  let d := upd d (ix + 2) 0 in                                             (* line 92 *)
  let hufflen := beh d ix in
  if dl <=? ix + hufflen then (CORRUPT, d, ix, t, false)                   (* line 94 *)
  else if hufflen <? 19 then (NO_MEMORY, d, ix, t, false)                  (* lines 96-97: calloc of a negative number of bytes *)
  else
    let bits := fun k => d (ix + 2 + k) in
    let huffval := map (fun k => d (ix + 19 + Z.of_nat k)) (seq 0 (Z.to_nat (hufflen - 19))) in
    let sizes := sl_sizes 16 1 bits in
    match sl_codes (length sizes + 17) sizes 0 (hd 0 sizes) with
    | None => (NONE, d, ix + hufflen, {| t_val := huffval; t_max := t_max t; t_min := t_min t; t_ptr := t_ptr t |}, true)
    | Some codes => (NONE, d, ix + hufflen, sl_tables 16 1 0 bits codes {| t_val := huffval; t_max := fun _ => 0; t_min := fun _ => 0; t_ptr := fun _ => 0 |}, false)
    end.
(* lines 595-619 with this parseHuff; lj_hdr's j_huffbits and j_lut do not exist in this build and stay as hdr0 has them *)
Fixpoint sl_parse_image (fuel : nat) (d : lmem) (dl ix : Z) (h : lj_hdr) (t : sl_tab) (oob : bool) : Z * lmem * lj_hdr * sl_tab * bool :=
  match fuel with
  | O => (CORRUPT, d, h, t, oob)
  | S f =>
    let (mk, ix) := lfind d dl ix in
    if mk =? 0xc4 then let '(r, d, ix, t, o) := sl_parse_huff d dl ix t in if r =? NONE then sl_parse_image f d dl ix h t (oob || o) else (r, d, h, t, oob || o)
    else if mk =? 0xc3 then let '(r, ix, h) := parse_sof3 d dl ix h in if r =? NONE then sl_parse_image f d dl ix h t oob else (r, d, h, t, oob)
    else if mk =? 0xd9 then (NONE, d, h, t, oob)
    else if mk =? 0xda then
      (NONE, d, {| j_x := j_x h; j_y := j_y h; j_bits := j_bits h; j_comp := j_comp h; j_scan := ix; j_huffbits := j_huffbits h; j_lut := j_lut h |}, t, oob)
    else if mk =? -1 then (CORRUPT, d, h, t, oob)
    else let (r, ix) := parse_block d dl ix in if r =? NONE then sl_parse_image f d dl ix h t oob else (r, d, h, t, oob)
  end.
(* lj92_open and findSoI, lines 621-626 and 650-684 *)
Definition sl_open (d : lmem) (dl : Z) : Z * lmem * lj_hdr * sl_tab * bool :=
  let (mk, ix) := lfind d dl 0 in
  if mk =? 0xd8 then sl_parse_image (Z.to_nat dl) d dl ix hdr0 tab0 false else (CORRUPT, d, hdr0, tab0, false).

(* ------------------------------------------------------------------ nextdiff, lines 284-342 *)

(* nextbit, lines 285-301 *)
Definition sl_nextbit (d : lmem) (s : nd_st) : Z * nd_st :=
  let load := n_cnt s =? 0 in
  let next := d (n_ix s) in
  let b := if load then next else n_b s in
  let ix := if load then (if next =? 255 then n_ix s + 2 else n_ix s + 1) else n_ix s in
  let cnt := if load then 8 else n_cnt s in
  (Z.shiftr b 7, {| n_b := Z.land (Z.shiftl b 1) 255; n_cnt := cnt - 1; n_ix := ix; n_hi := if load then Z.max (n_hi s) (n_ix s) else n_hi s; n_oob := n_oob s |}).
Definition sl_flag (s : nd_st) : nd_st := {| n_b := n_b s; n_cnt := n_cnt s; n_ix := n_ix s; n_hi := n_hi s; n_oob := true |}.
(* decode, lines 303-314: the loop, entered with i and code; maxcode has 17 elements *)
Fixpoint sl_decode (fuel : nat) (d : lmem) (t : sl_tab) (i code : Z) (s : nd_st) : Z * nd_st :=
  match fuel with
  | O => (0, sl_flag s)
  | S f =>
    if 16 <? i then (0, sl_flag s)                                         (* maxcode[17] *)
    else if t_max t i <? code then let (bit, s) := sl_nextbit d s in sl_decode f d t (i + 1) (Z.shiftl code 1 + bit) s
    else
      let j := t_ptr t i + code - t_min t i in
      if (j <? 0) || (Z.of_nat (length (t_val t)) <=? j) then (0, sl_flag s) else (nth (Z.to_nat j) (t_val t) 0, s)
  end.
(* receive, lines 316-324 *)
Fixpoint sl_receive (n : nat) (d : lmem) (v : Z) (s : nd_st) : Z * nd_st :=
  match n with O => (v, s) | S k => let (bit, s) := sl_nextbit d s in sl_receive k d (Z.shiftl v 1 + bit) s end.
(* extend, lines 326-333; 1 << -1 is U, as in M_Lj92.nextdiff *)
Definition sl_extend (U v t : Z) : Z := if v <? shl1 U (t - 1) then v + (Z.shiftl (-1) t + 1) else v.
(* lines 337-341 *)
Definition sl_nextdiff (U : Z) (d : lmem) (tb : sl_tab) (s : nd_st) : Z * nd_st :=
  let (bit, s) := sl_nextbit d s in
  let (t, s) := sl_decode 17 d tb 1 bit s in
  let (v, s) := sl_receive (Z.to_nat t) d 0 s in
  (sl_extend U v t, s).

(* ------------------------------------------------------------------ parseScan and parsePred6 for either nextdiff, lines 399-593
   The code between is not conditional on SLOW_HUFF.  The definitions below are those of M_Lj92.v and M_Pred6.v with nextdiff as an argument nd;
   decode_g_fast (at the end) checks that with the other build's nextdiff they are the same function. *)
Section Any.
Variable nd_ : nd_st -> Z * nd_st.
Definition sample_g (h : lj_hdr) (pred : Z) (a : dec_arg) (row col c : Z) (s : sc_st) : option sc_st :=
  let colx := col * j_comp h in
  let '(px, ok) := sample_px h pred row col c s in
  let (diff, nd) := nd_ (s_nd s) in
  let left := trunc 16 (Z.rem (px + diff) 65536) in
  let lin := match da_lin a with None => Some left | Some f => if da_linlen a <? left then None else Some (f left) end in
  let w := s_this s + colx + c in
  match lin with
  | None => None
  | Some v =>
    Some {| s_nd := {| n_b := n_b nd; n_cnt := n_cnt nd; n_ix := n_ix nd; n_hi := n_hi nd; n_oob := n_oob nd || negb ok || negb (row_ok h w) |};
            s_rows := upd (s_rows s) w left; s_img := upd (s_img s) (s_out s + colx + c) v;
            s_left := left; s_this := s_this s; s_last := s_last s; s_out := s_out s |}
  end.
Definition sample_stop_g (h : lj_hdr) (pred row col c : Z) (s : sc_st) : sc_st :=
  let (diff, nd) := nd_ (s_nd s) in
  {| s_nd := {| n_b := n_b nd; n_cnt := n_cnt nd; n_ix := n_ix nd; n_hi := n_hi nd; n_oob := n_oob nd || negb (snd (sample_px h pred row col c s)) |};
     s_rows := s_rows s; s_img := s_img s; s_left := s_left s; s_this := s_this s; s_last := s_last s; s_out := s_out s |}.
Definition scan_cols_g h pred a row : sc_st -> option sc_st :=
  for_loop (Z.to_nat (j_x h)) 0 (fun col => for_loop (Z.to_nat (j_comp h)) 0 (fun c => sample_g h pred a row col c)).
Definition scan_row_g h pred a (row : Z) (s : sc_st) : option sc_st :=
  match scan_cols_g h pred a row s with
  | None => None
  | Some s => Some {| s_nd := s_nd s; s_rows := s_rows s; s_img := s_img s; s_left := s_left s; s_this := s_last s; s_last := s_this s;
                      s_out := s_out s + (j_x h * j_comp h + da_skip a) |}
  end.
Definition scan_stop_g h pred a : sc_st -> sc_st :=
  for_stop (Z.to_nat (j_y h)) 0 (scan_row_g h pred a)
    (fun row => for_stop (Z.to_nat (j_x h)) 0 (fun col => for_loop (Z.to_nat (j_comp h)) 0 (fun c => sample_g h pred a row col c))
       (fun col => for_stop (Z.to_nat (j_comp h)) 0 (fun c => sample_g h pred a row col c) (fun c => sample_stop_g h pred row col c))).
Definition decode_g (d : lmem) (h : lj_hdr) (a : dec_arg) (rows img : lmem) : option (Z * sc_st) :=
  let scan := j_scan h in
  let compcount := d (scan + 2) in
  let pred := d (scan + 3 + 2 * compcount) in
  let s0 := {| s_nd := {| n_b := 0; n_cnt := 0; n_ix := scan + beh d scan; n_hi := 0; n_oob := false |}; s_rows := rows; s_img := img;
               s_left := 0; s_this := 0; s_last := j_x h; s_out := 0 |} in
  if 7 <? pred then Some (CORRUPT, s0)
  else if pred =? 6 then None
  else match for_loop (Z.to_nat (j_y h)) 0 (scan_row_g h pred a) s0 with
       | None => Some (CORRUPT, scan_stop_g h pred a s0)
       | Some s => Some (NONE, s)
       end.

Definition p6_put_g (h : lj_hdr) (a : dec_arg) (chk : bool) (px : Z) (ok : bool) (s : p6_st) : p6_res :=
  let (diff, nd) := nd_ (q_nd s) in
  let left := trunc 16 (Z.rem (px + diff) 65536) in
  let w := q_this s + q_col s in
  let nd' := {| n_b := n_b nd; n_cnt := n_cnt nd; n_ix := n_ix nd; n_hi := n_hi nd; n_oob := n_oob nd || negb ok || negb (row_ok h w) |} in
  let put v := Go {| q_nd := nd'; q_rows := upd (q_rows s) w left; q_img := upd (q_img s) (q_out s + q_c s) v; q_left := left;
                     q_this := q_this s; q_last := q_last s; q_col := q_col s + 1; q_c := q_c s + 1; q_out := q_out s; q_write := q_write s |} in
  match da_lin a with
  | None => put left
  | Some f => if chk && (da_linlen a <? left)
              then Ret CORRUPT {| q_nd := {| n_b := n_b nd; n_cnt := n_cnt nd; n_ix := n_ix nd; n_hi := n_hi nd; n_oob := n_oob nd || negb ok |};
                                  q_rows := q_rows s; q_img := q_img s; q_left := left; q_this := q_this s; q_last := q_last s; q_col := q_col s; q_c := q_c s;
                                  q_out := q_out s; q_write := q_write s |}
              else put (f left)
  end.
Definition p6_first_body_g dl h a wl (s : p6_st) : p6_res :=
  match p6_put_g h a false (q_left s) true s with
  | Go s' => if p6_end dl s' then Ret CORRUPT s' else Go (p6_skip a wl s')
  | r => r
  end.
Definition p6_row_body_g h a wl (s : p6_st) : p6_res :=
  let up := q_last s + q_col s in
  match p6_put_g h a true (q_rows s up + Z.shiftr (q_left s - q_rows s (up - 1)) 1) (row_ok h up && row_ok h (up - 1)) s with
  | Go s' => Go (p6_skip a wl s')
  | r => r
  end.
Definition p6_row_g dl h a wl (s : p6_st) : p6_res :=
  let s := p6_col0 s in
  match p6_put_g h a true (q_rows s (q_last s)) (row_ok h (q_last s)) s with
  | Ret r s' => Ret r s'
  | Go s' =>
    let fin s := if pixels h <=? q_c s then NONE else CORRUPT in
    if p6_end dl s' then Ret (fin s') s'
    else match p6_loop (Z.to_nat (rowcount h)) (p6_row_body_g h a wl) (p6_skip a wl s') with
         | Ret r s'' => Ret r s''
         | Go s'' => let s'' := p6_swap s'' in if p6_end dl s'' then Ret (fin s'') s'' else Go s''
         end
  end.
Fixpoint p6_rows_g (fuel : nat) dl h a wl (s : p6_st) : Z * p6_st :=
  match fuel with
  | O => (CORRUPT, s)
  | S f => if q_c s <? pixels h then
             match p6_row_g dl h a wl s with Ret r s' => (r, s') | Go s' => p6_rows_g f dl h a wl s' end
           else (NONE, s)
  end.
Definition parse_pred6_g (d : lmem) dl h a wl rows img : Z * p6_st :=
  let s0 := {| q_nd := {| n_b := 0; n_cnt := 0; n_ix := j_scan h + beh d (j_scan h); n_hi := 0; n_oob := false |}; q_rows := rows; q_img := img; q_left := 0;
               q_this := 0; q_last := j_x h; q_col := 0; q_c := 0; q_out := 0; q_write := wl |} in
  match p6_put_g h a false (Z.shiftl 1 (j_bits h - 1)) true s0 with
  | Ret r s => (r, s)
  | Go s =>
    if p6_end dl s then (CORRUPT, s)
    else match p6_loop (Z.to_nat (rowcount h)) (p6_first_body_g dl h a wl) (p6_dec s) with
         | Ret r s => (r, s)
         | Go s => p6_rows_g (S (Z.to_nat (j_y h))) dl h a wl (p6_swap s)
         end
  end.
Definition decode_all_g (d : lmem) (dl : Z) (h : lj_hdr) (a : dec_arg) (wl : Z) (rows img : lmem) : Z * lmem * nd_st :=
  match decode_g d h a rows img with
  | Some (r, s) => (r, s_img s, s_nd s)
  | None => let (r, s) := parse_pred6_g d dl h a wl rows img in (r, q_img s, q_nd s)
  end.
End Any.
Lemma decode_g_fast U d dl h a wl rows img :
  decode_all_g (nextdiff U d (j_huffbits h) (j_lut h)) d dl h a wl rows img = lj92_decode_all U d dl h a wl rows img.
Proof.
  assert (R : forall f s, p6_rows_g (nextdiff U d (j_huffbits h) (j_lut h)) f dl h a wl s = p6_rows f U d dl h a wl s).
  { induction f as [|f IH]; intros s; [reflexivity|]. cbn [p6_rows p6_rows_g]. destruct (q_c s <? _); [|reflexivity]. change (p6_row_g (nextdiff U d (j_huffbits h) (j_lut h)) dl h a wl s) with (p6_row U d dl h a wl s).
    destruct (p6_row U d dl h a wl s); [apply IH|reflexivity]. }
  unfold decode_all_g, lj92_decode_all. change (decode_g (nextdiff U d (j_huffbits h) (j_lut h)) d h a rows img) with (lj92_decode U d h a rows img).
  destruct (lj92_decode U d h a rows img) as [[r s]|]; [reflexivity|]. unfold parse_pred6_g, parse_pred6. cbv zeta.
  match goal with |- context [p6_put_g ?n ?h ?a ?c ?p ?o ?s] => change (p6_put_g n h a c p o s) with (p6_put U d h a c p o s) end.
  destruct (p6_put _ _ _ _ _ _ _ _) as [s|r s]; [|reflexivity]. destruct (p6_end dl s); [reflexivity|].
  change (p6_first_body_g (nextdiff U d (j_huffbits h) (j_lut h)) dl h a wl) with (p6_first_body U d dl h a wl).
  destruct (p6_loop _ _ _) as [s1|r s1]; [|reflexivity]. rewrite R. reflexivity.
Qed.

(* lj92_open, lj92_decode of this build *)
Definition sl_decode_all (U : Z) (d : lmem) (dl : Z) (h : lj_hdr) (t : sl_tab) := decode_all_g (sl_nextdiff U d t) d dl h.
Definition sl_run_all (U : Z) (d : lmem) (dl : Z) (a : dec_arg) (wl : Z) (rows img : lmem) : lj_result_all :=
  let '(r, d', h, t, o) := sl_open d dl in
  let '(r2, im, nd) := sl_decode_all U d' dl h t a wl rows img in
  {| la_open := r; la_x := j_x h; la_y := j_y h; la_bits := j_bits h; la_comp := j_comp h; la_dec := r2; la_img := im; la_hi := n_hi nd; la_oob := o || n_oob nd |}.

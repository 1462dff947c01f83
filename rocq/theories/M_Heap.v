(* liblj92/lj92.c: what the library allocates and frees (the default build).  A heap is the number of allocation calls so far, the blocks that are
   allocated now and a flag for a free of something that is not allocated; a block is named by the number of the call that returned it.  ok says
   which calls succeed (malloc, calloc, realloc returning NULL otherwise), so a theorem for every ok is one for every pattern of failures.
   calloc of zero bytes may return NULL or a block; both are covered.  Block sizes and contents are not modelled here (M_Lj92.v does the contents). *)
From Verif Require Import Bits M_Lj92 M_Enc92.
Ltac Zify.zify_post_hook ::= idtac.

Record heap := { hp_n : nat; hp_live : list nat; hp_bad : bool }.
Definition ptr := option nat.                                               (* None: NULL *)
Definition halloc (ok : nat -> bool) (H : heap) : ptr * heap :=
  if ok (hp_n H) then (Some (hp_n H), {| hp_n := S (hp_n H); hp_live := hp_n H :: hp_live H; hp_bad := hp_bad H |})
  else (None, {| hp_n := S (hp_n H); hp_live := hp_live H; hp_bad := hp_bad H |}).
(* free(NULL) does nothing *)
Definition hfree (p : ptr) (H : heap) : heap :=
  match p with
  | None => H
  | Some b => if existsb (Nat.eqb b) (hp_live H) then {| hp_n := hp_n H; hp_live := filter (fun x => negb (Nat.eqb b x)) (hp_live H); hp_bad := hp_bad H |}
              else {| hp_n := hp_n H; hp_live := hp_live H; hp_bad := true |}
  end.
Definition NO_MEMORY : Z := -2.                                             (* lj92.h:30 *)

(* ------------------------------------------------------------------ decoder *)

(* parseHuff, lines 88-95 and 216-266, with its malloc (lines 227-229): a table already there is overwritten, not freed *)
Definition hp_parse_huff (ok : nat -> bool) (d : lmem) (dl ix : Z) (h : lj_hdr) (lut : ptr) (H : heap) : Z * lmem * lj_hdr * ptr * heap :=
  let d1 := upd d (ix + 2) 0 in
  if dl <=? ix + beh d1 ix then (CORRUPT, d1, h, lut, H)
  else
    let (p, H) := halloc ok H in
    match p with
    | None => (NO_MEMORY, d1, {| j_x := j_x h; j_y := j_y h; j_bits := j_bits h; j_comp := j_comp h; j_scan := j_scan h;
                                 j_huffbits := max_bits 16 (fun k => d1 (ix + 2 + k)); j_lut := j_lut h |}, lut, H)
    | Some _ => let '(r, d2, h2) := parse_huff d dl ix h in (r, d2, h2, p, H)
    end.
(* parseImage, lines 595-619 *)
Fixpoint hp_parse_image (ok : nat -> bool) (fuel : nat) (d : lmem) (dl ix : Z) (h : lj_hdr) (lut : ptr) (H : heap) : Z * lmem * lj_hdr * ptr * heap :=
  match fuel with
  | O => (CORRUPT, d, h, lut, H)
  | S f =>
    let (mk, ix) := lfind d dl ix in
    if mk =? 0xc4 then let '(r, d, h, lut, H) := hp_parse_huff ok d dl ix h lut H in if r =? NONE then hp_parse_image ok f d dl ix h lut H else (r, d, h, lut, H)
    else if mk =? 0xc3 then let '(r, ix, h) := parse_sof3 d dl ix h in if r =? NONE then hp_parse_image ok f d dl ix h lut H else (r, d, h, lut, H)
    else if mk =? 0xd9 then (NONE, d, h, lut, H)
    else if mk =? 0xda then
      (NONE, d, {| j_x := j_x h; j_y := j_y h; j_bits := j_bits h; j_comp := j_comp h; j_scan := ix; j_huffbits := j_huffbits h; j_lut := j_lut h |}, lut, H)
    else if mk =? -1 then (CORRUPT, d, h, lut, H)
    else let (r, ix) := parse_block d dl ix in if r =? NONE then hp_parse_image ok f d dl ix h lut H else (r, d, h, lut, H)
  end.
(* the blocks a handle owns: the struct itself, hufflut, rowcache *)
Record handle := { k_self : nat; k_lut : ptr; k_row : ptr }.
(* free_memory (lines 628-648) and the free of the struct (lines 675, 705) *)
Definition hp_release (k : handle) (H : heap) : heap := hfree (Some (k_self k)) (hfree (k_row k) (hfree (k_lut k) H)).
(* lj92_open and findSoI, lines 621-626 and 650-684.  When the first calloc fails *lj is not written (line 654): the caller's handle is taken to be
   NULL then, as after every other failure (line 673). *)
Definition hp_open (ok : nat -> bool) (d : lmem) (dl : Z) (H : heap) : Z * lmem * lj_hdr * option handle * heap :=
  let (self, H) := halloc ok H in
  match self with
  | None => (NO_MEMORY, d, hdr0, None, H)
  | Some s =>
    let (mk, ix) := lfind d dl 0 in
    let '(r, d, h, lut, H) := if mk =? 0xd8 then hp_parse_image ok (Z.to_nat dl) d dl ix hdr0 None H else (CORRUPT, d, hdr0, None, H) in
    if r =? NONE then
      let (rc, H) := halloc ok H in                                         (* line 663 *)
      match rc with
      | None => (NO_MEMORY, d, h, None, hp_release {| k_self := s; k_lut := lut; k_row := None |} H)
      | Some _ => (NONE, d, h, Some {| k_self := s; k_lut := lut; k_row := rc |}, H)
      end
    else (r, d, h, None, hp_release {| k_self := s; k_lut := lut; k_row := None |} H)
  end.
(* lj92_close, lines 701-706 (free(NULL) at line 705 does nothing); lj92_decode (lines 686-699) and parseScan neither allocate nor free *)
Definition hp_close (lj : option handle) (H : heap) : heap := match lj with None => H | Some k => hp_release k H end.

(* a program that uses the decoder: opens files (each open fills the next slot of a table of handles) and closes handles.  It does not keep a handle it
   has closed: the slot becomes NULL. *)
Inductive dec_op := OOpen (d : lmem) (dl : Z) | OClose (k : nat).
Fixpoint put_null (k : nat) (l : list (option handle)) : list (option handle) :=
  match l, k with [], _ => [] | _ :: r, O => None :: r | x :: r, S k => x :: put_null k r end.
Fixpoint hp_run (ok : nat -> bool) (ops : list dec_op) (tab : list (option handle)) (H : heap) : list (option handle) * heap :=
  match ops with
  | [] => (tab, H)
  | OOpen d dl :: r => let '(_, _, _, lj, H) := hp_open ok d dl H in hp_run ok r (tab ++ [lj]) H
  | OClose k :: r => hp_run ok r (put_null k tab) (hp_close (nth k tab None) H)
  end.

(* ------------------------------------------------------------------ encoder *)

(* realloc (line 1198): NULL and the old block kept, or the new block in place of the old *)
Definition hrealloc (ok : nat -> bool) (p : ptr) (H : heap) : ptr * heap :=
  if ok (hp_n H) then let (q, H1) := halloc ok H in (q, hfree p H1) else halloc ok H.
(* frequencyScan and writeBody (lines 730-796, 1026-1151): rowcache is not checked for NULL, so a failing calloc is fatal as soon as there is a pixel
   (None); it is freed on every way out *)
Definition hp_rows (ok : nat -> bool) (n : Z) (H : heap) : option heap :=
  let (rc, H) := halloc ok H in match rc with None => if 0 <? n then None else Some H | Some _ => Some (hfree rc H) end.
(* lj92_encode, lines 1156-1205: None: the program dies on a NULL pointer; otherwise (ret, the block *encoded is set to).  createEncodeTable, writeHeader and
   writePost neither allocate nor free. *)
Definition hp_encode (ok : nat -> bool) (img : lmem) (w h bd rl sl : Z) (delin : option lmem) (mem0 : lmem) (H : heap) : option (Z * ptr * heap) :=
  let (self, H) := halloc ok H in
  match self with
  | None => Some (NO_MEMORY, None, H)                                       (* line 1163 *)
  | Some _ =>
    let (enc, H) := halloc ok H in
    match enc with
    | None => Some (NO_MEMORY, None, hfree self H)                          (* line 1174 *)
    | Some _ =>
      match hp_rows ok (w * h) H with
      | None => None
      | Some H =>                                                           (* frequencyScan always returns LJ92_ERROR_NONE *)
        match hp_rows ok (w * h) H with
        | None => None
        | Some H =>
          let '(r, _, _) := lj92_encode img w h bd rl sl delin mem0 in
          if r =? NONE then let (out, H) := hrealloc ok enc H in Some (NONE, out, hfree self H)
          else Some (r, None, hfree self (hfree enc H))                     (* lines 1188-1191 *)
        end
      end
    end
  end.

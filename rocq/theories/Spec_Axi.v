(* SPECIFICATION: AXI-lite masters, and register banks seen through the bus. *)
From Verif Require Import Bits M_AxiLite.

(* ---------- a master with at most one read and one write in progress ---------- *)

(* read: nothing in progress / address a offered / address accepted, waiting for the answer.
   The flag tells whether rready was already raised. *)
Inductive rd_state := RIdle | RAddr (a : Z) (k : bool) | RWait (a : Z) (k : bool).
(* write: the address and the data are offered independently, in any order *)
Inductive phase (A : Type) := PNot | PHeld (x : A) | PDone (x : A).
Arguments PNot {A}. Arguments PHeld {A} x. Arguments PDone {A} x.
Record ms := { m_rd : rd_state; m_aw : phase Z; m_wd : phase (Z * Z); m_b : bool }.
Definition ms_init : ms := {| m_rd := RIdle; m_aw := PNot; m_wd := PNot; m_b := false |}.

(* completed transactions *)
Inductive event := Did_read (a data resp : Z) | Did_write (a data strb resp : Z).

(* what the master owes in a cycle: it holds an offered address or data until it is accepted, offers
   nothing new before the previous transaction of that kind is answered, and keeps rready / bready
   raised until the answer comes.  Signals fit their width. *)
Definition m_ok (m : ms) (i : ax_in) : Prop :=
  match m_rd m with
  | RIdle => True
  | RAddr a k => ai_arvalid i = true /\ ai_araddr i = a /\ (k = true -> ai_rready i = true)
  | RWait a k => ai_arvalid i = false /\ (k = true -> ai_rready i = true)
  end /\
  match m_aw m with
  | PNot => True
  | PHeld a => ai_awvalid i = true /\ ai_awaddr i = a
  | PDone a => ai_awvalid i = false
  end /\
  match m_wd m with
  | PNot => True
  | PHeld (d, st) => ai_wvalid i = true /\ ai_wdata i = d /\ ai_wstrb i = st
  | PDone _ => ai_wvalid i = false
  end /\
  (m_b m = true -> ai_bready i = true) /\
  0 <= ai_araddr i < 2 ^ 32 /\ 0 <= ai_awaddr i < 2 ^ 32 /\ 0 <= ai_wdata i < 2 ^ 32 /\ 0 <= ai_wstrb i < 16.

(* how the master proceeds, and the transactions completed in this cycle *)
Definition m_next_rd (m : ms) (i : ax_in) (o : ax_out) : rd_state * list event :=
  match m_rd m with
  | RWait a _ => if ao_rvalid o && ai_rready i then (RIdle, [Did_read a (ao_rdata o) (ao_rresp o)]) else (RWait a (ai_rready i), [])
  | _ => if ai_arvalid i then (if ao_arready o then RWait (ai_araddr i) (ai_rready i) else RAddr (ai_araddr i) (ai_rready i), []) else (RIdle, [])
  end.
Definition m_next_aw (m : ms) (i : ax_in) (o : ax_out) : phase Z :=
  match m_aw m with
  | PDone a => PDone a
  | _ => if ai_awvalid i then (if ao_awready o then PDone (ai_awaddr i) else PHeld (ai_awaddr i)) else PNot
  end.
Definition m_next_wd (m : ms) (i : ax_in) (o : ax_out) : phase (Z * Z) :=
  match m_wd m with
  | PDone x => PDone x
  | _ => if ai_wvalid i then (if ao_wready o then PDone (ai_wdata i, ai_wstrb i) else PHeld (ai_wdata i, ai_wstrb i)) else PNot
  end.
Definition m_next (m : ms) (i : ax_in) (o : ax_out) : ms * list event :=
  let '(rd, e1) := m_next_rd m i o in
  let aw := m_next_aw m i o in
  let wd := m_next_wd m i o in
  let started := match aw, wd with PNot, PNot => false | _, _ => true end in
  match m_aw m, m_wd m with
  | PDone a, PDone (d, st) =>
      if ao_bvalid o && ai_bready i
      then ({| m_rd := rd; m_aw := PNot; m_wd := PNot; m_b := false |}, e1 ++ [Did_write a d st (ao_bresp o)])
      else ({| m_rd := rd; m_aw := aw; m_wd := wd; m_b := ai_bready i |}, e1)
  | _, _ => ({| m_rd := rd; m_aw := aw; m_wd := wd; m_b := started && ai_bready i |}, e1)
  end.

(* a whole run of the bus *)
Fixpoint m_run (m : ms) (l : list (ax_in * ax_out)) : ms :=
  match l with [] => m | (i, o) :: r => m_run (fst (m_next m i o)) r end.
Fixpoint m_all_ok (m : ms) (l : list (ax_in * ax_out)) : Prop :=
  match l with [] => True | (i, o) :: r => m_ok m i /\ m_all_ok (fst (m_next m i o)) r end.
Fixpoint m_log (m : ms) (l : list (ax_in * ax_out)) : list event :=
  match l with [] => [] | (i, o) :: r => snd (m_next m i o) ++ m_log (fst (m_next m i o)) r end.

(* the slave answers only what was asked *)
Definition m_sane (m : ms) (o : ax_out) : Prop :=
  (ao_rvalid o = true -> exists a k, m_rd m = RWait a k) /\
  (ao_bvalid o = true -> exists a x, m_aw m = PDone a /\ m_wd m = PDone x).
Fixpoint m_all_sane (m : ms) (l : list (ax_in * ax_out)) : Prop :=
  match l with [] => True | (i, o) :: r => m_sane m o /\ m_all_sane (fst (m_next m i o)) r end.

(* ---------- sequential meaning ---------- *)

(* rd B a v r: reading address a of a bank with contents B may answer data v with response r;
   wr B a d st = (B', r): writing changes it to B' and answers r.  A log is explained if every
   answer is the one the bank gives after the writes that precede it in the log. *)
Fixpoint explained {B : Type} (rd : B -> Z -> Z -> Z -> Prop) (wr : B -> Z -> Z -> Z -> B * Z) (b : B) (l : list event) (b' : B) : Prop :=
  match l with
  | [] => b = b'
  | Did_read a v r :: l => rd b a v r /\ explained rd wr b l b'
  | Did_write a d st r :: l => snd (wr b a d st) = r /\ explained rd wr (fst (wr b a d st)) l b'
  end.

(* replace the strobed bytes: bit j of the result is that of d if bit j/8 of st is set *)
Definition strobed (st old d res : Z) : Prop :=
  0 <= res < 2 ^ 32 /\
  forall j, 0 <= j < 32 -> Z.testbit res j = if Z.testbit st (j / 8) then Z.testbit d j else Z.testbit old j.

(* ---------- the core's register bank ---------- *)

Record bank := { k_hw : Z; k_allowed : Z; k_mem : list Z }.
(* word index w = byte address / 4: 0x400 + 2k, +2k+1: Huffman entry k, low and high word;
   0x800, 0x801: height/width and allowed cycles; 0x1000 + k: debug counter k (if present) *)
Inductive target := T_huff (k : Z) (high : bool) | T_hw | T_allowed | T_debug (k : Z) | T_none.
Definition decode (bd : Z) (dbg : bool) (addr : Z) : target :=
  let w := addr / 4 in
  if Z.testbit w 10 && (w mod 64 <? 2 * (bd + 1)) then T_huff (w mod 64 / 2) (Z.odd w)
  else if Z.testbit w 11 then (if Z.odd w then T_allowed else T_hw)
  else if dbg && Z.testbit w 12 then T_debug (w mod 8)
  else T_none.
Definition entry (b : bank) (k : Z) : Z := nth (Z.to_nat k) (k_mem b) 0.

(* reading; sn: the values the eight debug counters may have had *)
Definition bank_rd (bd : Z) (dbg : bool) (sn : list Z -> Prop) (b : bank) (addr v r : Z) : Prop :=
  match decode bd dbg addr with
  | T_huff k false => v = entry b k mod 2 ^ 32 /\ r = 0
  | T_huff k true => v = entry b k / 2 ^ 32 /\ r = 0
  | T_hw => v = k_hw b /\ r = 0
  | T_allowed => v = k_allowed b /\ r = 0
  | T_debug k => (exists dr, sn dr /\ v = nth (Z.to_nat k) dr 0) /\ r = 0
  | T_none => r = 3
  end.
(* writing.  What the hardware does to a Huffman entry: a write to the low word replaces its
   strobed bytes and clears the high word; a write to the high word clears the low word and the
   strobed bytes of the high word, whatever the data. *)
Definition huff_after (bd : Z) (old : Z) (high : bool) (d st : Z) : Z :=
  if high then al_merge st (old / 2 ^ 32) 0 * 2 ^ 32 mod 2 ^ (bd + 21) else al_merge st (old mod 2 ^ 32) d mod 2 ^ (bd + 21).
Definition bank_wr (bd : Z) (dbg : bool) (b : bank) (addr d st : Z) : bank * Z :=
  match decode bd dbg addr with
  | T_huff k high =>
      ({| k_hw := k_hw b; k_allowed := k_allowed b; k_mem := set_nth (Z.to_nat k) (huff_after bd (entry b k) high d st) (k_mem b) |}, 0)
  | T_hw => ({| k_hw := al_merge st (k_hw b) d; k_allowed := k_allowed b; k_mem := k_mem b |}, 0)
  | T_allowed => ({| k_hw := k_hw b; k_allowed := al_merge st (k_allowed b) d mod 2 ^ 24; k_mem := k_mem b |}, 0)
  | T_debug _ => (b, 2)
  | T_none => (b, 3)
  end.

(* ---------- the DMA's register bank ---------- *)

Record dbank := { g_read : Z; g_write : Z; g_start : Z }.
(* word index w = byte address / 4; bit 10 of w selects the bank, its low four bits the register:
   0, 1, 2: read address, write address, start; 3 .. 11: status inputs 1 .. 9; 12 .. 15: nothing *)
Inductive dtarget := D_reg (k : Z) | D_status (k : Z) | D_hole | D_none.
Definition ddecode (addr : Z) : dtarget :=
  let w := addr / 4 in
  if Z.testbit w 10 then
    if w mod 16 <? 3 then D_reg (w mod 16) else if w mod 16 <=? 11 then D_status (w mod 16 - 3) else D_hole
  else D_none.
Definition dreg (b : dbank) (k : Z) : Z := if k =? 0 then g_read b else if k =? 1 then g_write b else g_start b.
Definition dset (b : dbank) (k v : Z) : dbank :=
  {| g_read := if k =? 0 then v else g_read b; g_write := if k =? 1 then v else g_write b; g_start := if k =? 2 then v else g_start b |}.
(* sn: the values the nine status inputs may have had *)
Definition dbank_rd (sn : list Z -> Prop) (b : dbank) (addr v r : Z) : Prop :=
  match ddecode addr with
  | D_reg k => v = dreg b k /\ r = 0
  | D_status k => (exists ins, sn ins /\ v = nth (Z.to_nat k) ins 0) /\ r = 0
  | D_hole => r = 0
  | D_none => r = 3
  end.
Definition dbank_wr (b : dbank) (addr d st : Z) : dbank * Z :=
  match ddecode addr with
  | D_reg k => (dset b k (al_merge st (dreg b k) d), 0)
  | D_status _ => (b, if st =? 0 then 0 else 2)
  | D_hole => (b, 0)
  | D_none => (b, 3)
  end.

open Core
let rec pos_of n = if n = 1 then XH else if n land 1 = 1 then XI (pos_of (n lsr 1)) else XO (pos_of (n lsr 1))
let z n = if n = 0 then Z0 else if n > 0 then Zpos (pos_of n) else Zneg (pos_of (-n))
let rec ip = function XH -> 1 | XI p -> 2*ip p+1 | XO p -> 2*ip p
let iz = function Z0 -> 0 | Zpos p -> ip p | Zneg p -> - (ip p)
let read f = let ic = open_in_bin f in let n = in_channel_length ic in let s = really_input_string ic n in close_in ic; s
let () =
  let f = Sys.argv.(1) and rows = int_of_string Sys.argv.(2) and ps = int_of_string Sys.argv.(3) and conv = int_of_string Sys.argv.(4) in
  let outb=int_of_string Sys.argv.(5) in
  let raw = read f in let exp = read (f ^ "_headerless_nofix.lj92") in
  let px i = let t = i/2*3 in let b k = Char.code raw.[t+k] in
    if i land 1 = 0 then (b 0 lsl 4) lor (b 1 lsr 4) else ((b 1 land 15) lsl 8) lor b 2 in
  let c = {bd=z 12; ps=z ps; ljd=z 25; conv=z conv; cfd = z (7+ (28*ps+conv-1)/conv); outb=z outb; bufs=z (conv+outb)} in
  Printf.printf "cfg_ok %b\n" (cfg_ok c);
  let mem = init_huff_table (z 12) in
  let st = ref (i3_init c) in
  let groups = 4096*rows/ps in
  let k = ref 0 and buf = Buffer.create 100000 and fin = ref false and cyc = ref 0 in
  while not !fin do
    incr cyc;
    let v = Random.int 4 > 0 && !k < groups in let busy = Random.int 3 = 0 in
    let g = if !k<groups then List.init ps (fun j -> z (px (!k*ps+j))) else List.init ps (fun _ -> Z0) in
    if v && not (i3_nready !st) then incr k;
    if i3_valid_out !st && not busy then begin
      let w = iz (i3_data_out !st) in
      for j = outb/8-1 downto 0 do Buffer.add_char buf (Char.chr ((w lsr (8*j)) land 255)) done;
      if i3_end_out !st then fin := true end;
    st := i3_step c mem !st {in_valid=v; in_px=g; in_busy=busy; in_w=z 4096; in_h=z rows};
  done;
  let o = Buffer.contents buf in
  let n = min (String.length o) (String.length exp) in
  let d = ref 0 in while !d < n && o.[!d] = exp.[!d] do incr d done;
  Printf.printf "cycles %d out %d exp %d first diff %d\n" !cyc (String.length o) (String.length exp) !d

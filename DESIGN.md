# Formal model of the JPEG-1992 lossless encoder core (Rocq / Coq 8.16.1)

## 1. What is modelled and how

The code in `/repo/migen_src` is nMigen: Python that *describes* synchronous hardware.  The meaning
of an nMigen module is a Mealy machine: registers (`m.d.sync`) and combinational wires (`m.d.comb`).
Each module becomes

* a record of registers (one field per `Signal` that is assigned in `m.d.sync`, the FSM state an
  inductive type),
* an initial record (the `reset=` values, 0 otherwise),
* a `step` function computing all registers after one clock edge from the registers before it and the
  inputs of that cycle.  Inside one `m.d.sync` block the *last* assignment wins; the model's branches
  are written so that this is what is computed.

Values are `Z`; every assignment to a signal of width `w` is truncated explicitly (`trunc w x = x mod
2^w`), so truncation bugs are visible.  Slices `x[lo:hi]` are `(x / 2^lo) mod 2^(hi-lo)`.  All
configuration parameters (`bit_depth`, `pixels_per_cycle`, FIFO depths, `converter`, `out_bits`, buffer
size ...) are universally quantified, restricted only by a boolean predicate that transcribes the
constructors' `assert`s.  Each definition cites the file and lines it models.

An execution is a list of per-cycle inputs (any schedule of `valid_in`, `busy_in`, pixel data, ...), run
from the reset state; theorems quantify over all such lists.

### Files (`rocq/theories`)

| file | content |
|---|---|
| `Bits.v` | MSB-first bit strings, truncation/slice arithmetic |
| `Spec.v`, `Spec_Core.v`, `Spec_Beta.v`, `Spec_Rate.v`, `Spec_Time.v`, `Spec_Axi.v` | the *specification*: LJ92 code words, predictor, bit-level decoder, packing, stuffing, framing; supported frames and environments; frame-by-frame view of a run; AXI-lite masters and the abstract register bank. `Spec.v` is written from the standard (T.81) and is independent of the models |
| `M_Config` | config.py and the constructors' assertions |
| `M_Signals`, `M_Predictor`, `M_Difference`, `M_Normalize`, `M_Encode`, `M_Merge`, `M_I1` | signals, predictor (1/2/4 pixels), difference, normalize, encode + Huffman memory, merge, integration_1 (their pipeline) |
| `M_Fifo`, `M_Converter`, `M_VBits`, `M_I3` | SyncFIFOBuffered, lj92_pipeline_fifo, converter(_fifo), vbits_to_cbits, integration_2/3 |
| `M_Fix`, `M_Markers`, `M_Beta`, `M_Micro` | fix_0xff, fix_0xff2, markers, force_end, auto_reset, register_file, beta_integration, micro_integration |
| `M_AxiLite` | core_axi_lite, dma_axi_lite |
| `M_Width`, `M_SyncFifo`, `M_AxiHP`, `M_FullAxi`, `M_Top`, `M_Lvds` | b16_b64, b16_b40, b64_b32_2; SyncFIFO, b64_b32, axihp_fifo; axihp_writer/reader, address_generator; the four top levels beta_integration_{fullaxi,axistream,fifo_axistream,fifo_lvds} |
| `M_Misc`, `M_Driver` | delayer, reverser, debug_module, constraints; software/src/core_axi_lite.cpp, the packing functions of xilinx_test.cpp |
| `M_Lj92`, `M_Pred6`, `M_Enc92`, `M_Slow` | liblj92/lj92.c: decoder (parseScan), decoder (parsePred6), encoder, SLOW_HUFF decoder; specification of the file format in `Spec_Lj92.v`, `Spec_P6.v`, `Spec_Pn.v` |
| `P_*.v` | invariants and auxiliary proofs |
| `Props_*.v` | the property theorems `Cxx_name`, each with `Cxx_example...` (a concrete run meeting the hypotheses) |

`tools/mkprops.py` writes properties.jsonl, `tools/mkmanifest.py` writes MANIFEST.json from the theorem
names, `tools/mklog.py` writes seeded/LOG.jsonl from the raw mutation results.

## 2. Plan per property

| id | model | proof |
|---|---|---|
| C01 | cycle-accurate composition of signals, predictor, difference, normalize, encode(+memory), merge, lj92 fifo, converter, converter fifo, vbits packer (integration_3) | global token-stream invariant: emitted ++ in-flight tokens = tokens of the accepted groups; then decoder round trip |
| C02 | same at bit_depth 16 | characterisation theorem (`seen`) + witness |
| C03 | `get_ssss`, `init_huff_table` | finite table computed once, lifted to all pairs; Annex C code generation written in the spec |
| C04, C05, C07, C08 | pure step functions, all widths | arithmetic on bit strings, induction on the tree |
| C06, C09, C10, C11 | predictor / whole arithmetic pipeline / signals FSM | invariants over the list of accepted groups; counterexamples for C11 |
| C12, C13 | fifo + pipeline; converter FSM + fifo | occupancy invariants with explicit slack |
| C14-C17 | vbits InputHandler/OutputHandler; integration_2 ready logic | buffer-contents invariant; history invariants |
| C18 | integration_3 | ranking argument (progress measure); `C18_bounded` bounds the tokens in flight by the capacity of the core and so gives an explicit number of cycles |
| C19-C21 | fix_0xff, fix_0xff2 FSMs | contents invariants for all schedules |
| C22-C24, C28, C29, C48 | markers FSM | phase invariant; witnesses by computation for the refuted readings |
| C25-C27, C30 | beta/micro composition, force_end, auto_reset | composition of the above; micro: loss theorem for every frame |
| C31 | SyncFIFOBuffered (from the generated verilog) | refinement to a list queue |
| C32-C35, C47 | core_axi_lite / dma_axi_lite FSMs | bus monitor; completed transactions explained by an abstract register bank, over all wait schedules |
| C36-C39, C49 | width converters, FIFOs | ghost lists accepted/delivered, contents invariants, drain and stability theorems; witness for temp_8 |
| C40-C42, C50 | axihp_writer/reader, address_generator, their FIFOs | counting invariants; closed form of addresses; counterexamples |
| C43, C44 | delayer, reverser, debug counters, constraints | direct inductions |
| C45 | reference encoder | size bounds by induction over the samples |
| C46 | the driver as a program of loads/stores | executed on the abstract register bank that C32-C34 relate to the bus |
| C51 | the two stream tops | composition of C25 with C38; RAW12 packing lemma |
| C52 | the full-AXI top | log decomposed into runs from fresh states; component theorems applied to each; start register and end marks: one-step invariants (Props_FullAxi2) |
| C53 | the LVDS top | invariant relating the converter buffers to the frames so far, with the core's silence after reset as slack |
| C54-C58 | liblj92/lj92.c (decoder) | refinement of the table-driven entropy decoder and of parseScan to the reference decoder of `Spec.v`; see section 4 |
| C59 | checks of xilinx_test.cpp on memories (functions from addresses to bytes) | loop invariants; soundness through C24/C25 |
| C60 | xilinx_dma.cpp as a program of loads and stores | execution against arbitrary answers of the device |
| C61 | beta_integration over infinite schedules | run without reset, progress of each stage (C18, C20-C22), least reset cycle, induction on frames |
| C62 | integration_3_axi_stream.py (pins around M_I3, register_file sizes) | instance of the I3 invariant and of C18; sizes are 0 only while the core is not ready |
| C63 | axi_lite.py in front of core_axi_lite and dma_axi_lite | projection onto C32/C47; invariant tying the ID registers to the slave's state; failure invariant for simultaneous addresses |
| C64 | parsePred6 (liblj92/lj92.c:399-505) | refinement as in C54: look-ahead register = bits still to be decoded, row buffer = the last two rows, write pointer = tile_pos; the first-row check on the end of the data never fires for at least 25 columns and two rows; writeLength 1 by simulation with a run whose counter never reaches 0; C64_any: the same invariant for every size and table, the returned code tied to the sample at which the loop stopped |
| C65 | createEncodeTable (lj92.c:798-977), binary32 via SpecFloat | rounding of a quotient of integers below 2^31 is positive and at most 1 (P_Float); invariant of the merge loop over chains: exact Kraft sum (P_Huff); the adjustment loop keeps the Kraft sum and ends within 16 bits (P_Huff2); the code loop yields Annex C codes (P_Huff3) |
| C66 | frequencyScan, writeHeader, writeBody, writePost, lj92_encode (lj92.c:707-1205) | walk invariant (row cache = last two rows, pixel pointer = tile_pos), writer invariant (bytes stored ++ partial byte = bits so far), induction over the samples |
| C67 | C66 composed with C64 | Annex C codes are prefix-free, so reading what was written gives the samples back; counterexample for one row by evaluation; every size by C64_any |
| C68 | writeBody without any assumption on the differences | writer invariant with the bound on the write index; sharpness by evaluation of a concrete 6 x 92 image |
| C69 | writeBody with a delinearization table | as C66, table and body from two images; counterexample by evaluation |
| C70 | lj92_open on any list of segments, parseScan with every predictor and component count | induction over the segments; per-sample invariant of parseScan with the overlap of the two row buffers made explicit; round trip from prefix-freeness of Annex C codes |
| C71 | the same; M_Pred6 | the invariant of C70 up to the first wrong sample; later rows keep it; predictor 6: the invariant of C64 holds for any component count |
| C72 | lj92_open on any memory and length (fuel never runs out) | invariant of parseImage: bytes changed so far, handle in range; agreement of two memories |
| C73 | lj92_decode on any memory | per-sample invariant: places written, state of the bit reader (either an array was left, or the counts are in range); P_Rob2-P_Rob4 |
| C74 | the same | potential 8*ix - cnt grows by at least one per sample |
| C29 (whole cores) | beta and micro cores | invariant over the markers state and the words handed over since the last end word, for any core with this output stage (`like_core`), instantiated twice |
| C75 | micro_integration_axistream | pin traces; reduction to C30 |
| C76 | the table lookups of parseScan and parsePred6 | two runs with tables that agree up to their length give the same result (any bytes); the per-sample invariant of C70 extended with the state in which parseScan returns early; one-past read and unchecked first row as corollaries for every file |
| C77 | integration_3 over infinite schedules | the progress measure of C18 with an arbitrary source: either progress or a quiet core, and a quiet core holds less than one word; with a bound: the potential of C85 (P_Drain) falls in every ready cycle in which no pixel is taken until the core is hollow (P_Flush2); with any source: it rises by a constant per group taken, and more than store_bits / ps groups taken push the old ones out (P_Flush3) |
| C78, C48 (complete core) | beta_integration over infinite schedules | silence invariant below 16 bits; above: C77 on the encoder inside the core, a word that left the encoder wakes the marker stage within two cycles, then the force-end timer (C26) |
| C11 (encoder) | integration_3 | no end flag anywhere in the pipeline, preserved for every input (`quiet` invariant) |
| C79 | the SLOW_HUFF variant of liblj92 (`M_Slow.v`) | the tables maxcode/valptr built by parseHuff characterise the code book; lock-step relation between the bit reader and the look-ahead register; scan and predictor-6 loops run generically over both readers |
| C80 | integration_3, run by run | invariant: converter in burst, pipeline FIFO never above two items, packer never out of room; a potential (bits in the packer + M x items waiting + M x busy credits) bounds the converter FIFO; upper bound from the token invariant of C01 |
| C81 | beta_integration, frame by frame | invariant: words handed over in this frame + 3 <= cycles since the first acceptance, while force_end has not fired; composed with C25 |
| C82 | beta_integration, frame by frame | ranking: cycles until force_end is raised (ForceEnd), then ready cycles until the end word (Markers); lower bound as an invariant relating the force_end and marker counters to the cycles since the frame began; composed with C25 |
| C83 | liblj92 with SLOW_HUFF | invariants over the segment loop and over the scan loops for any nextdiff; accounting of bits taken against bytes read; C73 carried over by C79 |
| C84 | integration_3 (I3) under arbitrary back-pressure | invariants on three deficits (accepted groups, items out of the converter, items in the buffer, each against clock minus lost cycles), slack by converter state and packer state, a potential `consum + outb * deficit` for the bit buffer; fullness of a fifo bounds the deficit in front of it |
| C85 | integration_3 (I3) after the last accepted group | a weighted sum over packer, fifos, converter, pipeline and restart states that never rises and falls in every ready cycle (`psi`, then `chi` for the last words), with the packer refill invariant of C80 at M = conv; its maximum is `drain_cycles` |
| C86 | the whole beta core (`M_Beta`), runs of several frames | two phases: while groups are missing, the delay invariant of C84 plus an account `kap` of the stuffing stages and the header (every cycle in which the core is held up is paid for by a busy sink or a stuffed byte); afterwards one potential `pot` (C85's measure, `kap`, the bytes 0xFF still to come, then `rho` for the last words and the trailer) that falls in every ready cycle; C82 gives that the limit has not struck |
| C87 | parsePred6 with `pixels` as a wrapped 32-bit product, on `p6_file` and any `Spec_Pn` header | 2^31 <= x*y < 2^32 wraps to a negative number, so the row loop is not entered; the first row by the row invariant of C64 (now for a file holding at least two rows); no columns: the row index is outside the cache at the first sample and the mark is kept (pred6_keep) |
| C88 | `M_Heap.v`: allocations and frees of lj92_open, parseHuff, free_memory, lj92_close; an arbitrary oracle says which allocation fails | invariant over the marker loop: allocated = table in force + tables overwritten + rest, tables so far <= pairs FF C4 passed (the file is only changed towards zero); induction over the operations of the program; exact count by the segment walk of C70 |
| C89 | `M_Heap.v`: allocations and frees of lj92_encode, frequencyScan, writeBody | case analysis over the five allocation calls, with the return value of `M_Enc92` |
| C90 | `V_Gen.v`: modules of verilog_src translated to Gallina by tools/verilog2coq.py (run by tools/mkvgen.py); `V_Gen2.v` likewise (tools/mkvgen2.py), `V_Gen3.v` (tools/mkvgen3.py; the empty strings in core_axi_lite.v:554-557 are read as the zero byte, IEEE 1364-2005 5.2.3.3) | simulation relation between the translated registers and the model's state, `P_Verilog.v`, `P_VerilogFx.v`, `P_VerilogMid.v`, `P_Verilog2.v`, `P_Verilog3.v`, `P_Verilog4.v`; equal traces in `Props_Verilog.v`, `Props_Verilog2.v`, `Props_Verilog3.v`, `Props_Verilog4.v` |
| C91 | the whole of verilog_src/beta_integration.v (module top and all it instantiates) in `V_Gen.v`; the pin-level reading of a run in `Spec_VerilogCore.v` | the simulation relations of C90 composed up the hierarchy (`P_VerilogTop.v`), the run at the pins shown to be a run of M_Beta (`P_VerilogCore.v`), C25, C56, C61, C82, C86 carried over (`Props_VerilogCore.v`), and C29, C81 (`Props_VerilogStable.v`) |

Not expressible in this model: physical timing, synthesis results, metastability between clock domains, and anything
about the Linux side (mmap, /dev/mem, process failures).

## 3. Trusted base

* The Coq 8.16.1 kernel and its `vm_compute` (used in examples and finite table checks).
* `Print Assumptions` of every theorem listed in MANIFEST.json says *Closed under the global context*: no axioms.
  (`coqchk` / vcheck lists `Coq.ssr.ssrunder.Under_rel.*` because the standard library file `ZifyBool` loads it;
  no theorem depends on it.)
* The reading of nMigen: `m.d.sync` assignments take effect at the clock edge, the last one wins, comb assignments
  settle within the cycle, registers not declared `reset_less` are reset with their domain, memories are not; domain
  membership was read from the Python and checked against `verilog_src/*.v`.
* For C90 and C91 only: tools/verilog2coq.py, its reading of the Yosys-written subset of Verilog (widths and truncation as in IEEE 1364, two-valued
  logic, registers start at their declared initial values); it refuses constructs it does not know.  Four registers of top, the read registers
  of block RAMs, have no initial value in the Verilog; C91 holds for every content of them (`vtp_powerup`).  The shipped fix_0xff2 was generated
  from an older source than fix_0xff2.py: o_busy differs in states that are not reached (`fix_0xff2_R`), so the theorem is about all histories
  from reset, not about all states.
* The reading of C/C++ for `software/src` and `liblj92` (section 4 for the latter).

### Modelled, cycle by cycle
config, constraints, signals, predictor (both files), difference, normalize, encode, merge, integration_1/2/3,
lj92_pipeline_fifo, converter, converter_fifo, vbits_to_cbits, fix_0xff, fix_0xff2, markers, force_end, auto_reset,
register_file, clk_domains (as "which registers are reset when"), beta_integration, micro_integration, core_axi_lite,
dma_axi_lite, debug_module, delayer, reverser, b16_b64, b16_b40, b64_b32, b64_b32_2, axihp_fifo, axihp_reader,
axihp_writer, address_generator, axi_lite, integration_3_axi_stream, beta_integration_axistream, micro_integration_axistream, beta_integration_fifo_axistream,
beta_integration_fifo_lvds, beta_integration_fullaxi; nMigen's SyncFIFO and SyncFIFOBuffered (from the generated
Verilog); software/src/core_axi_lite.cpp, xilinx_dma.cpp (without the status printing); of xilinx_test.cpp everything but main's
sequence of log messages; of tools.cpp load_file; liblj92 (section 4).

### Not modelled
* axi3_pkg.py, axi3_lite_pkg.py (records of signals, no logic);
* mmap_handler.cpp, the rest of tools.cpp (device-file access, printing);
* generate_verilog.py, the tests, supporting_files (a PLL in VHDL).

### Simplifications
Each is stated in the comment of the definition concerned.  The main ones: Python integers computed at elaboration
time are computed in Coq from the same formulas; Huffman memory contents are `mem_of bd t` for a table t (C33 shows how
such contents get there over the bus); pixels are a list of `ps` numbers; the FIFO/RAM power-on contents are arbitrary.

### Validation against the real artefacts
The extracted model of integration_3 (tools/validation/extract.v.txt, main.ml.txt) was run on the three images in
`/repo/test_files` and reproduces `*_headerless_nofix.lj92` bit for bit.
`theories/Validation.v` is generated by tools/vcd2coq.py from the waveforms in `/repo/simulations`, recorded by the project's own test
benches on the real nMigen code: the models of signals, predictor, difference, normalize, encode, merge, lj92_pipeline_fifo, markers,
core_axi_lite and delayer are run on the recorded inputs and agree with the recorded outputs and registers in every cycle.

## 4. liblj92

`M_Lj92.v` models the decoder as built from the source (SLOW_HUFF not defined): lj92_open (find, parseHuff with its lookup table, parseSof3,
parseBlock, parseImage), nextdiff with its 32-bit look-ahead register, and parseScan.  The file is a total function from
index to byte, so statements quantify over whatever memory follows the file; ghost fields record the largest index read in the scan
and any access outside sssshist, hufflut or rowcache.  `1 << (t-1)` with t = 0 is undefined in C: the model takes an arbitrary value U and
the theorems hold for every U.  int is unbounded where all values stay below 2^31 (files shorter than 2^31 bytes); the one product that need
not, `pixels = self->y * self->x` of parsePred6, is wrapped to 32 bits (what gcc and clang on two's-complement machines do; in C the overflow is
undefined), so the theorems about predictor 6 carry x*y < 2^31 and C87 says what happens beyond;
malloc succeeds (`M_Heap.v` models which blocks are allocated and freed, for any pattern of failing allocations).  `M_Pred6.v` adds parsePred6 (predictor 6), `M_Enc92.v` the encoder
half (lines 707-1205; float is IEEE binary32 as in Coq's SpecFloat).  `M_Slow.v` models the SLOW_HUFF variant (parseHuff's
huffsize/huffcode/maxcode/mincode/valptr tables, nextbit, decode, receive, extend and the nextdiff built on them).  Not modelled: the blocks of the SLOW_HUFF build, DEBUG printing.
The reference is the T.81 decoder of `Spec.v`; C54 is a refinement proof (look-ahead register = bits still to be decoded),
C70 generalises it to any header (`Spec_Pn.v`: list of segments), number of components and predictor.
C56 composes it with C25, C57 and C58 prove for all inputs that the library fails outside the domain of C54.

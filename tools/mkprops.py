#!/usr/bin/env python3
"""Writes /verif/properties.jsonl (kept as a script so that the list stays ordered and valid JSON)."""
import json, os
P = []
def p(id, title, statement, quantifier, why, anchors):
    P.append(dict(id=id, title=title, statement=statement, quantifier=quantifier, why_tests_cant=why, anchors=anchors))

p("C01", "End-to-end losslessness of the core",
  "For every configuration accepted by the constructors with bit depth at most 15 and the shipped Huffman table, and for every frame of a supported size, the words the core hands to its consumer (transfers with valid_out=1 and busy_in=0), up to and including the one marked end_out, decode with a standard LJ92 decoder (predictor 1, 4 components) to exactly the pixels that were accepted (valid_in=1 and nready=0), whatever the producer's gaps and the consumer's stalls.",
  "all configurations, all frame sizes, all pixel values, all per-cycle valid/busy schedules, all times",
  "the set of schedules and images is unbounded; the repo's integration tests run one image with two random stall rates",
  ["migen_src/integration_3.py:Integration3", "migen_src/integration_2.py:Integration2", "migen_src/integration_1.py:Integration1"])
p("C02", "Bit depth 16: exactly which frames survive",
  "With bit_depth=16 (accepted by every constructor) a pixel is recoverable (modulo 2^16) iff its difference to the prediction has magnitude at most 2^15; larger differences all collapse to the same code word, so losslessness fails at bit depth 16.",
  "all 16-bit pixel/prediction pairs",
  "4 billion pairs, and the repo has no 16-bit decoder test",
  ["migen_src/difference.py:Difference", "migen_src/normalize.py:SingleNormalizer", "migen_src/encode.py:SingleEncoder"])
p("C03", "The Huffman table is a canonical prefix code",
  "No code word of the shipped ssss table is a prefix of another one, no code word is all ones, every code equals the canonical JPEG (Annex C) code derived from its length, and each memory entry packs length and pre-shifted code without the two fields overlapping, for every supported bit depth.",
  "all pairs of classes, all bit depths 2..16, all bit strings following a code word",
  "decodability quantifies over every bit suffix",
  ["migen_src/encode.py:get_ssss", "migen_src/encode.py:init_huff_table"])
p("C04", "Normalizer computes the LJ92 class and offset",
  "For every difference d with |d| < 2^bit_depth the ssss output is the number of bits of |d| and the value output is d for d>=0 and d+2^ssss-1 for d<0, for every bit depth.",
  "all bit depths 2..16 and all differences",
  "131071 differences times 15 depths, through a generated comparison tree of depth-dependent shape",
  ["migen_src/normalize.py:build_neg_tree", "migen_src/normalize.py:build_pos_tree", "migen_src/normalize.py:SingleNormalizer"])
p("C05", "Difference is exact",
  "The registered difference and difference-minus-one, read as two's complement numbers, are pixel-prediction and pixel-prediction-1, with no wrap-around for any pixel and prediction; on cycles without valid input the outputs do not change.",
  "all bit depths, pixels, predictions, valid patterns",
  "2^32 pairs at depth 16",
  ["migen_src/difference.py:Difference"])
p("C06", "Prediction is LJ92 predictor 1 with 4 components",
  "For 1, 2 and 4 pixels per cycle, the prediction emitted with the i-th accepted pixel of a frame is: 2^(bit_depth-1) for the first four pixels of the first row, the pixel above for the first four pixels of every later row, and the pixel four positions to the left otherwise, independent of gaps in valid_in.",
  "all frames, widths >= 4, gaps and group sizes 1, 2, 4",
  "row length and gap pattern are unbounded",
  ["migen_src/predictor_p1_c4_px4.py:PredictorP1C4Px4", "migen_src/predictor_p1_c4_pix1_2.py:PredictorP1C4Pix12"])
p("C07", "Encoder concatenates code and offset bits",
  "For any Huffman memory whose entries are well formed, the pair (encoded value, bit count) for a pixel is the class's code followed by exactly ssss offset bits (none for class 16), the bit count never wraps its 5-bit field and the value fits the count.",
  "all table contents, bit depths, classes, offsets",
  "the table is run-time programmable through AXI-lite",
  ["migen_src/encode.py:SingleEncoder", "migen_src/encode.py:Encode"])
p("C08", "Merge tree preserves order and loses no bit",
  "For any number of pixels per cycle (not only powers of two) the merged value/count is the concatenation, first pixel first, of the pixel bit strings, with no truncation at any tree level.",
  "all pixels-per-cycle counts, all values and counts that fit",
  "the tree shape is a function of the parameter and values are hundreds of bits wide",
  ["migen_src/merge.py:SingleMerger", "migen_src/merge.py:Merge"])
p("C09", "Pipeline: one output per accepted input, in order, fixed latency",
  "A group accepted in cycle t leaves the arithmetic pipeline in cycle t+5+ceil(log2 pixels_per_cycle), marked valid, with its end flag; a cycle with no accepted input leaves an invalid cycle: no group is dropped, duplicated, reordered or merged with another for any valid pattern.",
  "all valid patterns and times",
  "the interleavings of bubbles are unbounded",
  ["migen_src/integration_1.py:Integration1"])
p("C10", "Row and frame position signals",
  "For every supported frame (width a multiple of pixels_per_cycle with at least 2 groups per row, at least 3 groups in total), new_row accompanies exactly the first group of each row and end_of_frame exactly the last group of the frame (and stays set afterwards), for any gaps between inputs.",
  "all widths and heights up to 65535 and all gap patterns",
  "4 billion frame sizes",
  ["migen_src/signals.py:Signals"])
p("C11", "Frame sizes for which the end is missed",
  "The constraints accepted by the constructors (height >= 1, width >= pixels_per_cycle) include sizes for which end_of_frame is never raised on the last group: one group per row, and the 1-row frame of two groups. For those sizes the encoder never marks a word as the last one, whatever the pixels and the sink do, and goes on accepting pixels as if the frame were not over.",
  "all frames of those shapes",
  "needs an argument over every later cycle (the end does not come on the right group), not one simulation",
  ["migen_src/signals.py:Signals", "migen_src/constraints.py:Constraints"])
p("C12", "Back-pressure never drops an accepted group",
  "The FIFO behind the arithmetic pipeline (which has no handshake) is never written while full, for any downstream stall pattern and any depth accepted by the constructor: every group accepted while nready=0 reaches the output.",
  "all reachable states, all stall patterns, all legal FIFO depths",
  "worst case needs an exact alignment of a full FIFO and a full pipeline",
  ["migen_src/lj92_pipeline_fifo.py:LJ92PipelineFifo", "migen_src/integration_2.py:Integration2"])
p("C13", "Converter splits chunks without losing bits",
  "The converter's output chunks, concatenated, equal the concatenation of its input chunks, each chunk is at most `converter` bits long, the end flag sits on the last chunk of the flagged input, and the FIFO behind it is never written while full, for all configurations and stalls.",
  "all configurations, chunk sizes, stalls",
  "the number of split states depends on the configuration and stalls are unbounded",
  ["migen_src/converter.py:Converter", "migen_src/converter_fifo.py:ConverterFifo"])
p("C14", "Bit packer (vbits_to_cbits) is a lossless re-chunker",
  "The packed output words, read MSB first, are exactly the concatenation of the input bit strings; only the final word is padded, with zeros; the bit buffer never overflows and never outputs bits it does not have, for every buffer size accepted by the constructor.",
  "all bit strings, counts, stalls, sizes with buffer >= converter+out_bits",
  "unbounded streams and schedules",
  ["migen_src/vbits_to_cbits.py:InputHandler", "migen_src/vbits_to_cbits.py:OutputHandler"])
p("C15", "The end word is the last, exactly when the frame is complete",
  "A transferred word carries end_out=1 only after all groups of the frame were accepted and all earlier bits were transferred, and the first such word carries the remaining 1..out_bits bits of the frame.",
  "all runs", "an early or late end depends on exact alignment of counts",
  ["migen_src/vbits_to_cbits.py:OutputHandler", "migen_src/integration_3.py:Integration3"])
p("C16", "Exactly one frame is accepted",
  "After reset the core accepts no pixel for 8 cycles and then accepts exactly width*height/pixels_per_cycle groups; from the cycle after the last one nready stays 1 until reset.",
  "all runs, sizes", "must hold at every later time",
  ["migen_src/integration_2.py:Integration2"])
p("C17", "Output handshake is stable",
  "Once the core (integration_3) asserts valid_out, data_out, end_out and valid_out do not change until a cycle with busy_in=0 has passed.",
  "all reachable states and inputs", "needs every reachable state",
  ["migen_src/vbits_to_cbits.py:OutputHandler"])
p("C18", "No deadlock: frames complete",
  "From every reachable state, if the producer keeps offering the rest of the frame and the consumer stops stalling, the core transfers the end word within a bounded number of cycles, whatever happened before: a bound linear in the number of pixels that depends only on the configuration, the frame size and how often source and sink answer.",
  "all reachable states / all histories", "liveness over all histories",
  ["migen_src/integration_3.py:Integration3", "migen_src/vbits_to_cbits.py:InputHandler", "migen_src/converter.py:Converter"])
p("C19", "0xFF stuffing is correct and reversible",
  "The two fixers together turn a word stream into its byte-stuffed version: every 0xFF byte is followed by 0x00, removing those 0x00 bytes gives back the original bytes, and the only other added byte is one trailing 0x00 when the stuffed length is odd.",
  "all word streams", "all byte strings, all alignments of stuffing to word boundaries",
  ["migen_src/fix_0xff.py:logic", "migen_src/fix_0xff2.py:normal_logic", "migen_src/fix_0xff2.py:clean_logic"])
p("C20", "fix_0xff is a lossless elastic stage",
  "For every valid/busy schedule the words taken from fix_0xff are, in order, the expanded versions of the words it accepted, at most two being in flight.",
  "all schedules", "skid-buffer bugs need particular busy edges",
  ["migen_src/fix_0xff.py:Fix0xFF"])
p("C21", "fix_0xff2 is a lossless elastic repacker",
  "For every schedule the 16-bit words taken from fix_0xff2 are the bytes it accepted, in order, up to the first word accepted with end_in; end_out comes exactly with the last of them; nothing accepted after it has an effect.",
  "all schedules", "buffer state, skid register and end handling interact",
  ["migen_src/fix_0xff2.py:Fix0xFF2"])
p("C22", "Marker framing",
  "For every schedule the markers stage outputs 8 words 0xFFFF, then exactly the payload words offered up to the end word, then 8 words 0xFFFF with end_out on the eighth, provided the payload has at least two words and no force-end occurs.",
  "all schedules, payloads of length >= 2", "transfer counting under arbitrary stalls",
  ["migen_src/markers.py:Markers"])
p("C23", "Markers loses a one-word payload",
  "If the first payload word is also the end word, the markers stage emits header and trailer but may drop the payload word.",
  "existence of a schedule", "corner case",
  ["migen_src/markers.py:Markers"])
p("C24", "Frames are uniquely delimitable",
  "No 16-bit word of the stuffed payload equals 0xFFFF or 0xFFFE, hence a receiver that looks for the first 0xFFFF/0xFFFE word after the header recovers the payload and knows whether it was truncated.",
  "all payloads", "all byte streams",
  ["migen_src/markers.py:Markers", "migen_src/fix_0xff2.py:Fix0xFF2"])
p("C25", "Beta core: framed, stuffed, decodable frames",
  "For the whole beta core, every run in which the frame is not force-ended delivers 8 x 0xFFFF, the stuffed LJ92 stream of the accepted frame, 8 x 0xFFFF; decoding the payload gives the accepted pixels.",
  "all images, schedules", "composition of all stages under all schedules",
  ["migen_src/beta_integration.py:BetaIntegration"])
p("C26", "Force end truncates, never corrupts",
  "fend rises exactly allowed_cycles+3 cycles after the first accepted input (and never before); if allowed_cycles changes meanwhile, it rises two cycles after the first cycle whose number since that input, modulo 2^25, is the value then in force; a force-ended frame consists of the header, a prefix of the correct payload, and 8 words 0xFFFE.",
  "all allowed_cycles values, all schedules", "24-bit counter range and all interleavings with the normal end",
  ["migen_src/force_end.py:ForceEnd", "migen_src/markers.py:Markers"])
p("C27", "Auto reset restores the power-on state",
  "The reset pulse comes exactly one cycle after the transfer of a word with end_out=1, lasts one cycle, and after it the core behaves exactly as after power-on: frames are independent.",
  "all histories", "equivalence of all future behaviour",
  ["migen_src/auto_reset.py:AutoReset", "migen_src/beta_integration.py:BetaIntegration"])
p("C28", "Trailer length seen by an always-ready consumer",
  "A consumer that is ready in the reset cycle receives a ninth 0xFFFF word (with end_out=1) after the 8-word trailer; so 'exactly 8 trailer words' is false for the beta core.",
  "existence over schedules; and at most one such word for every schedule", "needs the exact reset timing",
  ["migen_src/markers.py:Markers", "migen_src/auto_reset.py:AutoReset"])
p("C29", "AXI-stream stability of the framed output",
  "The outputs of the beta and micro cores violate 'valid, data and last stay until ready'. In every run, a word offered to a busy consumer is offered again in the next cycle, with exactly four exceptions: a ninth header word is offered to a busy consumer after the eighth and withdrawn as soon as the consumer is ready; the end flag of the last trailer word appears only when the consumer is ready; a payload word is withdrawn in the cycle in which the budget expires; and the repetition of the end word is withdrawn by the automatic reset. The first, second and fourth lie in wait in every frame.",
  "all configurations, pixels, registers, schedules, any number of frames", "timing corner cases; 'exactly four' ranges over all reachable states",
  ["migen_src/markers.py:Markers", "migen_src/beta_integration.py:BetaIntegration", "migen_src/micro_integration.py:MicroIntegration"])
p("C30", "Micro core: frames never end normally and the first payload words are always lost",
  "In the micro core no frame ever ends with the normal end word: every transfer marked end_out carries 0xFFFE (the force-end trailer). Every frame so terminated consists of the 8 start words, a payload and the forced trailer, and the payload is a stretch of the stuffed encoding of the accepted pixels (followed by repetitions of its last word if the whole frame was accepted) with at least one word missing at its beginning; after the trailer the core is back in its reset state.",
  "all configurations, frames, schedules and force-end times", "never-claims quantify over all runs",
  ["migen_src/micro_integration.py:MicroIntegration"])
p("C31", "FIFO library contract",
  "The buffered synchronous FIFO used by the core, with wrap-around pointers over a RAM, behaves as a bounded queue of the configured depth with a registered head for every operation sequence: no reordering, loss (while not full) or duplication, and level equals the number of stored items.",
  "all operation sequences, depths, items", "pointer wrap-around over unbounded histories",
  ["verilog_src/lj92_pipeline_fifo.v:fifo", "verilog_src/lj92_pipeline_fifo.v:unbuffered"])
p("C32", "AXI-lite: configuration registers read back what was written",
  "A completed write transaction to the height/width word or the allowed-cycles word changes exactly the strobed bytes (allowed_cycles keeps 24 bits) and nothing else, and a completed read returns the current content, for a master that holds its signals until answered.",
  "all addresses in the window, data, strobes, wait states, previous histories", "all histories of transactions",
  ["migen_src/core_axi_lite.py:CoreAxiLite"])
p("C33", "AXI-lite: exactly what a Huffman memory write does",
  "A completed write to the low word of a Huffman entry replaces exactly the strobed bytes of bits 31..0 and clears every bit from 32 up; a completed write to the high word stores no data at all: it clears bits 31..0 and the strobed bytes of the high word. Other entries are unchanged. Hence a bit of index 32 or more that is 0 can never be set again over the bus, and at bit depth 16, after a write to the low word of an entry, its length field reads 0 for ever: the table cannot be reprogrammed.",
  "all bit depths, indices, data, strobes, histories of transactions and wait states", "read-modify-write through a latency-2 memory port, and a never-again claim over histories",
  ["migen_src/core_axi_lite.py:CoreAxiLite", "migen_src/encode.py:Encode"])
p("C34", "AXI-lite: address decoding errors",
  "Transactions outside the Huffman, height/width (and debug, if present) windows answer response code 3 and change nothing.",
  "all addresses", "2^32 addresses",
  ["migen_src/core_axi_lite.py:CoreAxiLite"])
p("C35", "AXI-lite: auto-reset in the middle of a transaction",
  "Because the transaction FSM is reset by the per-frame auto reset: a master that obeys the protocol (never starts a second transaction of a kind before the first is answered) and whose write address (or read address) was accepted but not yet answered when the reset hits never receives the answer, however long it waits; and a read accepted around the reset can be answered with the content of an address the master did not ask for.",
  "all histories before the reset, all later inputs of a protocol-obeying master, of any length", "needs the reset to hit one cycle; the claim is about unbounded waiting",
  ["migen_src/core_axi_lite.py:CoreAxiLite", "migen_src/clk_domains.py:load_clk"])
p("C36", "16-to-64 packing",
  "For every schedule in which no word is offered in the first cycle after reset, the 64-bit words delivered are the accepted 16-bit words packed four at a time, first word in the most significant position, none lost, duplicated or reordered.",
  "all schedules", "double-buffer hand-over races",
  ["migen_src/b16_b64.py:B16B64"])
p("C37", "16-to-40 packing loses data under back-pressure",
  "The 40-bit words delivered are the accepted 16-bit words cut into bytes and regrouped five at a time, first byte on top, except that the low byte of an accepted third word of a five-word group is reduced to its lowest bit exactly when the converter was stalled in that cycle; without such a stall, in particular with an always-ready consumer, packing is exact. A word offered in the first cycle after reset is acknowledged and lost. Valid data is held until taken, and four quiet cycles drain the converter.",
  "all schedules of any length, all words", "needs back-pressure at one phase; unbounded schedules",
  ["migen_src/b16_b40.py:B16B40"])
p("C38", "64-to-2x24 splitting",
  "For a FIFO-like source (valid data held until taken) and any consumer schedule, the 24-bit words delivered are, for each taken 64-bit word in order, its bits 63..40 then 39..16.",
  "all schedules", "register hand-over one cycle before the pop",
  ["migen_src/b64_b32_2.py:B64B32_2"])
p("C39", "64-to-32 splitting through FIFOs",
  "The FIFO based splitter delivers the two halves of every accepted 64-bit word, upper half first, in order, with no loss, for every schedule with no word offered in the first cycle.",
  "all schedules", "two FIFOs and two FSMs",
  ["migen_src/b64_b32.py:B64B32"])
p("C40", "AXI-HP writer: bursts, last flags, data order and underrun",
  "Counting the accepted data beats from 0, wlast is carried by the beats 16, 32, 48, ... and no others, while every address asks for 16 beats, so every burst end is one beat late. A beat shown with wlast and not accepted at once is withdrawn, and then the number of active bursts decreases by one (modulo 16) every cycle. With an always-ready slave the number of active bursts stays between 0 and 8 and equals addresses minus last flags; write-response bookkeeping is exact modulo 16; a shown address is held until accepted. The data of the beats is the sequence written to the FIFO, in order, except that beat 16 (only) may be sent from an empty FIFO.",
  "all AXI slave behaviours and FIFO fill schedules, of any length", "beat counting over unbounded runs",
  ["migen_src/axihp_writer.py:AxiHPWriter", "migen_src/axihp_fifo.py:AxiHPFifo"])
p("C41", "DMA addresses",
  "The sequence of addresses presented at successive latches is start, start+shift, start+2*shift, ... modulo 2^32.",
  "all latch schedules, starts, shifts", "wrap-around and schedules",
  ["migen_src/address_generator.py:AddressGenerator"])
p("C42", "DMA burst limit is ineffective",
  "The read_end/write_end limits are only asserted in cycles in which the reader/writer ignores them, so address requests continue past the configured limit.",
  "all runs", "unbounded runs (196608 bursts)",
  ["migen_src/beta_integration_fullaxi.py:BetaIntegrationFullAxi", "migen_src/axihp_reader.py:AxiHPReader"])
p("C43", "Small helpers",
  "The delayer output is high exactly when some input was active at least delay_stages cycles earlier, for every delay of at least 3; for a delay of 2 it rises by itself one cycle after reset, whatever the input. The reverser is an involution that reverses bit order (the synchronous variant one cycle later). Each debug counter holds the number of cycles with its condition modulo 2^32, and the valid/invalid pairs of all interfaces have equal sums.",
  "all delays, widths, input histories", "unbounded parameters and histories",
  ["migen_src/delayer.py:Delayer", "migen_src/reverser.py:Reverser", "migen_src/debug_module.py:DebugModule"])
p("C44", "Constraint bookkeeping",
  "After any sequence of updates, every recorded minimum is the largest and every recorded maximum the smallest of the default and the values supplied (the multiples: the largest supplied, not a common multiple); update_width(n) pins both bounds, so two different calls leave an inverted (empty) range, and constructing a predictor records a maximum width equal to pixels_per_cycle.",
  "all update sequences", "all sequences",
  ["migen_src/constraints.py:Constraints", "migen_src/predictor_p1_c4_px4.py:PredictorP1C4Px4"])
p("C45", "Output size bound",
  "The number of bits produced for a frame is at most (longest code + class bits) per pixel (21 for 12-bit pixels), and at least 4 per pixel, so a buffer sized for the worst case is never exceeded; stuffing at most doubles it.",
  "all frames", "worst case over all images",
  ["migen_src/encode.py:get_ssss", "software/src/xilinx_test.cpp:main"])
p("C46", "Driver software round trips",
  "Setting height, width or allowed cycles through the driver and reading back returns the value set (allowed cycles modulo 2^24) and leaves the other fields and the table unchanged; get_ssss reports class, code and length of the classes 0..bit_depth-1 and never the last class; get_debug returns eight counter values, each one that was current at some moment (not an atomic snapshot). Over any bus execution of a protocol-obeying master that plays the configure program on the real AXI-lite slave, the calls return these values and the configuration registers of the core hold them.",
  "all values, register contents, bus schedules and wait states", "all register contents and all bus timings",
  ["software/src/core_axi_lite.cpp:CoreAXILite", "migen_src/core_axi_lite.py:CoreAxiLite"])
p("C47", "DMA control registers",
  "Completed AXI-lite writes to the DMA block change exactly the strobed bytes of the addressed register; the reserved registers answer code 2, undecoded addresses code 3, and reads return the stored values. The same holds at the pins of the shipped verilog_src/dma_axi_lite.v.",
  "all addresses, data, strobes", "all histories",
  ["migen_src/dma_axi_lite.py:DMAAxiLite", "verilog_src/dma_axi_lite.v"])
p("C48", "Force end needs a payload word",
  "The force-end timer cannot terminate a frame whose first payload word has not yet reached the markers stage: while no payload word is offered to it, the stage outputs nothing at all, whatever force_end does, so such a frame is neither terminated nor is the core reset. For the complete core: as long as the accepted pixels have fewer than 16 bits of code nothing is offered, nothing is handed over and the core is not reset.",
  "all runs without a payload word, of any length", "unbounded waiting",
  ["migen_src/markers.py:Markers", "migen_src/force_end.py:ForceEnd"])
p("C49", "AXI FIFO with burst thresholds",
  "The 32-deep FIFO in front of the AXI ports is a first-in first-out queue; writable/readable are exactly 'fewer than 32 items'/'at least one item'; whenever it announces 'readable16' sixteen consecutive reads all return stored items, and whenever it announces 'writable16' twenty consecutive writes are all stored.",
  "all operation sequences, contents, initial RAM contents", "pointer wrap-around over unbounded histories",
  ["migen_src/axihp_fifo.py:AxiHPFifo"])
p("C50", "AXI-HP reader loses nothing from a well-behaved slave",
  "With a slave that answers each accepted read address by exactly one burst of at most 16 beats whose rlast comes with rvalid, every accepted beat is stored and comes out of the FIFO in order (at most 28 held), and the reader's active count is the number of unanswered bursts, at most 8. If rlast is high without rvalid (allowed by AXI) the active count is decremented without a beat, from 0 to 15.",
  "all slave schedules and consumer schedules of any length", "unbounded schedules; flow control slack",
  ["migen_src/axihp_reader.py:AxiHPReader", "migen_src/beta_integration_fullaxi.py:BetaIntegrationFullAxi"])
p("C51", "Stream tops: from the RAW12 file to the decoded frames",
  "For the two AXI-stream tops (32-bit words, and 64-bit words through the 64-to-2x24 splitter): the samples the core accepts are exactly those contained in the stream words transferred, in order (at most 6 samples in flight), and every finished frame is either decodable to exactly its samples or flagged as force-ended. On the master port (beats with m_tvalid and m_tready, packets ended by m_tlast) the packets of more than one word are exactly the finished frames, in order; packets of one word can occur between them. Hence, when the host sends a RAW12 file packed by the test program, every completed k-th frame decodes to the 12-bit samples of the k-th frame-sized block of the file's bit string.",
  "all files, stream masters that hold data until taken, consumer schedules, numbers of frames", "unbounded files and schedules, auto reset between frames",
  ["migen_src/beta_integration_axistream.py:BetaIntegrationAxiStream", "migen_src/beta_integration_fifo_axistream.py:BetaIntegrationFIFOAxiStream", "software/src/xilinx_test.cpp:re_order_set_raw12_64bits", "software/src/xilinx_test.cpp:re_order_set_raw12_32bits"])
p("C52", "Full-AXI (DMA) top: no frame reaches memory complete",
  "In the memory-to-memory top, whatever the memory does on the two AXI HP ports and whatever is written over AXI-lite: the end of each frame resets the DMA (converters, FIFOs, address generators, start/address registers) together with the core, so of every finished frame only a proper prefix of the 64-bit words has been written and the word holding the end marker never is; after the reset the DMA registers read 0 and no burst address is issued until the registers are written again; a last read beat still offered after the reset is taken as pixel data of the new frame. Within a frame the samples the core accepts are the 12-bit fields of the words read, in order, and the words the core hands over decode to exactly those samples; read and write bursts go to S, S+128, ... with S the address register at the first handshake; AXI-lite reads see the registers as written and the status registers as documented by the design. No burst is issued on either port unless the start register holds 0xFFFFFFFF; once it does, a burst is offered on each port in the next cycle unless eight are outstanding. The end marks in the first status register (bits 0 and 2) are never seen set: the reset comes first.",
  "all memory schedules, AXI-lite traffic, register values, frame histories of any length", "unbounded schedules and numbers of frames; interaction of reset with words in flight",
  ["migen_src/beta_integration_fullaxi.py:BetaIntegrationFullAxi", "migen_src/axihp_reader.py:AxiHPReader", "migen_src/axihp_writer.py:AxiHPWriter", "migen_src/auto_reset.py:AutoReset"])
p("C53", "LVDS top: the 40-bit output across frames",
  "In the LVDS top (64-bit words in, 40-bit words out): the samples the core takes are the 12-bit fields of the stream words transferred, in order, and every finished frame decodes to them or is flagged. With a sink that is always ready the 40-bit words delivered are, frame after frame, the bytes of the frame's 16-bit words five at a time: the bytes that do not fill a 40-bit word are dropped at the end of every frame, and a frame following one with 3 or 4 words left over (modulo 5) is preceded by one spurious 40-bit word. Before the first reset any sink gets the same words, except that the top byte of every second one can be cut to one bit; a sink that stalls across the end of a frame can lose the whole contents of the next frame.",
  "all source and sink schedules, samples, register constants, numbers of frames", "unbounded schedules; a converter whose state machine is reset between frames while its buffers are not",
  ["migen_src/beta_integration_fifo_lvds.py:BetaIntegrationFIFOLVDS", "migen_src/b16_b40.py:B16B40", "migen_src/auto_reset.py:AutoReset"])
p("C54", "The shipped decoder follows T.81",
  "lj92_open followed by lj92_decode on a lossless JPEG file of the format the core's frames are stored in (DHT, SOF3 with four components, SOS with predictor 1, stuffed entropy-coded data, EOI) returns success, reports the right width, height, bit depth and component count, and writes exactly the samples T.81 defines (optionally mapped through the caller's linearization table), row by row with the caller's skip, changing no other memory of the target; no array of the library is left. This holds for every Huffman specification that satisfies the Kraft inequality, for every column count of at least four, whatever memory follows the file and whatever the undefined shift 1 << -1 (class 0) evaluates to.",
  "all Huffman specifications, sizes, entropy-coded data, memory contents after the file, linearization tables, skips", "unbounded files; table-driven decoding with look-ahead across stuffed bytes",
  ["liblj92/lj92.c:lj92_open", "liblj92/lj92.c:lj92_decode", "liblj92/lj92.c:nextdiff", "liblj92/lj92.c:parseHuff", "liblj92/lj92.c:parseScan"])
p("C55", "The shipped decoder reads past the file by at most two bytes",
  "While decoding a well-formed file the library reads at most two bytes after its last byte, and it does read two bytes past the end for some files (for instance 16 equal samples 2048), so the buffer must be larger than the file.",
  "all well-formed files", "depends on the alignment of the last code in the look-ahead buffer",
  ["liblj92/lj92.c:nextdiff"])
p("C56", "From the core's pins to the decoder's image",
  "For every completed, unflagged frame of the beta core (bit depth at most 15, width a multiple of 4 and at least 16), the payload words, written as bytes between a header carrying the programmed Huffman table and EOI, are decoded by the shipped library to exactly the samples the core accepted for this frame.",
  "all samples, frame sizes, prefix-free tables, input and output schedules, numbers of frames", "composition of unbounded hardware runs with the software decoder",
  ["migen_src/beta_integration.py:BetaIntegration", "liblj92/lj92.c:lj92_decode"])
p("C57", "The shipped decoder fails on frames narrower than 16 samples",
  "For frames of 4, 8 or 12 samples per row and at least two rows the library's two row buffers overlap: decoding reports success, but the sample under sample number W/4 of the first row is wrong whenever that sample differs from the first sample of the second row.",
  "all such frames, tables, memory contents", "a universally quantified failure",
  ["liblj92/lj92.c:lj92_open", "liblj92/lj92.c:parseScan"])
p("C58", "The shipped decoder and class 16",
  "A 16-bit frame all of whose differences are below 2^15 in magnitude is decoded exactly; as soon as one difference has class 16 the library writes outside its statistics array.",
  "all 16-bit frames, tables, sizes (at least 16 samples wide)", "all inputs; behaviour depends on the data",
  ["liblj92/lj92.c:nextdiff"])
p("C59", "What the verdicts of the test program mean",
  "The test program's checks on the memory the DMA wrote: for reference files of at least 10 bytes 'Validation succeeded' is printed exactly if every byte of the (byte-swapped) file is found behind the start marker, and a failure names the first differing word or byte; re_order_lj92 swaps the bytes of each 16-bit word and nothing else; a normal frame carrying the reference payload passes all three checks; conversely if the core sent the normal frame of an image Y, the end marker was found at offset 0 and the validation against the file of an image X succeeded, then X = Y; a frame cut short before the length of the reference never validates. The checks have blind spots: the last byte of a file of odd length, and the bytes after the last whole word of files shorter than 10 bytes are never compared, and 'force marker found' is never printed for a frame that was cut short before the reference's length.",
  "all memory contents, files, images, tables, cut positions", "statements about all memory contents and files; mixed signed/unsigned comparisons",
  ["software/src/xilinx_test.cpp:validate", "software/src/xilinx_test.cpp:check_first_marker", "software/src/xilinx_test.cpp:check_last_marker", "software/src/xilinx_test.cpp:re_order_lj92", "software/src/xilinx_test.cpp:zero_dest", "software/src/xilinx_test.cpp:divisible_4"])
p("C60", "DMA driver: programming order, lengths, waiting",
  "The test program resets and stops the DMA, writes both addresses, sets run and only then writes the lengths, the receiving channel first; the receive length is a multiple of 4 that has room for markers and payload of the reference length, the send length is exactly the size of the packed 4096 x 3072 image, and the source region ends before the destination region. The wait function reads only the status register and returns at the first status that has both the completion interrupt and the idle bit.",
  "all reference lengths, all sequences of status values", "unbounded polling histories",
  ["software/src/xilinx_dma.cpp:XilinxDMA", "software/src/xilinx_test.cpp:main", "software/src/config.h"])
p("C61", "The beta core finishes every frame",
  "For every sequence of frame sizes and every infinite schedule in which the sink is ready again and again and the source offers samples again and again while the current frame lacks samples, every frame is completed: its word with the end flag is handed over, the core resets itself and the next frame begins with nothing accepted. No frame blocks the ones after it, and each one is received without loss or is flagged as cut short.",
  "all frame size sequences, samples, tables, configurations, infinite source and sink schedules, force-end requests", "liveness over infinite runs and unboundedly many frames",
  ["migen_src/beta_integration.py:BetaIntegration", "migen_src/fix_0xff.py:Fix0xFF", "migen_src/fix_0xff2.py:Fix0xFF2", "migen_src/markers.py:Markers", "migen_src/auto_reset.py:AutoReset"])
p("C62", "integration_3_axi_stream: one lossless 4096 x 3072 frame per reset",
  "Behind AXI-stream pins the core takes exactly 4096*3072/4 beats of four 12-bit samples (low 48 bits, first sample lowest); if a beat with tlast was handed over, the 32-bit words up to it decode to exactly those samples; with a sink and a source that are ready again and again tlast is reached. Afterwards no beat is ever taken in again and the last beat is offered forever, until an external reset; the input's tlast is ignored.",
  "all 64-bit data, all schedules of tvalid and tready, all reset states", "runs of more than three million cycles with arbitrary back pressure; liveness",
  ["migen_src/integration_3_axi_stream.py:Integration3AxiStream", "migen_src/register_file.py:RegisterFile"])
p("C63", "AXI3-to-AXI-lite converter: transparent, IDs right for one transaction kind at a time",
  "Through the converter the processor sees the register banks of the core and of the DMA exactly as on AXI-lite (every answer is the one the bank gives, C32 and C47). If it never has a read and a write in progress together and holds the ID with the address, every answer carries the ID of its request, and every read gets one beat with rlast. Otherwise IDs get mixed up: whenever a read and a write address are offered together from idle, the read is answered first and with the write's ID.",
  "all compliant masters, IDs, addresses, data, interleavings, run lengths", "all schedules; the ID register is shared and lags by two cycles",
  ["migen_src/axi_lite.py:AxiLite", "migen_src/core_axi_lite.py:CoreAxiLite", "migen_src/dma_axi_lite.py:DMAAxiLite"])
p("C64", "The shipped decoder follows T.81 for predictor 6",
  "lj92_open followed by lj92_decode on a lossless JPEG file with one component and predictor 6 (the format the library's own encoder writes) returns success, reports width, height, bit depth and component count, and writes exactly the samples T.81 defines (optionally mapped through the caller's linearization table), leaving out skip samples of the target after every run of writeLength samples and changing no other memory of the target; no array of the library is left and at most two bytes after the file are read. This holds for every Huffman specification satisfying the Kraft inequality without class 16, at least 25 columns and two rows, fewer than 2^31 samples, and writeLength at least 2; with writeLength 1 nothing is ever left out, whatever the skip. For every other size (below 2^31 samples; for more see C87) and every linearization table the library either delivers all samples and reports success, or reports corruption, and then exactly a prefix of the right samples was delivered: up to the first sample outside the first row that exceeds the table's length (the first row is not checked), or, with fewer than 25 columns or a single row only, up to a premature end-of-data check.",
  "all Huffman specifications, sizes, entropy-coded data, memory contents after the file, linearization tables, run lengths and skips", "unbounded files; table-driven decoding with look-ahead; the tile writer's counters",
  ["liblj92/lj92.c:parsePred6", "liblj92/lj92.c:nextdiff", "liblj92/lj92.c:lj92_open", "liblj92/lj92.c:lj92_decode"])
p("C65", "The shipped encoder's Huffman table",
  "Whatever the numbers of samples per difference class (up to 2^31 - 1 samples in all), the table the library's encoder builds with its single-precision arithmetic gives a code to exactly the classes that occur, obeys the Kraft inequality, has no code longer than 16 bits and none that consists of ones only, and the code it looks up for a class is the T.81 Annex C code that a decoder derives from the BITS and HUFFVAL lists it writes to the file.",
  "all histograms over the 17 classes with a total below 2^31", "all histograms; rounding of binary32 frequencies, ties and the adjustment of overlong codes depend on the numbers",
  ["liblj92/lj92.c:createEncodeTable", "liblj92/lj92.c:frequencyScan"])
p("C66", "The shipped encoder writes a T.81 file with the samples of the tile",
  "For every tile (runs of readLength samples with skipLength samples between them) whose predictor-6 differences are below 2^15, if lj92_encode succeeds the bytes in its buffer are exactly the T.81 file (SOI, DHT, SOF3, SOS, stuffed entropy-coded data, EOI) of these samples with a Huffman table for the classes that occur, and encodedLength is its length. It fails only with LJ92_ERROR_ENCODER and only if the file does not fit into the 3*width*height+200 bytes it allocates.",
  "all images, tile geometries, bit depths 1..16, sizes below 65536 x 65536 with a buffer below 2^31 bytes, contents of fresh memory", "all images and sizes; bit packing across bytes with 0xff stuffing",
  ["liblj92/lj92.c:lj92_encode", "liblj92/lj92.c:writeHeader", "liblj92/lj92.c:writeBody", "liblj92/lj92.c:frequencyScan", "liblj92/lj92.c:writePost"])
p("C67", "The shipped decoder inverts the shipped encoder",
  "If lj92_encode succeeds on a tile of at least 25 columns and two rows whose differences are below 2^15 (always so for samples of up to 14 bits), then lj92_open and lj92_decode on the result succeed, report the same size and bit depth and deliver exactly the samples, at the places given by the decoder's own writeLength (at least 2) and skipLength; nothing else of the target changes. With a single row this is not so: there are one-row images the decoder refuses as corrupt. For every size the decoder never delivers a wrong sample of an encoded tile: it either gives all of them and success, or (fewer than 25 columns or one row only) reports corruption after a prefix of the right samples.",
  "all images, geometries on both sides, memory contents", "composition of two unbounded bit-level programs for all inputs",
  ["liblj92/lj92.c:lj92_encode", "liblj92/lj92.c:lj92_open", "liblj92/lj92.c:lj92_decode", "liblj92/lj92.c:parsePred6"])
p("C68", "How far the shipped encoder writes",
  "For every image, bit depth, tile geometry and delinearization table: when lj92_encode succeeds it has written no byte outside the encodedLength bytes it reports, and that length exceeds the allocated buffer of 3*width*height+200 bytes by at most three. The bound is sharp: for some 16-bit images the encoder succeeds having written three bytes past the end of its buffer (flush and end marker are not checked), and others it refuses.",
  "all images (any 16-bit values), sizes, bit depths, delinearization tables", "memory safety for all inputs; the overflow needs the last byte to meet the end of the buffer exactly",
  ["liblj92/lj92.c:writeBody", "liblj92/lj92.c:writePost", "liblj92/lj92.c:lj92_encode"])
p("C69", "Encoding through a delinearization table",
  "With a delinearization table, lj92_encode writes the T.81 file of the mapped samples provided their differences have only classes that also occur among the differences of the original samples. Otherwise it can report success although the file decodes to other samples, because the code table is made from the original samples.",
  "all images, tables, geometries", "all inputs; failure depends on the data and is silent",
  ["liblj92/lj92.c:frequencyScan", "liblj92/lj92.c:writeBody", "liblj92/lj92.c:lj92_encode"])
p("C70", "The shipped decoder on any header, component count and predictor",
  "lj92_open and lj92_decode on any lossless JPEG file with a well-formed header - DHT, SOF3, APPn and COM segments in any order and number, the last table and frame header counting - succeed, report size, depth and component count, and deliver exactly the samples T.81 defines, row r at r*(N*x+skip), optionally mapped through the linearization table, when the file has one component (predictors 1 to 5, 7, and 6 with 25 columns and two rows), or several with predictor 1 and at least as many columns as components, or a single row; nothing else of the target is changed, no array of the library is left and at most two bytes after the file are read. In particular whatever samples a T.81 encoder writes are given back. With predictor 6 (and fewer than 2^31 samples; for more see C87) and any other size or any linearization table the answer is either success with all samples or corruption after a prefix of the right samples, as in C64.",
  "all headers, Huffman specifications, sizes, component counts up to 255, predictors, entropy-coded data, linearization tables, memory contents", "unbounded files and header lists; the decoder is shared by all predictors",
  ["liblj92/lj92.c:parseImage", "liblj92/lj92.c:parseSof3", "liblj92/lj92.c:parseHuff", "liblj92/lj92.c:parseBlock", "liblj92/lj92.c:parseScan", "liblj92/lj92.c:lj92_open", "liblj92/lj92.c:lj92_decode"])
p("C71", "The shipped decoder silently mis-decodes several components",
  "With two or more components and at least two rows the library reports success but delivers a wrong sample in the second row: with predictor 2 or 3, or fewer columns than components, whenever sample x of the first row differs from sample 0 of the second row (the row buffers overlap); with predictors 4, 5 and 7 and more columns than components, whenever first and last component of the first column of the second row differ (by two for predictor 7), because the sample to the left is taken from another component. With predictor 6 (and x*y below 2^31) the component count is ignored: the first x*y differences are decoded as an image of one component, x*y samples are delivered for N*x*y and reported as success, and the second of them is wrong unless the first is 2^(P-1).",
  "all such files, sizes, tables, memory contents", "a universally quantified failure",
  ["liblj92/lj92.c:lj92_open", "liblj92/lj92.c:parseScan"])
p("C72", "lj92_open on arbitrary bytes",
  "lj92_open on any bytes ends and returns success or CORRUPT with a size below 65536 x 65536, depth and component count below 256; the only bytes of the caller's buffer it changes are the third ones after a pair FF C4, which become zero, at most one place behind the first byte after the file; a scan it reports starts directly behind a pair FF DA inside the file; its result depends on no byte 65535 or more places behind the end of the file. It does not respect the file length: for the five bytes FF D8 FF C4 b it overwrites the second byte behind the file, and FF D8 FF D9 followed by anything is reported as a success although no image exists.",
  "all byte sequences, lengths and memory contents behind the file", "arbitrary (hostile) input",
  ["liblj92/lj92.c:find", "liblj92/lj92.c:parseHuff", "liblj92/lj92.c:parseSof3", "liblj92/lj92.c:parseBlock", "liblj92/lj92.c:parseImage", "liblj92/lj92.c:lj92_open"])
p("C73", "lj92_decode on arbitrary bytes",
  "lj92_decode after lj92_open of any bytes changes only those places of the target that belong to the announced image (row r at r*(N*x+skip)) for predictors other than 6, and for predictor 6 only the first x*max(y,1) places of its tiling - so for an image of no rows it still writes a row, always place 0. With a well-formed header whose code is complete and has categories up to 15 no array of the library is left whatever the scan data, and at most ten bytes per sample are read; with an incomplete code, which is what T.81 demands, scan data beginning with ones make it use lookup table entries never written; with predictor 6 and no components the empty row memory is written.",
  "all byte sequences, memory contents, skip, writeLength, linearization tables", "arbitrary (hostile) input",
  ["liblj92/lj92.c:parseScan", "liblj92/lj92.c:parsePred6", "liblj92/lj92.c:nextdiff", "liblj92/lj92.c:lj92_decode"])
p("C74", "Truncated scan data",
  "For predictors other than 6 and no linearization table lj92_decode reports success for every byte sequence; if the image has at least 8*(n+2) samples, n the number of bytes from the start of the scan data to the end of the file, it has read behind the end of the file (or used unwritten table entries). For predictor 6 reading stops at most ten bytes per column behind the end, and success implies that x*(y-1) is at most 8*n (x*y below 2^31).",
  "all byte sequences, sizes and memory contents", "arbitrary (truncated) input",
  ["liblj92/lj92.c:parseScan", "liblj92/lj92.c:parsePred6", "liblj92/lj92.c:nextdiff", "liblj92/lj92.c:lj92_decode"])
p("C75", "The one-pixel core behind AXI-stream pins",
  "micro_integration_axistream: its output pins depend only on s_tvalid, the low 12 bits of s_tdata, m_tready and the registers (s_tlast and the upper 20 bits of s_tdata are ignored), the samples encoded are the low 12 bits of the input beats in order, every output beat with m_tlast is 0xFFFE (a forced end), and every frame lacks a non-empty sequence of payload words at its front.",
  "all inputs, register contents, schedules, tables", "all runs; equality of all pins in all cycles is a two-run property",
  ["migen_src/micro_integration_axistream.py:MicroIntegrationAxiStream"])
p("C76", "The shipped decoder and the caller's linearization table",
  "Whatever the bytes of the file, unless they select predictor 6 lj92_decode reads the linearization table at the indices 0 to linearizeLength only. On a well-formed file (headers, predictors and component counts as in C70) it delivers all samples and succeeds if none exceeds linearizeLength, and otherwise reports corruption having delivered exactly the samples before the first one that does. The check is one too weak: a sample equal to linearizeLength is looked up one past the last of the table's linearizeLength entries. With predictor 6 the samples of the first row are looked up without any check.",
  "all file contents, tables, table lengths, sizes, predictors", "a memory-safety bound over all inputs; requires comparing runs with all tables",
  ["liblj92/lj92.c:parseScan", "liblj92/lj92.c:parsePred6", "liblj92/lj92.c:lj92_decode"])
p("C77", "Nothing is held back",
  "If the sink is ready again and again, every complete word of the code of the pixels accepted so far is eventually handed over by the encoder, whatever the source does afterwards; if the source stops for ever before the frame is complete, the words handed over settle at exactly those complete words and the incomplete last word stays inside. There is a bound that depends on the configuration only: once the encoder has taken no pixel for drain_cycles ready cycles (the number of C85), those words are out; and whatever the source does in the meantime, the words that were complete at some moment are out after flush_cycles further ready cycles.",
  "all configurations, tables, frame sizes, pixels and infinite valid/busy schedules with an unboundedly often ready sink", "a liveness property over infinite schedules; a test cannot tell late from never",
  ["migen_src/integration_3.py:Integration3", "migen_src/vbits_to_cbits.py:VBitsToCBits", "migen_src/converter.py:Converter"])
p("C78", "A stopped camera cannot hang the core once a payload word exists",
  "With a fixed number of allowed cycles below 2^24 and a sink that is ready again and again, the complete core ends the frame if and only if it has at some time accepted pixels with at least 16 bits of code -- whatever the source does then, even if it never offers a pixel again.",
  "all configurations with 16-bit words, tables, sizes, pixels, allowed cycles, infinite schedules", "liveness over infinite schedules, and absence of output over unbounded waiting",
  ["migen_src/beta_integration.py:BetaIntegration", "migen_src/force_end.py:ForceEnd", "migen_src/markers.py:Markers"])
p("C79", "The bit-by-bit (SLOW_HUFF) build decodes what the table-driven build decodes",
  "Compiled with SLOW_HUFF, lj92_open and lj92_decode report the same image description for every well-formed header, and for predictors other than 6, whatever the scan data, the same return code and the same target contents as the default build whenever that build stays inside its arrays; conversely, if the code has no category 16, the default build stays inside its arrays whenever the SLOW_HUFF build does. With predictor 6 everything the default build decodes with success is decoded alike. So the SLOW_HUFF build also delivers the T.81 reconstruction (C70). With a category-16 code the SLOW_HUFF build silently delivers a wrong sample where the default build overruns an array.",
  "all well-formed headers, scan bytes, predictors, skip, linearization tables, memory contents", "equivalence of two programs on all inputs",
  ["liblj92/lj92.c:parseHuff", "liblj92/lj92.c:nextbit", "liblj92/lj92.c:decode", "liblj92/lj92.c:receive", "liblj92/lj92.c:extend", "liblj92/lj92.c:nextdiff"])
p("C80", "Full rate while the groups code into few bits, and never more than the output word is wide",
  "If every group of pixels codes into at most M bits, M being at most the converter width and the output word width with outb-1+2M at most the packing buffer, and the sink is never busy, the encoder takes a group in every clock cycle one is offered from the ninth cycle after reset until the frame is complete; a frame offered without gaps is taken in 8 cycles plus one per group. With the built-in code this covers images whose samples are within 31 of their prediction (two and four samples per cycle as shipped) or within 255 (one per cycle). A sink that is busy r cycles for each word it takes, saves up some of them and has a reserve for the frame leaves the rate as it is if (1+r)M fits the output word and the converter FIFO is deep enough. In every run the code of the accepted pixels is at most one output word per cycle in which the sink is ready, plus a constant.",
  "all configurations, tables, frame sizes, pixels, bounds M, gaps in the source, busy patterns and run lengths", "a statement about every cycle of every schedule of bounded-size groups; a test shows one image and one schedule",
  ["migen_src/integration_3.py:Integration3", "migen_src/converter.py:Converter", "migen_src/vbits_to_cbits.py:VBitsToCBits", "migen_src/lj92_pipeline_fifo.py:LJ92PipelineFifo", "migen_src/converter_fifo.py:ConverterFifo"])
p("C81", "The time limit decides which images can be delivered at all",
  "Whatever the schedules of source and sink: a finished frame carries at most allowed_cycles - 8 words between header and trailer, so a frame that is not flagged as cut short has a code of at most 16 (allowed_cycles - 8) bits. As shipped (4096 x 3072 samples, 6666000 cycles) that is 106655872 bits, 8.48 per sample: an image whose samples all differ from their predictions by 32 or more is never delivered complete, it is always cut short and flagged.",
  "all configurations with 16-bit words, tables, frame sizes and limits per frame, pixels, schedules, numbers of frames", "a negative statement over all schedules: no test run shows that no other timing would have delivered the frame",
  ["migen_src/force_end.py:ForceEnd", "migen_src/markers.py:Markers", "migen_src/beta_integration.py:BetaIntegration", "migen_src/register_file.py:RegisterFile"])
p("C82", "The time limit is a deadline, and nothing is cut short before it",
  "Once a frame has taken a group of pixels, then allowed_cycles + 2 cycles later (its first word being out by then) and after 17 more cycles in which the sink is ready, the end of the frame has been handed over, whatever the source does. The end of a frame cut short is never handed over before allowed_cycles + 12 cycles have passed since the frame began: a frame finished earlier is complete and is received without loss.",
  "all configurations with 16-bit words, tables, frame sizes and limits per frame, pixels, schedules of source and sink, numbers of frames", "a bound on a waiting time over all schedules, and the absence of a flag over all schedules",
  ["migen_src/force_end.py:ForceEnd", "migen_src/markers.py:Markers", "migen_src/beta_integration.py:BetaIntegration"])
p("C83", "The bit-by-bit (SLOW_HUFF) build on arbitrary bytes",
  "Compiled with SLOW_HUFF, lj92_open ends on any bytes and returns 0, -1 or -2, the last only if a table segment (FF C4) announces fewer than 19 bytes; sizes, changed bytes and the place of the scan are restricted as in C72, and the library's arrays are left only for a table without any code. lj92_decode, for predictors other than 6, changes only places of the announced image and reads at most 68 bytes per sample; without a linearization table it reports success for every byte sequence, and having at least 8*(n+2) samples for n bytes of scan data means it has read behind the file. With a well-formed header, a complete code and categories up to 15 no array is left, whatever the scan data; with an incomplete code scan data beginning with ones make it leave one. On malformed headers the two builds can disagree about the image, because only this one steps over table segments.",
  "all byte sequences, lengths, memory contents, skip, linearization tables", "memory safety and return codes for all byte sequences",
  ["liblj92/lj92.c:parseHuff", "liblj92/lj92.c:parseImage", "liblj92/lj92.c:nextbit", "liblj92/lj92.c:nextdiff", "liblj92/lj92.c:parseScan"])
p("C84","A lost cycle is lost only once",
  "Take a core (samples with codes small enough that every accepted group needs at most M bits, M no more than the output word, room for three words and a group in the bit buffer, a converter fifo that is not tiny) that runs from reset. At every moment before the frame is complete, the number of clock cycles since reset is at most 8 + (groups accepted) + (cycles in which the source offered nothing or the sink was busy). So each such cycle delays the frame by at most one cycle, no matter where the lost cycles fall, how long the sink is busy at a stretch, whether the fifos have filled up and how often they fill and drain; and a run of 8 + W*H/ps + lost cycles has taken the whole frame. Holds in particular for the beta core and the four-sample stream core with the power-on table when no sample is further than 31 from its prediction.",
  "every configuration with those sizes, table, frame size, reset state, image with small groups, and every pattern of valid and busy over runs of any length",
  "the delay depends on the interplay of two fifos with hysteresis, the converter's restart cycles and the packer's refill states over unbounded histories of back-pressure; a test sees a few patterns",
  ["migen_src/integration_2.py:Integration2", "migen_src/integration_3.py:Integration3", "migen_src/converter.py:Converter", "migen_src/vbits_to_cbits.py:InputHandler", "migen_src/converter_fifo.py:ConverterFifo", "migen_src/lj92_pipeline_fifo.py:LJ92PipelineFifo"])
p("C85","When the pixels are in, the code comes out: the core empties itself in a bounded number of ready cycles",
  "For every configuration, Huffman table, image and timing: from the cycle in which the last pixel of the frame has been taken, the word with the end mark is handed over at the latest after a fixed number of cycles in which the sink is ready (113215 for the beta core, 57256 for the four-sample core, 113047 for the micro core), however those cycles are spread and whatever had piled up in the fifos. Together with C84: 8 + W*H/ps + lost cycles, then that many ready cycles, and the frame is complete and decodes to its pixels.",
  "every configuration, table, frame size, image (also with large codes), and every pattern of valid and busy over runs of any length",
  "a bound on a waiting time from every reachable filling of two fifos, converter, packer and pipeline",
  ["migen_src/integration_3.py:Integration3", "migen_src/converter.py:Converter", "migen_src/vbits_to_cbits.py:VBitsToCBits", "migen_src/converter_fifo.py:ConverterFifo", "migen_src/lj92_pipeline_fifo.py:LJ92PipelineFifo"])
p("C86","A frame that gets its time is delivered complete: the time limit is not hit by accident",
"For the complete core with markers, time limit and automatic reset (beta_integration): suppose a frame begins (power-on or the cycle of the automatic reset), none of its groups of pixels codes into more than M bits (the core being built for M), and from there on (1) during a first stretch of time the clock has run for at least one cycle per group, one per cycle in which the source had nothing to offer, one per cycle in which the sink was busy, half a cycle per byte 0xFF of the code, and eighteen more; (2) during the stretch after it the sink is ready drain_cycles + 60 times, and half a time more per byte 0xFF; (3) both stretches together are not longer than allowed_cycles + 2 cycles. Then the frame is finished by the end, it is not flagged as cut short, and the receiver decodes exactly its pixels. As shipped (4096 x 3072, 6666000 cycles, samples within 31 of their prediction) the limit leaves 374546 cycles beyond one per group for gaps, stalls, stuffing and the end of the frame.",
"all configurations with sixteen-bit output words, tables, frame sizes, time limits, pixel data whose groups code into at most M bits, numbers of earlier frames, schedules of source and sink",
"The time limit cuts frames short silently from the point of view of the pixel source; whether some order of gaps, stalls and stuffed bytes makes a frame that should fit miss the limit is a question about sums over millions of cycles through five buffered stages.",
["migen_src/beta_integration.py:BetaIntegration","migen_src/force_end.py:ForceEnd","migen_src/markers.py:Markers","migen_src/fix_0xff.py:Fix0xFF","migen_src/fix_0xff2.py:Fix0xFF2","migen_src/integration_3.py:Integration3"])
p("C87","Predictor 6 and very large or empty images",
"The predictor-6 decoder counts samples in a C int. Whenever a well-formed file (any header layout, any number of components) declares 2^31 or more samples and its scan data hold at least the first two rows, lj92_decode reports success having delivered exactly the first row, and nothing else of the target is changed: 65534 of 65535 rows are missing without any indication. If a file selects predictor 6 and declares no columns, or no components, the decoder leaves one of its own arrays, whatever the bytes.",
"all Huffman specifications, header layouts, component counts, sizes with x*y >= 2^31, scan data, tables, skips, memory contents; for the second part all byte sequences",
"a universally quantified failure; the files concerned have billions of samples",
["liblj92/lj92.c:parsePred6","liblj92/lj92.c:lj92_decode","liblj92/lj92.c:lj92_open"])

p("C88","What the shipped decoder allocates is given back",
"In a program that opens any files (arbitrary bytes) with lj92_open, in any order and number, and closes handles with lj92_close in any order, whatever allocations fail, the library never frees a block that is not allocated at the time. A failing lj92_open returns no handle. At every moment the blocks allocated are those the open handles own, those that were there before, and for each file opened at most one less than the file has byte pairs FF C4: with files that have one such pair nothing is lost, and when all handles are closed everything has been given back. A well-formed file with n DHT segments loses exactly n-1 blocks each time it is opened and closed. lj92_open's result is the one with unlimited memory unless an allocation fails, and then the result is the out-of-memory error.",
"all byte sequences, all interleavings of opens and closes over any number of handles, all patterns of failing allocations", "a leak or double free shows only for particular files and particular failing allocations; tests do not fail allocations",
["liblj92/lj92.c:lj92_open","liblj92/lj92.c:lj92_close","liblj92/lj92.c:free_memory","liblj92/lj92.c:parseHuff","liblj92/lj92.c:parseImage"])
p("C89","What the shipped encoder allocates is given back",
"lj92_encode, for every image and whatever allocations fail, never frees a block that is not allocated; when it returns an error nothing it allocated remains and no buffer is handed out; when it succeeds exactly one new block remains, the buffer handed to the caller - unless the final shrinking realloc fails: then it reports success with a NULL buffer and the block is lost. It dies on a NULL pointer exactly if the image has a pixel and the row cache of one of the two passes cannot be allocated.",
"all images, sizes, strides, linearization tables and patterns of failing allocations", "tests do not fail allocations",
["liblj92/lj92.c:lj92_encode","liblj92/lj92.c:frequencyScan","liblj92/lj92.c:writeBody"])
p("C90","The shipped Verilog is what the Python describes",
"For the modules markers, force_end, auto_reset, register_file, signals, predictor, difference, normalize, encode, merge, lj92_pipeline_fifo, converter, converter_fifo, input_handler, output_handler, fix_0xff and fix_0xff2 of the synthesisable Verilog the repository ships (verilog_src/beta_integration.v), and for delayer, address_generator, debug_module, b16_b64, b16_b40, b64_b32_2, axihp_writer, axihp_reader, axi_lite, dma_axi_lite and core_axi_lite (with the table memory it is wired to, and without a full reset): whatever is presented at the input pins in every cycle, from power-on and with resets at any time (other than that one), the values at all output pins are in every cycle those that follow from the Python source.",
"all sequences of input values of any length, including resets at any cycle",
"the equality of two machines for all input histories; simulation compares a few histories, and only of the Python side",
["verilog_src/beta_integration.v","verilog_src/delayer.v","verilog_src/address_generator.v","verilog_src/debug_module.v","verilog_src/b16_b64.v","verilog_src/b16_b40.v","verilog_src/b64_b32_2.v","verilog_src/axihp_writer.v","verilog_src/axihp_reader.v","verilog_src/axi_lite.v","verilog_src/dma_axi_lite.v","verilog_src/core_axi_lite.v","migen_src/markers.py:Markers","migen_src/converter.py:Converter","migen_src/vbits_to_cbits.py:InputHandler","migen_src/vbits_to_cbits.py:OutputHandler","migen_src/fix_0xff.py:Fix0xFF"])
p("C91","The shipped Verilog core delivers every image at its pins, or says it was cut",
"The module top of the shipped verilog_src/beta_integration.v, seen at its pins only (pixel_in1, pixel_in2, valid_in, busy_in, full_rst; valid_out, data_out, end_out, nready), is in every cycle what the Python source says it is, whatever the registers without initial value hold. From configuration, or from any clock edge with full_rst = 1, and for any 12-bit pixels under any schedule of valid_in and busy_in: every finished frame either decodes to exactly the 4096 x 3072 pixels taken, or carries the marker of a cut frame; the decoder shipped with the core opens the former to those pixels; if the sink is ready and the source offers again and again every frame is finished; a smooth frame that is fed and drained within the time limit is delivered whole; the time limit is a deadline; a frame whose code has more than 106655872 bits is flagged; and a word shown to a busy sink stands in the next cycle, with its end flag, but for a ninth header word, an end flag set late, the repetition of an end word, and a payload word more than 6666000 cycles after a pair of pixels of its frame was taken.",
"all histories of the input pins before a full reset, all pixel values, all schedules of valid_in and busy_in of any length, all contents of uninitialised registers, all frames of a run",
"the Verilog is what is synthesised, and a frame of it takes more than six million cycles; no simulation covers one frame under all schedules, and none the frames after arbitrary histories",
["verilog_src/beta_integration.v:top","migen_src/beta_integration.py:BetaIntegration","migen_src/integration_3.py:Integration3","migen_src/integration_2.py:Integration2","migen_src/integration_1.py:Integration1"])
with open(os.path.join(os.path.dirname(__file__), "..", "properties.jsonl"), "w") as f:
    for x in P: f.write(json.dumps(x) + "\n")
print(len(P))
